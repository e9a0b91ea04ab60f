Require Import ZArith List Bool Lia ZifyBool.
Import ListNotations.
From Verif Require Import Base BaseFacts ArraySpec ArrayProofs IteratorModel.
Open Scope Z_scope.

Lemma ck_ok : forall x, -32768 <= x <= 32767 -> int16_ck x = Some x.
Proof. intros x H. unfold int16_ck. now assert ((-32768 <=? x) && (x <=? 32767) = true) as -> by lia. Qed.

Lemma next_cases : forall n i, 0 <= n <= 32767 -> -32768 <= i <= 32766 ->
  it_next n i = Some (if (0 <=? i + 1) && (i + 1 <? n) then (i + 1, true) else (i, false)).
Proof.
  intros n i Hn Hi. unfold it_next. rewrite ck_ok by lia. unfold it_valid.
  assert ((i + 1 >=? 0) && (i + 1 <? n) = (0 <=? i + 1) && (i + 1 <? n)) as -> by lia.
  now destruct ((0 <=? i + 1) && (i + 1 <? n)).
Qed.

Lemma back_cases : forall n i, 0 <= n <= 32767 -> -32767 <= i <= 32767 ->
  it_back n i = Some (if (1 <=? i) && (i - 1 <? n) then (i - 1, true) else (i, false)).
Proof.
  intros n i Hn Hi. unfold it_back. rewrite ck_ok by lia. unfold it_valid.
  assert ((i - 1 >=? 0) && (i - 1 <? n) = (1 <=? i) && (i - 1 <? n)) as -> by lia.
  now destruct ((1 <=? i) && (i - 1 <? n)).
Qed.

Lemma visit_forward : forall T (dflt : T) get n k i, 0 <= n <= 32767 -> -1 <= i ->
  i + 1 + Z.of_nat k = n ->
  it_visit n (it_next n) dflt get i (S k) = Some (cells get (i + 1) k).
Proof.
  intros T dflt get n k. induction k as [|k IH]; intros i Hn Hi Hk.
  - cbn [it_visit]. rewrite next_cases by lia.
    assert ((0 <=? i + 1) && (i + 1 <? n) = false) as -> by lia. reflexivity.
  - change (it_visit n (it_next n) dflt get i (S (S k))) with
      (match it_next n i with None => None | Some (_, false) => Some []
       | Some (j, true) => match it_visit n (it_next n) dflt get j (S k) with
          None => None | Some r => Some (it_current n dflt get j :: r) end end).
    rewrite next_cases by lia. assert ((0 <=? i + 1) && (i + 1 <? n) = true) as -> by lia.
    rewrite IH by lia. cbn [cells]. unfold it_current, it_valid.
    assert ((i + 1 >=? 0) && (i + 1 <? n) = true) as -> by lia. reflexivity.
Qed.

Lemma visit_backward : forall T (dflt : T) get n k, 0 <= n <= 32767 ->
  Z.of_nat k <= n ->
  it_visit n (it_back n) dflt get (Z.of_nat k) (S k) = Some (rev (cells get 0 k)).
Proof.
  intros T dflt get n k. induction k as [|k IH]; intros Hn Hk.
  - cbn [it_visit]. rewrite back_cases by lia. reflexivity.
  - change (it_visit n (it_back n) dflt get (Z.of_nat (S k)) (S (S k))) with
      (match it_back n (Z.of_nat (S k)) with None => None | Some (_, false) => Some []
       | Some (j, true) => match it_visit n (it_back n) dflt get j (S k) with
          None => None | Some r => Some (it_current n dflt get j :: r) end end).
    rewrite back_cases by lia.
    assert ((1 <=? Z.of_nat (S k)) && (Z.of_nat (S k) - 1 <? n) = true) as -> by lia.
    replace (Z.of_nat (S k) - 1) with (Z.of_nat k) by lia. rewrite IH by lia.
    rewrite cells_snoc, rev_app_distr. cbn [rev app]. unfold it_current, it_valid.
    assert ((Z.of_nat k >=? 0) && (Z.of_nat k <? n) = true) as -> by lia. reflexivity.
Qed.

Lemma it_run_range : forall n ops i, 0 <= n <= 32766 -> -1 <= i <= n ->
  exists j, it_run n i ops = Some j /\ -1 <= j <= n.
Proof.
  intros n ops. induction ops as [|o ops IH]; intros i Hn Hi; cbn [it_run].
  - eauto.
  - destruct o; cbn [it_step].
    + rewrite next_cases by lia. destruct ((0 <=? i + 1) && (i + 1 <? n)) eqn:E; apply IH; lia.
    + rewrite back_cases by lia. destruct ((1 <=? i) && (i - 1 <? n)) eqn:E; apply IH; lia.
    + apply IH; [lia|]. unfold it_reset. lia.
    + apply IH; [lia|]. unfold it_reset_end. rewrite s16_small by lia. lia.
Qed.

(** Wrap-around. *)
Lemma wrap_next_mod : forall n i, 1 <= n <= 32767 -> 0 <= i < n ->
  wrap_next n i = Some ((i + 1) mod n, true).
Proof.
  intros n i Hn Hi. unfold wrap_next. rewrite next_cases by lia.
  destruct (Z.ltb_spec (i + 1) n) as [H|H].
  - assert ((0 <=? i + 1) && true = true) as -> by lia. rewrite Z.mod_small by lia. reflexivity.
  - rewrite andb_false_r. unfold it_reset. rewrite next_cases by lia.
    assert ((0 <=? -1 + 1) && (-1 + 1 <? n) = true) as -> by lia.
    assert (i + 1 = n) as -> by lia. rewrite Z.mod_same by lia. reflexivity.
Qed.

Lemma wrap_back_mod : forall n i, 1 <= n <= 32767 -> 0 <= i < n ->
  wrap_back n i = Some ((i - 1) mod n, true).
Proof.
  intros n i Hn Hi. unfold wrap_back. rewrite back_cases by lia.
  destruct (Z.leb_spec 1 i) as [H|H].
  - assert (true && (i - 1 <? n) = true) as -> by lia. rewrite Z.mod_small by lia. reflexivity.
  - cbn [andb]. unfold it_reset_end. rewrite s16_small by lia. rewrite back_cases by lia.
    assert ((1 <=? n) && (n - 1 <? n) = true) as -> by lia.
    assert (i - 1 = n - 1 + (-1) * n) as -> by lia. rewrite Z.mod_add by lia.
    rewrite Z.mod_small by lia. reflexivity.
Qed.

Lemma wrap_cycle_k : forall T (dflt : T) get n k i, 1 <= n <= 32767 -> 0 <= i < n ->
  it_moves n (wrap_next n) dflt get i k =
  Some ((i + Z.of_nat k) mod n, map (fun j => get ((i + 1 + Z.of_nat j) mod n)) (seq 0 k)).
Proof.
  intros T dflt get n k. induction k as [|k IH]; intros i Hn Hi.
  - cbn [it_moves seq map]. rewrite Z.add_0_r, Z.mod_small by lia. reflexivity.
  - cbn [it_moves]. rewrite wrap_next_mod by lia.
    assert (Hj : 0 <= (i + 1) mod n < n) by (apply Z.mod_pos_bound; lia).
    rewrite IH by lia. unfold it_current, it_valid.
    assert (((i + 1) mod n >=? 0) && ((i + 1) mod n <? n) = true) as -> by lia.
    cbn [negb seq map]. do 2 f_equal.
    + rewrite Zplus_mod_idemp_l. f_equal. lia.
    + f_equal; [f_equal; f_equal; lia|]. rewrite <- seq_shift, map_map. apply map_ext.
      intros j. f_equal. rewrite <- Z.add_assoc, Zplus_mod_idemp_l. f_equal. lia.
Qed.

(** Every position occurs exactly once among n consecutive ones. *)
Lemma residues_once : forall n i p, 1 <= n -> 0 <= p < n ->
  exists j, 0 <= j < n /\ (i + j) mod n = p /\
    forall j', 0 <= j' < n -> (i + j') mod n = p -> j' = j.
Proof.
  intros n i p Hn Hp. exists ((p - i) mod n).
  assert (H0 : 0 <= (p - i) mod n < n) by (apply Z.mod_pos_bound; lia).
  split; [exact H0|]. split.
  - rewrite Zplus_mod_idemp_r. replace (i + (p - i)) with p by lia. now apply Z.mod_small.
  - intros j' Hj' E. rewrite <- E. rewrite Zminus_mod_idemp_l.
    replace (i + j' - i) with j' by lia. symmetry. now apply Z.mod_small.
Qed.

Lemma wrap_cycle_l : forall T (dflt : T) get n i, 1 <= n <= 32767 -> 0 <= i < n ->
  exists vs, it_moves n (wrap_next n) dflt get i (Z.to_nat n) = Some (i, vs) /\
    vs = cells get (i + 1) (Z.to_nat (n - 1 - i)) ++ cells get 0 (Z.to_nat (i + 1)).
Proof.
  intros T dflt get n i Hn Hi. eexists. rewrite wrap_cycle_k by lia. split.
  - f_equal. f_equal. replace (i + Z.of_nat (Z.to_nat n)) with (i + 1 * n) by lia.
    rewrite Z.mod_add by lia. now apply Z.mod_small.
  - assert (G : forall k s p, (forall j, (j < k)%nat -> (s + Z.of_nat j) mod n = p + Z.of_nat j) ->
      map (fun j => get ((s + Z.of_nat j) mod n)) (seq 0 k) = cells get p k).
    { clear. intros k. induction k as [|k IH]; intros s p H; cbn [seq map cells]; [reflexivity|].
      f_equal.
      - f_equal. rewrite (H O) by lia. lia.
      - rewrite <- seq_shift, map_map. rewrite <- (IH (s + 1) (p + 1)).
        + apply map_ext. intros j. do 2 f_equal. lia.
        + intros j Hj. specialize (H (S j) ltac:(lia)).
          replace (s + 1 + Z.of_nat j) with (s + Z.of_nat (S j)) by lia. lia. }
    replace (Z.to_nat n) with (Z.to_nat (n - 1 - i) + Z.to_nat (i + 1))%nat by lia.
    rewrite seq_app, map_app. f_equal.
    + apply G. intros j Hj. apply Z.mod_small. lia.
    + replace (0 + Z.to_nat (n - 1 - i))%nat with (Z.to_nat (n - 1 - i) + 0)%nat by lia.
      assert (E : forall a k, map (fun j => get ((i + 1 + Z.of_nat j) mod n)) (seq (a + 0) k) =
        map (fun j => get ((i + 1 + Z.of_nat a + Z.of_nat j) mod n)) (seq 0 k)).
      { clear. intros a k. replace (a + 0)%nat with a by lia.
        assert (H : forall b, map (fun j => get ((i + 1 + Z.of_nat j) mod n)) (seq (a + b) k) =
           map (fun j => get ((i + 1 + Z.of_nat a + Z.of_nat j) mod n)) (seq b k)).
        { induction k as [|k IH]; intros b; cbn [seq map]; [reflexivity|]. f_equal.
          - do 2 f_equal. lia.
          - rewrite <- (IH (S b)). do 2 f_equal. lia. }
        specialize (H O). replace (a + 0)%nat with a in H by lia. exact H. }
      rewrite E. apply G. intros j Hj.
      replace (i + 1 + Z.of_nat (Z.to_nat (n - 1 - i)) + Z.of_nat j) with (Z.of_nat j + 1 * n) by lia.
      rewrite Z.mod_add by lia. rewrite Z.mod_small by lia. lia.
Qed.

Lemma wrap_inverse_l : forall n i, 1 <= n <= 32767 -> 0 <= i < n ->
  exists j k, 0 <= j < n /\ 0 <= k < n /\
    wrap_next n i = Some (j, true) /\ wrap_back n j = Some (i, true) /\
    wrap_back n i = Some (k, true) /\ wrap_next n k = Some (i, true).
Proof.
  intros n i Hn Hi. exists ((i + 1) mod n), ((i - 1) mod n).
  assert (H1 : 0 <= (i + 1) mod n < n) by (apply Z.mod_pos_bound; lia).
  assert (H2 : 0 <= (i - 1) mod n < n) by (apply Z.mod_pos_bound; lia).
  split; [exact H1|]. split; [exact H2|].
  rewrite !wrap_next_mod, !wrap_back_mod by lia. repeat split.
  - do 2 f_equal. rewrite Zminus_mod_idemp_l. replace (i + 1 - 1) with i by lia. now apply Z.mod_small.
  - do 2 f_equal. rewrite Zplus_mod_idemp_l. replace (i - 1 + 1) with i by lia. now apply Z.mod_small.
Qed.

Lemma wrap_start_l : forall n, 1 <= n <= 32767 ->
  wrap_next n it_reset = Some (0, true) /\ wrap_back n it_reset = Some (n - 1, true).
Proof.
  intros n Hn. unfold wrap_next, wrap_back, it_reset, it_reset_end.
  rewrite s16_small by lia. rewrite next_cases, !back_cases by lia.
  assert ((0 <=? -1 + 1) && (-1 + 1 <? n) = true) as -> by lia.
  assert ((1 <=? n) && (n - 1 <? n) = true) as -> by lia. split; reflexivity.
Qed.

Lemma wrap_empty_l : forall i, -1 <= i <= 0 ->
  exists j k, wrap_next 0 i = Some (j, true) /\ wrap_back 0 i = Some (k, true) /\
    it_valid 0 j = false /\ it_valid 0 k = false.
Proof.
  intros i Hi. unfold wrap_next, wrap_back, it_reset, it_reset_end.
  rewrite s16_small by lia. rewrite !next_cases, !back_cases by lia.
  assert ((0 <=? i + 1) && (i + 1 <? 0) = false) as -> by lia.
  assert ((1 <=? i) && (i - 1 <? 0) = false) as -> by lia.
  cbn [andb Z.leb Z.ltb Z.compare]. do 2 eexists. repeat split; reflexivity.
Qed.

Lemma iterate_forward_l : forall T (dflt : T) get n, 0 <= n <= 32767 ->
  it_visit n (it_next n) dflt get it_reset (S (Z.to_nat n)) = Some (cells get 0 (Z.to_nat n)).
Proof. intros T dflt get n Hn. unfold it_reset. apply visit_forward; lia. Qed.

Lemma iterate_backward_l : forall T (dflt : T) get n, 0 <= n <= 32767 ->
  it_visit n (it_back n) dflt get (it_reset_end n) (S (Z.to_nat n)) = Some (rev (cells get 0 (Z.to_nat n))).
Proof.
  intros T dflt get n Hn. unfold it_reset_end. rewrite s16_small by lia.
  rewrite <- (Z2Nat.id n) at 3 by lia. apply visit_backward; lia.
Qed.

Lemma iterator_moves_l : forall T (dflt : T) get n ops, 0 <= n <= 32766 ->
  exists i, it_run n it_reset ops = Some i /\ -1 <= i <= n /\
    (it_current n dflt get i = if inb i n then get i else dflt) /\
    (exists j b, it_next n i = Some (j, b) /\
       (b = true -> j = i + 1 /\ 0 <= j < n) /\ (b = false -> j = i /\ n <= i + 1)) /\
    (exists j b, it_back n i = Some (j, b) /\
       (b = true -> j = i - 1 /\ 0 <= j < n) /\ (b = false -> j = i /\ i <= 0)).
Proof.
  intros T dflt get n ops Hn.
  destruct (it_run_range n ops it_reset Hn) as [i [E Hi]]; [unfold it_reset; lia|].
  exists i. split; [exact E|]. split; [exact Hi|]. split.
  - unfold it_current, it_valid. assert ((i >=? 0) && (i <? n) = inb i n) as -> by (unfold inb; lia).
    now destruct (inb i n).
  - split.
    + rewrite next_cases by lia. destruct ((0 <=? i + 1) && (i + 1 <? n)) eqn:E2;
        do 2 eexists; (split; [reflexivity|]); split; intros; try discriminate; lia.
    + rewrite back_cases by lia. destruct ((1 <=? i) && (i - 1 <? n)) eqn:E2;
        do 2 eexists; (split; [reflexivity|]); split; intros; try discriminate; lia.
Qed.

Lemma it_run_app : forall n a b i, it_run n i (a ++ b) = match it_run n i a with Some j => it_run n j b | None => None end.
Proof.
  intros n a. induction a as [|o a IH]; intros b i; [reflexivity|]. cbn [app it_run].
  destruct (it_step n i o) as [[j x]|]; [apply IH|reflexivity].
Qed.
Lemma iterate_again_l : forall (T : Type) (dflt : T) get n ops, 0 <= n <= 32766 ->
  exists i j, it_run n it_reset (ops ++ [IReset]) = Some i /\ it_run n it_reset (ops ++ [IResetEnd]) = Some j /\
    it_visit n (it_next n) dflt get i (S (Z.to_nat n)) = Some (cells get 0 (Z.to_nat n)) /\
    it_visit n (it_back n) dflt get j (S (Z.to_nat n)) = Some (rev (cells get 0 (Z.to_nat n))).
Proof.
  intros T dflt get n ops Hn. destruct (it_run_range n ops it_reset Hn) as [i [E Hi]]; [unfold it_reset; lia|].
  exists it_reset, (it_reset_end n). rewrite !it_run_app, E. cbn [it_run it_step].
  split; [reflexivity|]. split; [reflexivity|]. split; [apply iterate_forward_l; lia|apply iterate_backward_l; lia].
Qed.
