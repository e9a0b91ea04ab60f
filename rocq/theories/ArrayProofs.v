Require Import ZArith List Bool Lia ZifyBool.
Import ListNotations.
From Verif Require Import Base BaseFacts ArrayModel ArraySpec.
Open Scope Z_scope.

Section A.
Context {T : Type}.
Variable teq : T -> T -> bool.
Variable dflt : T.

Lemma nth_cells : forall (m : Z -> T) n i k d, (k < n)%nat -> nth k (cells m i n) d = m (i + Z.of_nat k).
Proof.
  intros m n. induction n as [|n IH]; intros i k d H; [lia|]. destruct k as [|k]; cbn [cells nth].
  - f_equal. lia.
  - rewrite IH by lia. f_equal. lia.
Qed.

Lemma lookup_cells : forall (m : Z -> T) n i,
  lookup dflt (cells m 0 (Z.to_nat n)) i = if inb i n then m i else dflt.
Proof.
  intros m n i. unfold lookup. destruct (Z.ltb_spec i 0).
  - assert (inb i n = false) as -> by (apply inb_false; lia). reflexivity.
  - destruct (inb i n) eqn:E.
    + apply inb_true in E. rewrite nth_cells by lia. f_equal. lia.
    + apply inb_false in E. apply nth_overflow. rewrite cells_length. lia.
Qed.

Lemma s16_pos : forall n, 0 <= n <= 32767 -> s16 n = n.
Proof. intros n H. apply s16_small. lia. Qed.

Lemma s16_neg : forall n, 32768 <= n <= 65535 -> s16 n < 0.
Proof. intros n H. unfold s16. cbv zeta. rewrite Z.mod_small by lia. destruct (Z.ltb_spec n 32768); lia. Qed.

Lemma arr_get_small : forall n (m : Z -> T) i, 0 <= n <= 32767 ->
  arr_get dflt n m i = Some (lookup dflt (cells m 0 (Z.to_nat n)) i) /\
  (arr_valid n i = true <-> 0 <= i < n).
Proof.
  intros n m i Hn. unfold arr_get, arr_valid. rewrite s16_pos by lia. rewrite lookup_cells.
  assert ((i >=? 0) && (i <? n) = inb i n) as -> by (unfold inb; lia).
  split; [|apply inb_true]. destruct (inb i n); reflexivity.
Qed.

Lemma arr_get_large : forall n (m : Z -> T) i, 32768 <= n <= 65535 ->
  arr_get dflt n m i = Some dflt /\ arr_valid n i = false.
Proof.
  intros n m i Hn. unfold arr_get, arr_valid. pose proof (s16_neg n Hn).
  assert ((i >=? 0) && (i <? s16 n) = false) as -> by lia. auto.
Qed.

Lemma arr_index_loop_first : forall n (m : Z -> T) x k i, 0 <= i -> i + Z.of_nat k <= n ->
  arr_index_loop teq n m x i k =
  Some (match first_pos teq (cells m i k) x with Some p => i + p | None => -1 end).
Proof.
  intros n m x k. induction k as [|k IH]; intros i Hi Hk; cbn [arr_index_loop cells first_pos]; [reflexivity|].
  assert (inb i n = true) as -> by (apply inb_true; lia).
  destruct (teq (m i) x); [f_equal; lia|]. rewrite IH by lia.
  destruct (first_pos teq (cells m (i + 1) k) x); f_equal; lia.
Qed.

Lemma arr_index_of_small : forall n (m : Z -> T) x, 0 <= n <= 32767 ->
  arr_index_of teq n m x =
  Some (match first_pos teq (cells m 0 (Z.to_nat n)) x with Some p => p | None => -1 end).
Proof.
  intros n m x Hn. unfold arr_index_of. rewrite s16_pos by lia.
  rewrite arr_index_loop_first by lia. destruct (first_pos _ _ x); f_equal; lia.
Qed.

Lemma arr_index_of_large : forall n (m : Z -> T) x, 32768 <= n <= 65535 ->
  arr_index_of teq n m x = Some (-1).
Proof.
  intros n m x Hn. unfold arr_index_of. pose proof (s16_neg n Hn).
  replace (Z.to_nat (s16 n)) with O by lia. reflexivity.
Qed.

(** What [first_pos] means. *)
Lemma first_pos_spec : forall l x,
  match first_pos teq l x with
  | Some p => 0 <= p < Z.of_nat (length l) /\ teq (lookup dflt l p) x = true /\
              forall q, 0 <= q < p -> teq (lookup dflt l q) x = false
  | None => forall y, In y l -> teq y x = false
  end.
Proof.
  intros l x. induction l as [|y l IH]; cbn [first_pos].
  - intros y [].
  - destruct (teq y x) eqn:E.
    + cbn [length]. split; [lia|]. split; [exact E|]. intros q Hq. lia.
    + destruct (first_pos teq l x) as [p|].
      * destruct IH as [H1 [H2 H3]]. cbn [length]. split; [lia|]. split.
        { unfold lookup in *. destruct (Z.ltb_spec (p + 1) 0); [lia|].
          destruct (Z.ltb_spec p 0); [lia|].
          replace (Z.to_nat (p + 1)) with (S (Z.to_nat p)) by lia. exact H2. }
        intros q Hq. unfold lookup in *. destruct (Z.ltb_spec q 0); [lia|].
        destruct (Z.eq_dec q 0) as [->|Hq0]; [exact E|].
        specialize (H3 (q - 1) ltac:(lia)). destruct (Z.ltb_spec (q - 1) 0); [lia|].
        replace (Z.to_nat q) with (S (Z.to_nat (q - 1))) by lia. exact H3.
      * intros z [<-|Hz]; [exact E|]. now apply IH.
Qed.

(** ** FixedArray *)
Lemma fix_set_small : forall n (m : Z -> T) i v, 0 <= n <= 32767 ->
  fix_set n m i v = Some (if inb i n then upd m i v else m).
Proof.
  intros n m i v Hn. unfold fix_set, arr_valid. rewrite s16_pos by lia.
  assert ((i >=? 0) && (i <? n) = inb i n) as -> by (unfold inb; lia).
  destruct (inb i n); reflexivity.
Qed.

Lemma arr_steps_last : forall n ops (s : arrays T), 0 <= n <= 32767 ->
  exists s', arr_steps n s ops = Some s' /\
    (forall a i, a_mem s' a i = last_write n a i ops (a_mem s a i)) /\
    a_dummy s' = last_out n ops (a_dummy s).
Proof.
  intros n ops. induction ops as [|o ops IH]; intros s Hn; cbn [arr_steps last_write last_out].
  - exists s. auto.
  - assert (HS : exists s1, arr_step n s o = Some s1 /\ (forall a i, a_mem s1 a i =
        match o with OpSetAt b j v | OpIndexAssign b j v =>
          if Nat.eqb b a && (j =? i) && inb j n then v else a_mem s a i end) /\
        a_dummy s1 = match o with OpSetAt _ _ _ => a_dummy s | OpIndexAssign _ j v => if inb j n then a_dummy s else v end).
    { assert (HU : forall b j v a i,
        upd_arr (a_mem s) b (upd (a_mem s b) j v) a i =
        (if Nat.eqb b a && (j =? i) && true then v else a_mem s a i)).
      { intros b j v a i. unfold upd_arr, upd. rewrite andb_true_r.
        rewrite (Nat.eqb_sym b a), (Z.eqb_sym j i).
        destruct (Nat.eqb_spec a b); [subst a|reflexivity]. cbn [andb].
        destruct (Z.eqb_spec i j); reflexivity. }
      destruct o as [b j v|b j v]; cbn [arr_step].
      - rewrite fix_set_small by lia. eexists. split; [reflexivity|]. split; [|reflexivity]. intros a i. cbn [a_mem].
        destruct (inb j n) eqn:Ej.
        + apply HU.
        + rewrite andb_false_r. unfold upd_arr. destruct (Nat.eqb_spec a b); congruence.
      - unfold arr_valid. rewrite s16_pos by lia.
        assert ((j >=? 0) && (j <? n) = inb j n) as -> by (unfold inb; lia).
        destruct (inb j n) eqn:Ej; cbn [negb]; eexists; (split; [reflexivity|]); (split; [|reflexivity]); intros a i; cbn [a_mem].
        + apply HU.
        + rewrite andb_false_r. reflexivity. }
    destruct HS as [s1 [E1 [H1 D1]]]. rewrite E1. destruct (IH s1 Hn) as [s' [E' [H' D']]].
    exists s'. split; [exact E'|]. split; [intros a i; rewrite H', H1; destruct o; reflexivity|].
    rewrite D', D1. destruct o; reflexivity.
Qed.

(** ** Collection *)
Definition coll_rel (n : Z) (c : coll T) (l : list T) : Prop :=
  c_count c = Z.of_nat (length l) /\ Z.of_nat (length l) <= n /\
  l = cells (c_mem c) 0 (length l).

Lemma set_nth_cells : forall (m : Z -> T) k i j v,
  set_nth (cells m i k) j v = cells (upd m (i + Z.of_nat j) v) i k.
Proof.
  intros m k. induction k as [|k IH]; intros i j v; cbn [cells set_nth]; [reflexivity|].
  destruct j as [|j].
  - rewrite Z.add_0_r, upd_same. f_equal. apply cells_ext. intros q Hq. rewrite upd_other; [reflexivity|lia].
  - rewrite upd_other by lia. f_equal. rewrite IH. f_equal. f_equal. lia.
Qed.

Lemma set_nth_length : forall (l : list T) i v, length (set_nth l i v) = length l.
Proof. intros l. induction l as [|x l IH]; intros [|i] v; cbn [set_nth length]; congruence. Qed.

Lemma set_nth_beyond : forall (l : list T) i v, (length l <= i)%nat -> set_nth l i v = l.
Proof.
  intros l. induction l as [|x l IH]; intros [|i] v H; cbn [set_nth length] in *; try reflexivity; try lia.
  rewrite IH by lia. reflexivity.
Qed.

Lemma coll_step_refines : forall n c l o, 0 <= n <= 32767 -> coll_rel n c l ->
  exists c', coll_step n c o = Some c' /\ coll_rel n c' (list_step n l o).
Proof.
  intros n c l o Hn [Hc [Hl Hi]]. destruct o as [v|i v|]; cbn [coll_step list_step].
  - rewrite Hc. destruct (Z.ltb_spec (Z.of_nat (length l)) n) as [H|H].
    + rewrite s16_pos by lia. rewrite fix_set_small by lia.
      assert (inb (Z.of_nat (length l)) n = true) as -> by (apply inb_true; lia).
      eexists. split; [reflexivity|]. unfold coll_rel. cbn [c_count c_mem].
      rewrite app_length. cbn [length]. rewrite u16_small by lia. repeat split; try lia.
      replace (length l + 1)%nat with (S (length l)) by lia. rewrite cells_snoc, Z.add_0_l, upd_same.
      f_equal. rewrite Hi at 1. apply cells_ext. intros j Hj. rewrite upd_other; [reflexivity|lia].
    + eexists. split; [reflexivity|]. unfold coll_rel. auto.
  - unfold coll_valid. rewrite Hc. destruct (Z.ltb_spec i 0) as [H|H].
    + assert ((i >=? 0) && (i <? Z.of_nat (length l)) = false) as -> by lia.
      eexists. split; [reflexivity|]. unfold coll_rel. auto.
    + destruct (Z.ltb_spec i (Z.of_nat (length l))) as [H2|H2].
      * assert (i >=? 0 = true) as -> by lia. cbn [andb negb]. rewrite fix_set_small by lia.
        assert (inb i n = true) as -> by (apply inb_true; lia).
        eexists. split; [reflexivity|]. unfold coll_rel. cbn [c_count c_mem].
        rewrite set_nth_length. repeat split; try lia.
        rewrite Hi at 1. rewrite set_nth_cells. f_equal. f_equal. lia.
      * rewrite andb_false_r. cbn [negb]. eexists. split; [reflexivity|].
        rewrite set_nth_beyond by lia. unfold coll_rel. auto.
  - eexists. split; [reflexivity|]. unfold coll_rel. cbn. repeat split; lia.
Qed.

Lemma coll_run_refines : forall n ops c l, 0 <= n <= 32767 -> coll_rel n c l ->
  exists c', coll_run n c ops = Some c' /\ coll_rel n c' (list_run n l ops).
Proof.
  intros n ops. induction ops as [|o ops IH]; intros c l Hn H; cbn [coll_run]; unfold list_run; cbn [fold_left].
  - eauto.
  - destruct (coll_step_refines n c l o Hn H) as [c1 [E1 H1]]. rewrite E1. now apply IH.
Qed.

Lemma coll_get_rel : forall n c l i, 0 <= n <= 32767 -> coll_rel n c l ->
  coll_get dflt n c i = Some (lookup dflt l i).
Proof.
  intros n c l i Hn [Hc [Hl Hi]]. unfold coll_get, coll_valid. rewrite Hc.
  rewrite Hi at 2. rewrite <- (Nat2Z.id (length l)) at 2. rewrite lookup_cells.
  assert ((i >=? 0) && (i <? Z.of_nat (length l)) = inb i (Z.of_nat (length l))) as -> by (unfold inb; lia).
  destruct (inb i (Z.of_nat (length l))) eqn:E; cbn [negb]; [|reflexivity].
  apply inb_true in E. destruct (arr_get_small n (c_mem c) i Hn) as [-> _].
  rewrite lookup_cells. assert (inb i n = true) as -> by (apply inb_true; lia). reflexivity.
Qed.

Lemma coll_index_loop_rel : forall n c x k i, 0 <= n <= 32767 -> 0 <= i -> i + Z.of_nat k <= n ->
  coll_index_loop teq dflt n c x i k =
  Some (match first_pos teq (cells (c_mem c) i k) x with Some p => s8 (i + p) | None => -1 end).
Proof.
  intros n c x k. induction k as [|k IH]; intros i Hn Hi Hk; cbn [coll_index_loop cells first_pos]; [reflexivity|].
  destruct (arr_get_small n (c_mem c) i Hn) as [-> _]. rewrite lookup_cells.
  assert (inb i n = true) as -> by (apply inb_true; lia).
  destruct (teq (c_mem c i) x); [f_equal; f_equal; lia|]. rewrite IH by lia.
  destruct (first_pos teq (cells (c_mem c) (i + 1) k) x); do 2 f_equal; lia.
Qed.

Lemma coll_index_rel : forall n c l x, 0 <= n <= 32767 -> coll_rel n c l ->
  coll_index_of teq dflt n c x =
  Some (match first_pos teq l x with Some p => s8 p | None => -1 end).
Proof.
  intros n c l x Hn [Hc [Hl Hi]]. unfold coll_index_of. rewrite Hc, Nat2Z.id.
  rewrite coll_index_loop_rel by lia. rewrite <- Hi. destruct (first_pos teq l x); do 2 f_equal; lia.
Qed.

(** ** StaticArray *)
Lemma st_loop_first : forall n (m : Z -> T) x k i fuel, 0 <= n <= 255 -> 0 <= i -> i + Z.of_nat k = n ->
  (k < fuel)%nat ->
  st_index_loop teq dflt n m x i fuel =
  Some (match first_pos teq (cells m i k) x with Some p => s8 (i + p) | None => -1 end).
Proof.
  intros n m x k. induction k as [|k IH]; intros i fuel Hn Hi Hk Hf;
    destruct fuel as [|fuel]; try lia; cbn [st_index_loop cells first_pos].
  - destruct (Z.ltb_spec i n); [lia|reflexivity].
  - destruct (Z.ltb_spec i n); [|lia]. unfold st_get, st_valid.
    assert ((i >=? 0) && (i <? n) = true) as -> by lia.
    destruct (teq (m i) x); [do 2 f_equal; lia|].
    rewrite u8_small by lia. rewrite IH by lia.
    destruct (first_pos teq (cells m (i + 1) k) x); do 2 f_equal; lia.
Qed.

Lemma st_loop_diverges : forall n (m : Z -> T) x fuel i, 256 <= n -> 0 <= i < 256 ->
  (forall j, 0 <= j < 256 -> teq (m j) x = false) ->
  st_index_loop teq dflt n m x i fuel = None.
Proof.
  intros n m x fuel. induction fuel as [|fuel IH]; intros i Hn Hi H; cbn [st_index_loop]; [reflexivity|].
  destruct (Z.ltb_spec i n); [|lia]. unfold st_get, st_valid.
  assert ((i >=? 0) && (i <? n) = true) as -> by lia. rewrite H by lia.
  apply IH; try assumption. apply u8_range.
Qed.
End A.

(** ** Clear at byte level *)
Lemma memset0_spec : forall n b i j,
  memset0 b i n j = if (i <=? j) && (j <? i + Z.of_nat n) then 0 else b j.
Proof.
  intros n. induction n as [|n IH]; intros b i j; cbn [memset0].
  - assert ((i <=? j) && (j <? i + Z.of_nat 0) = false) as -> by lia. reflexivity.
  - rewrite IH. unfold upd. destruct (Z.eqb_spec j i).
    + assert ((i <=? j) && (j <? i + Z.of_nat (S n)) = true) as -> by lia.
      destruct ((i + 1 <=? j) && (j <? i + 1 + Z.of_nat n)); reflexivity.
    + assert ((i <=? j) && (j <? i + Z.of_nat (S n)) = (i + 1 <=? j) && (j <? i + 1 + Z.of_nat n)) as -> by lia.
      reflexivity.
Qed.

Lemma fix_clear_spec : forall n b j, 0 <= n -> fix_clear n b j = if inb j n then 0 else b j.
Proof.
  intros n b j Hn. unfold fix_clear. rewrite memset0_spec. unfold inb.
  replace (0 + Z.of_nat (Z.to_nat n)) with n by lia. reflexivity.
Qed.

Lemma repeat_cells : forall (n : nat) (b : Z -> Z) i, (forall j, i <= j < i + Z.of_nat n -> b j = 0) ->
  cells b i n = repeat 0 n.
Proof.
  intros n. induction n as [|n IH]; intros b i H; cbn [cells repeat]; [reflexivity|].
  f_equal; [apply H; lia|]. apply IH. intros j Hj. apply H. lia.
Qed.

Lemma clear_elements_l : forall n s k b, 0 <= n -> 1 <= s -> 0 <= k < n ->
  let elem m := cells m (k * s) (Z.to_nat s) in
  ((k + 1) * s <= n -> elem (fix_clear n b) = repeat 0 (Z.to_nat s)) /\
  (n <= k * s -> elem (fix_clear n b) = elem b) /\
  (forall j, n <= j -> fix_clear n b j = b j).
Proof.
  intros n s k b Hn Hs Hk elem. subst elem. repeat split.
  - intros H. apply repeat_cells. intros j Hj. rewrite fix_clear_spec by lia.
    assert (inb j n = true) as -> by (apply inb_true; nia). reflexivity.
  - intros H. apply cells_ext. intros j Hj. rewrite fix_clear_spec by lia.
    assert (inb j n = false) as -> by (apply inb_false; nia). reflexivity.
  - intros j Hj. rewrite fix_clear_spec by lia.
    assert (inb j n = false) as -> by (apply inb_false; lia). reflexivity.
Qed.

(** ** FixedString *)
Lemma strncpy_frame : forall n b i s j, (j < i \/ i + Z.of_nat n <= j) -> strncpy b i s n j = b j.
Proof.
  intros n. induction n as [|n IH]; intros b i s j H; cbn [strncpy]; [reflexivity|].
  destruct s as [|c s]; rewrite IH by lia; apply upd_other; lia.
Qed.

Lemma strncpy_pad : forall n b i s j, i + Z.of_nat (length s) <= j < i + Z.of_nat n -> strncpy b i s n j = 0.
Proof.
  intros n. induction n as [|n IH]; intros b i s j H; [lia|]. destruct s as [|c s]; cbn [strncpy length] in *.
  - destruct (Z.eq_dec j i) as [->|N]; [rewrite strncpy_frame by lia; apply upd_same|]. apply IH. cbn [length]. lia.
  - apply IH. lia.
Qed.
Lemma strncpy_c_string : forall n b i s, Forall (fun c => c <> 0) s -> b (i + Z.of_nat n) = 0 ->
  c_string (strncpy b i s n) i (S n) = Some (firstn n s).
Proof.
  intros n. induction n as [|n IH]; intros b i s Hs Hb.
  - cbn [strncpy c_string firstn]. replace (i + Z.of_nat 0) with i in Hb by lia. rewrite Hb. reflexivity.
  - destruct s as [|c s]; cbn [strncpy firstn].
    + change (c_string ?m i (S (S n))) with
        (if m i =? 0 then Some [] else match c_string m (i + 1) (S n) with Some t => Some (m i :: t) | None => None end).
      rewrite strncpy_frame by lia. rewrite upd_same. reflexivity.
    + change (c_string ?m i (S (S n))) with
        (if m i =? 0 then Some [] else match c_string m (i + 1) (S n) with Some t => Some (m i :: t) | None => None end).
      inversion Hs as [|? ? Hc Hs']; subst.
      rewrite IH; [|exact Hs'|rewrite upd_other by lia; rewrite <- Hb; f_equal; lia].
      rewrite strncpy_frame by lia. rewrite upd_same. destruct (Z.eqb_spec c 0); [contradiction|reflexivity].
Qed.

Lemma c_string_bounded : forall n b i, b (i + Z.of_nat n) = 0 -> exists s, c_string b i (S n) = Some s.
Proof.
  intros n. induction n as [|n IH]; intros b i H.
  - cbn [c_string]. replace (i + Z.of_nat 0) with i in H by lia. rewrite H. eexists. reflexivity.
  - change (c_string b i (S (S n))) with
        (if b i =? 0 then Some [] else match c_string b (i + 1) (S n) with Some t => Some (b i :: t) | None => None end).
    destruct (IH b (i + 1)) as [s E]; [rewrite <- H; f_equal; lia|]. rewrite E.
    destruct (b i =? 0); eexists; reflexivity.
Qed.

(** Operations that respect the terminator. *)
Definition fs_ok (MaxChars : Z) (o : fs_op) : Prop :=
  match o with
  | FsSet i c => i <> MaxChars \/ c = 0
  | _ => True
  end.

Lemma fs_step_term : forall n b o, 0 <= n <= 32766 -> fs_ok n o -> b n = 0 ->
  exists b', fs_step n b o = Some b' /\ b' n = 0 /\ forall j, (j < 0 \/ n < j) -> b' j = b j.
Proof.
  intros n b o Hn Ho Hb. destruct o as [s| |i c]; cbn [fs_step].
  - eexists. split; [reflexivity|]. split.
    + rewrite strncpy_frame by lia. exact Hb.
    + intros j Hj. apply strncpy_frame. lia.
  - eexists. split; [reflexivity|]. split.
    + rewrite fix_clear_spec by lia. assert (inb n (n + 1) = true) as -> by (apply inb_true; lia). reflexivity.
    + intros j Hj. rewrite fix_clear_spec by lia.
      assert (inb j (n + 1) = false) as -> by (apply inb_false; lia). reflexivity.
  - rewrite (fix_set_small Z.eqb 0) by lia. eexists. split; [reflexivity|]. cbn [fs_ok] in Ho. split.
    + destruct (inb i (n + 1)); [|exact Hb]. unfold upd. destruct (Z.eqb_spec n i); [|exact Hb].
      destruct Ho as [Ho|Ho]; [congruence|exact Ho].
    + intros j Hj. destruct (inb i (n + 1)) eqn:E; [|reflexivity]. apply inb_true in E.
      apply upd_other. lia.
Qed.

Lemma fs_run_term : forall n ops b, 0 <= n <= 32766 -> Forall (fs_ok n) ops -> b n = 0 ->
  exists b', fs_run n b ops = Some b' /\ b' n = 0 /\ forall j, (j < 0 \/ n < j) -> b' j = b j.
Proof.
  intros n ops. induction ops as [|o ops IH]; intros b Hn Ho Hb; cbn [fs_run].
  - exists b. auto.
  - inversion Ho as [|? ? Ho1 Ho2]; subst.
    destruct (fs_step_term n b o Hn Ho1 Hb) as [b1 [E1 [H1 F1]]]. rewrite E1.
    destruct (IH b1 Hn Ho2 H1) as [b2 [E2 [H2 F2]]]. exists b2. split; [exact E2|]. split; [exact H2|].
    intros j Hj. rewrite F2 by exact Hj. now apply F1.
Qed.

Lemma fs_new_term : forall n b, 0 <= n -> fs_new n b n = 0 /\ forall j, (j < 0 \/ n < j) -> fs_new n b j = b j.
Proof.
  intros n b Hn. unfold fs_new. split.
  - rewrite fix_clear_spec by lia. assert (inb n (n + 1) = true) as -> by (apply inb_true; lia). reflexivity.
  - intros j Hj. rewrite fix_clear_spec by lia.
    assert (inb j (n + 1) = false) as -> by (apply inb_false; lia). reflexivity.
Qed.

Lemma fixed_string_l : forall n b ops, 0 <= n <= 32766 -> Forall (fs_ok n) ops ->
  exists b', fs_run n (fs_new n b) ops = Some b' /\
    (exists s, c_string b' 0 (S (Z.to_nat n)) = Some s) /\
    (forall j, (j < 0 \/ n < j) -> b' j = b j) /\
    (forall src, Forall (fun c => c <> 0) src ->
       exists b'', fs_step n b' (FsCopy src) = Some b'' /\
         c_string b'' 0 (S (Z.to_nat n)) = Some (firstn (Z.to_nat n) src) /\
         forall j, Z.of_nat (length src) <= j <= n -> b'' j = 0).
Proof.
  intros n b ops Hn Ho. destruct (fs_new_term n b ltac:(lia)) as [H0 F0].
  destruct (fs_run_term n ops _ Hn Ho H0) as [b' [E [H F]]]. exists b'. split; [exact E|]. split.
  - apply c_string_bounded. replace (0 + Z.of_nat (Z.to_nat n)) with n by lia. exact H.
  - split.
    + intros j Hj. rewrite F by exact Hj. now apply F0.
    + intros src Hs. eexists. split; [reflexivity|]. split.
      * apply strncpy_c_string; [exact Hs|]. replace (0 + Z.of_nat (Z.to_nat n)) with n by lia. exact H.
      * intros j Hj. destruct (Z.eq_dec j n) as [->|N]; [rewrite strncpy_frame by lia; exact H|]. apply strncpy_pad. lia.
Qed.
