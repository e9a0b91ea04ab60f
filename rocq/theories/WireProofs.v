(** Proofs for C100. *)
Require Import ZArith List Bool Lia ZifyBool.
Import ListNotations.
From Verif Require Import Base BaseFacts AvrModel AvrSpec AvrProofs WireModel WireSpec.
Open Scope Z_scope.
Local Ltac Zify.zify_post_hook ::= idtac.

(** ** Characters and frames *)
Lemma data_bits_length : forall n d, length (data_bits n d) = n.
Proof. intros n d. unfold data_bits. rewrite map_length, seq_length. reflexivity. Qed.
Lemma encode_length : forall n p two d, length (encode n p two d) = (S (last_bit n p) + if two then 1 else 0)%nat.
Proof.
  intros n p two d. unfold encode. cbn [length]. rewrite !app_length, data_bits_length. unfold last_bit.
  destruct p, two; cbn [parity_bit length]; lia.
Qed.
Lemma number_bits : forall n d k, number (map (fun i => Z.testbit d (Z.of_nat i)) (seq k n)) = (d / 2 ^ Z.of_nat k) mod 2 ^ Z.of_nat n.
Proof.
  intros n d. induction n as [|n IH]; intros k.
  - cbn. rewrite Z.mod_1_r. reflexivity.
  - cbn [seq map number fold_right]. fold (number (map (fun i => Z.testbit d (Z.of_nat i)) (seq (S k) n))). rewrite IH.
    rewrite !Nat2Z.inj_succ, !Z.pow_succ_r by lia.
    assert (P1 : 0 < 2 ^ Z.of_nat k) by (apply Z.pow_pos_nonneg; lia).
    assert (P2 : 0 < 2 ^ Z.of_nat n) by (apply Z.pow_pos_nonneg; lia).
    rewrite (Z.mul_comm 2 (2 ^ Z.of_nat k)), <- Z.div_div by lia.
    rewrite Z.rem_mul_r by lia. rewrite Z.testbit_spec' by lia. reflexivity.
Qed.
Lemma number_data : forall n d, number (data_bits n d) = d mod 2 ^ Z.of_nat n.
Proof. intros n d. unfold data_bits. rewrite number_bits. cbn [Z.of_nat]. rewrite Z.pow_0_r, Z.div_1_r. reflexivity. Qed.

Lemma encode_framed : forall n p two d, framed (last_bit n p) (encode n p two d).
Proof.
  intros n p two d. refine (conj _ (conj eq_refl _)).
  - rewrite encode_length. lia.
  - intros k K. unfold encode.
    assert (L : length (false :: data_bits n d ++ parity_bit p (data_bits n d)) = last_bit n p).
    { cbn [length]. rewrite app_length, data_bits_length. unfold last_bit. destruct p; cbn [parity_bit length]; lia. }
    replace (false :: data_bits n d ++ parity_bit p (data_bits n d) ++ true :: (if two then [true] else []))
      with ((false :: data_bits n d ++ parity_bit p (data_bits n d)) ++ true :: (if two then [true] else []))
      by (cbn [app]; rewrite app_assoc; reflexivity).
    rewrite app_nth2 by lia. rewrite L. destruct (k - last_bit n p)%nat as [|[|j]]; [reflexivity| |].
    + destruct two; reflexivity.
    + destruct two; [destruct j|]; reflexivity.
Qed.

Lemma ones_odd : forall bs, ones bs = Z.odd (highs bs).
Proof.
  induction bs as [|b bs IH]; [reflexivity|]. unfold ones, highs in *. cbn [fold_right map]. rewrite Z.odd_add, <- IH. destruct b; reflexivity.
Qed.
Lemma highs_app : forall a b, highs (a ++ b) = highs a + highs b.
Proof. induction a as [|x a IH]; intros b; [reflexivity|]. unfold highs in *. cbn [app map fold_right]. rewrite IH. lia. Qed.
Lemma format_l : forall n p two d, let f := encode n p two d in
  nth 0 f true = false /\ (forall k, (k < n)%nat -> nth (1 + k) f false = Z.testbit d (Z.of_nat k)) /\
  (p <> POff -> Z.odd (highs (firstn (S n) (tl f))) = (match p with POdd => true | _ => false end)) /\
  skipn (match p with POff => S n | _ => S (S n) end) f = repeat true (if two then 2 else 1).
Proof.
  intros n p two d f. subst f. unfold encode. refine (conj eq_refl (conj _ (conj _ _))).
  - intros k K. cbn [plus nth]. rewrite app_nth1 by (rewrite data_bits_length; exact K). unfold data_bits.
    rewrite nth_indep with (d' := Z.testbit d (Z.of_nat 0)) by (rewrite map_length, seq_length; exact K).
    rewrite (map_nth (fun i => Z.testbit d (Z.of_nat i)) (seq 0 n) 0%nat k), seq_nth by exact K. reflexivity.
  - intros P. cbn [tl].
    assert (F : forall x r, firstn (S n) (data_bits n d ++ [x] ++ r) = data_bits n d ++ [x]).
    { intros x r. rewrite app_assoc. replace (S n) with (length (data_bits n d ++ [x])) by (rewrite app_length, data_bits_length; cbn; lia).
      rewrite firstn_app, Nat.sub_diag, firstn_all, firstn_O, app_nil_r. reflexivity. }
    destruct p; [contradiction P; reflexivity| |]; cbn [parity_bit]; rewrite F, highs_app, Z.odd_add, <- ones_odd; unfold highs at 1; cbn [map fold_right];
      destruct (ones (data_bits n d)); reflexivity.
  - assert (SK : forall r, skipn n (data_bits n d ++ r) = r).
    { intros r. rewrite skipn_app, data_bits_length, Nat.sub_diag, skipn_all2 by (rewrite data_bits_length; lia). reflexivity. }
    assert (SK1 : forall x r, skipn (S n) (data_bits n d ++ x :: r) = r).
    { intros x r. rewrite skipn_app, data_bits_length, skipn_all2 by (rewrite data_bits_length; lia).
      replace (S n - n)%nat with 1%nat by lia. reflexivity. }
    destruct p; cbn [parity_bit app]; rewrite skipn_cons; [rewrite SK|rewrite SK1|rewrite SK1]; destruct two; reflexivity.
Qed.

Lemma firstn_app_exact : forall (A : Type) (a b : list A), firstn (length a) (a ++ b) = a.
Proof. intros A a b. rewrite firstn_app, Nat.sub_diag, firstn_all, firstn_O, app_nil_r. reflexivity. Qed.
Lemma decode_encode_l : forall n p p' two d, (p = POff <-> p' = POff) ->
  decode n p' (firstn (S (last_bit n p)) (encode n p two d)) =
  (d mod 2 ^ Z.of_nat n, false, match p, p' with PEven, POdd | POdd, PEven => true | _, _ => false end).
Proof.
  intros n p p' two d E.
  assert (F : firstn (S (last_bit n p)) (encode n p two d) = false :: data_bits n d ++ parity_bit p (data_bits n d) ++ [true]).
  { unfold encode. cbn [firstn]. f_equal.
    replace (data_bits n d ++ parity_bit p (data_bits n d) ++ true :: (if two then [true] else []))
      with ((data_bits n d ++ parity_bit p (data_bits n d) ++ [true]) ++ (if two then [true] else []))
      by (rewrite <- !app_assoc; reflexivity).
    replace (last_bit n p) with (length (data_bits n d ++ parity_bit p (data_bits n d) ++ [true])); [apply firstn_app_exact|].
    rewrite !app_length, data_bits_length. unfold last_bit. destruct p; cbn [parity_bit length]; lia. }
  rewrite F. unfold decode. cbn [tl].
  assert (D : firstn n (data_bits n d ++ parity_bit p (data_bits n d) ++ [true]) = data_bits n d).
  { rewrite <- (data_bits_length n d) at 1. apply firstn_app_exact. }
  rewrite D, number_data.
  assert (X : last_bit n p' = last_bit n p) by (unfold last_bit; destruct p, p'; try reflexivity; destruct E as [E1 E2]; try (discriminate (E1 eq_refl)); discriminate (E2 eq_refl)).
  rewrite X.
  assert (ST : nth (last_bit n p) (false :: data_bits n d ++ parity_bit p (data_bits n d) ++ [true]) true = true).
  { rewrite app_comm_cons, app_assoc, app_nth2.
    - cbn [app length]. rewrite app_length, data_bits_length. unfold last_bit. destruct p; cbn [parity_bit length].
      + replace (S n - S (n + 0))%nat with 0%nat by lia. reflexivity.
      + replace (S (S n) - S (n + 1))%nat with 0%nat by lia. reflexivity.
      + replace (S (S n) - S (n + 1))%nat with 0%nat by lia. reflexivity.
    - cbn [app length]. rewrite app_length, data_bits_length. unfold last_bit. destruct p; cbn [parity_bit length]; lia. }
  rewrite ST. cbn [negb]. f_equal.
  destruct p, p'; try reflexivity;
    try (destruct E as [E1 E2]; first [discriminate (E1 eq_refl) | discriminate (E2 eq_refl)]);
    cbn [nth]; rewrite app_nth2 by (rewrite data_bits_length; lia); rewrite data_bits_length, Nat.sub_diag;
    cbn [parity_bit app nth hd]; destruct (ones (data_bits n d)); reflexivity.
Qed.

(** ** Levels *)
Lemma level_before : forall T fs t0 t, 0 < T -> in_turn T t0 fs -> t < t0 -> level T fs t = true.
Proof.
  intros T fs. induction fs as [|[s bs] fs IH]; intros t0 t PT TU LT; [reflexivity|].
  destruct TU as [TU1 TU2]. cbn [level].
  destruct (s <=? t) eqn:E1; [lia|]. cbn [andb].
  apply (IH (s + T * Z.of_nat (length bs))); auto. clear - PT LT TU1. nia.
Qed.
Lemma level_in : forall T s bs fs t k, 0 < T -> (k < length bs)%nat -> s + Z.of_nat k * T <= t < s + (Z.of_nat k + 1) * T ->
  level T ((s, bs) :: fs) t = nth k bs true.
Proof.
  intros T s bs fs t k PT K R. cbn [level].
  assert (A1 : s <= t) by (clear - PT R; nia). assert (A2 : t < s + T * Z.of_nat (length bs)) by (clear - PT R K; nia).
  replace (s <=? t) with true by lia. replace (t <? s + T * Z.of_nat (length bs)) with true by lia. cbn [andb].
  replace ((t - s) / T) with (Z.of_nat k); [rewrite Nat2Z.id; reflexivity|].
  apply (Z.div_unique _ _ _ (t - s - T * Z.of_nat k)); lia.
Qed.
Lemma level_past : forall T s bs fs t, s + T * Z.of_nat (length bs) <= t -> level T ((s, bs) :: fs) t = level T fs t.
Proof.
  intros T s bs fs t H. cbn [level]. replace (t <? s + T * Z.of_nat (length bs)) with false by lia.
  rewrite andb_false_r. reflexivity.
Qed.
(** From inside the stop bits on, the rest of the line is all that counts. *)
Lemma level_tail : forall T last s bs fs t, 0 < T -> framed last bs -> in_turn T (s + T * Z.of_nat (length bs)) fs ->
  s + Z.of_nat last * T <= t -> level T ((s, bs) :: fs) t = level T fs t.
Proof.
  intros T last s bs fs t PT [F1 [F2 F3]] TU H.
  destruct (Z_lt_le_dec t (s + T * Z.of_nat (length bs))) as [L|L]; [|apply level_past; exact L].
  rewrite (level_before T fs _ t PT TU L). cbn [level].
  assert (A1 : s <= t) by (clear - PT H; nia).
  replace (s <=? t) with true by lia. replace (t <? s + T * Z.of_nat (length bs)) with true by lia. cbn [andb].
  apply F3. apply Nat2Z.inj_le. rewrite Z2Nat.id by (apply Z.div_pos; lia). apply Z.div_le_lower_bound; lia.
Qed.

(** ** Tolerance at one bit is tolerance at all before *)
Lemma tol_all : forall S M K T q k, 0 < q -> 0 <= k <= K -> 2 <= M -> M + 1 <= S ->
  K * T <= (K * S + M - 2) * q -> (K * S + M + 1) * q <= (K + 1) * T ->
  k * T <= (k * S + M - 2) * q /\ (k * S + M + 1) * q <= (k + 1) * T.
Proof.
  intros S M K T q k Q Rk M2 MS A B.
  assert (A' : K * (T - S * q) <= (M - 2) * q) by (clear - A; lia).
  assert (B' : (M + 1) * q - T <= K * (T - S * q)) by (clear - B; lia).
  destruct (Z_le_gt_dec (T - S * q) 0) as [L|L].
  - assert (X : K * (T - S * q) <= k * (T - S * q)) by (clear - L Rk; nia).
    assert (Y : k * (T - S * q) <= 0) by (clear - L Rk; nia).
    assert (W : 0 <= (M - 2) * q) by (clear - Q M2; nia).
    clear - X Y W B'. split; lia.
  - assert (X : k * (T - S * q) <= K * (T - S * q)) by (clear - L Rk; nia).
    assert (Y : 0 <= k * (T - S * q)) by (clear - L Rk; nia).
    assert (W : (M + 1) * q <= S * q) by (clear - Q MS; nia).
    clear - X Y W A' L. split; lia.
Qed.

(** ** The receiver *)
Section Receiver.
Variables (SA MI LA : nat).
Hypothesis MI2 : (2 <= MI)%nat.
Hypothesis MIS : (MI + 1 <= SA)%nat.
Let step := rcv_step SA MI LA.
Let run := rcv_run SA MI LA.
Let L := (LA * SA + MI + 1)%nat.
Definition gathered (f : Z -> bool) (i : Z) (c : nat) : list bool := map (fun j => f (i + Z.of_nat j)) (seq 0 c).

Lemma run_app : forall f m1 m2 r i,
  run f r i (m1 + m2) =
  (fst (run f (fst (run f r i m1)) (i + Z.of_nat m1) m2),
   snd (run f r i m1) ++ snd (run f (fst (run f r i m1)) (i + Z.of_nat m1) m2)).
Proof.
  intros f m1. induction m1 as [|m1 IH]; intros m2 r i.
  - cbn [plus]. unfold run. cbn [rcv_run fst snd app Z.of_nat]. rewrite Z.add_0_r. destruct (rcv_run SA MI LA f r i m2); reflexivity.
  - cbn [plus]. unfold run in *. cbn [rcv_run]. destruct (rcv_step SA MI LA r (f i)) as [r1 a]. rewrite IH.
    replace (i + Z.of_nat (S m1)) with (i + 1 + Z.of_nat m1) by lia.
    destruct (rcv_run SA MI LA f r1 (i + 1) m1) as [r2 b]. cbn [fst snd]. rewrite app_assoc. reflexivity.
Qed.
Lemma run_ext : forall f g m r i, (forall j, i <= j < i + Z.of_nat m -> f j = g j) -> run f r i m = run g r i m.
Proof.
  intros f g m. induction m as [|m IH]; intros r i E; [reflexivity|].
  unfold run in *. cbn [rcv_run]. rewrite E by lia. destruct (rcv_step SA MI LA r (g i)) as [r1 a].
  rewrite IH by (intros j J; apply E; lia). reflexivity.
Qed.
Lemma run_quiet : forall f m i, (forall j, i <= j < i + Z.of_nat m -> f j = true) -> run f (WIdle true) i m = (WIdle true, []).
Proof.
  intros f m. induction m as [|m IH]; intros i E; [reflexivity|].
  unfold run in *. cbn [rcv_run rcv_step]. rewrite E by lia. cbn [negb andb].
  rewrite IH by (intros j J; apply E; lia). reflexivity.
Qed.
Lemma gathered_length : forall f i c, length (gathered f i c) = c.
Proof. intros f i c. unfold gathered. rewrite map_length, seq_length. reflexivity. Qed.
Lemma gathered_S : forall f i c, gathered f i (S c) = gathered f i c ++ [f (i + Z.of_nat c)].
Proof. intros f i c. unfold gathered. rewrite seq_S, map_app. reflexivity. Qed.
Lemma gathered_nth : forall f i c j, (j < c)%nat -> nth j (gathered f i c) true = f (i + Z.of_nat j).
Proof.
  intros f i c j J. unfold gathered. rewrite nth_indep with (d' := f (i + Z.of_nat 0)) by (rewrite map_length, seq_length; exact J).
  rewrite (map_nth (fun j => f (i + Z.of_nat j)) (seq 0 c) 0%nat j), seq_nth by exact J. reflexivity.
Qed.
Lemma vote_gathered : forall f i c k b, (k * SA + MI < c)%nat ->
  (forall j, (MI - 2 <= j <= MI)%nat -> f (i + Z.of_nat (k * SA + j)) = b) -> vote SA MI (gathered f i c) k = b.
Proof.
  intros f i c k b C E. unfold vote. cbv zeta. rewrite !gathered_nth by lia. rewrite !E by lia. destruct b; reflexivity.
Qed.

Lemma run_busy : forall f i m c, (1 <= c)%nat -> (c + m < L)%nat ->
  ((MI + 1 <= c + m)%nat -> vote SA MI (gathered f i (MI + 1)) 0 = false) ->
  run f (WBusy (gathered f i c)) (i + Z.of_nat c) m = (WBusy (gathered f i (c + m)), []).
Proof.
  intros f i m. induction m as [|m IH]; intros c C1 C2 V.
  - rewrite Nat.add_0_r. reflexivity.
  - unfold run in *. cbn [rcv_run rcv_step]. rewrite <- gathered_S, gathered_length.
    assert (E1 : Nat.eqb (S c) (MI + 1) && vote SA MI (gathered f i (S c)) 0 = false).
    { destruct (Nat.eqb (S c) (MI + 1)) eqn:E; [|reflexivity]. apply Nat.eqb_eq in E. rewrite E. cbn [andb]. apply V. lia. }
    rewrite E1. replace (Nat.eqb (S c) (LA * SA + MI + 1)) with false by (symmetry; apply Nat.eqb_neq; unfold L in C2; lia).
    replace (i + Z.of_nat c + 1) with (i + Z.of_nat (S c)) by lia. rewrite IH by (try lia; intros X; apply V; lia).
    replace (c + S m)%nat with (S c + m)%nat by lia. reflexivity.
Qed.

(** A whole frame, the first low sample being number [i]. *)
Hypothesis LA1 : (1 <= LA)%nat.
Lemma run_votes : forall f i (bits : nat -> bool), bits 0%nat = false -> f i = false ->
  (forall k c, (k <= LA)%nat -> (k * SA + MI < c)%nat -> vote SA MI (gathered f i c) k = bits k) ->
  (forall m, (m < L)%nat -> snd (run f (WIdle true) i m) = []) /\
  run f (WIdle true) i L = (WIdle (f (i + Z.of_nat (LA * SA + MI))), [map bits (seq 0 (S LA))]).
Proof.
  intros f i bits B0 F0 FV.
  assert (V0 : vote SA MI (gathered f i (MI + 1)) 0 = false) by (rewrite FV by lia; exact B0).
  assert (ST : run f (WIdle true) i 1 = (WBusy (gathered f i 1), [])).
  { unfold run. cbn [rcv_run rcv_step]. rewrite F0. cbn [negb andb app]. unfold gathered. cbn [seq map]. rewrite Z.add_0_r, F0. reflexivity. }
  assert (BU : forall m, (1 + m < L)%nat -> run f (WIdle true) i (1 + m) = (WBusy (gathered f i (1 + m)), [])).
  { intros m M. rewrite run_app, ST. cbn [fst snd app]. rewrite run_busy by (try lia; intros X; exact V0). reflexivity. }
  split.
  - intros [|m] M; [reflexivity|]. change (S m) with (1 + m)%nat. rewrite BU by exact M. reflexivity.
  - assert (EL : L = (1 + (L - 2) + 1)%nat) by (unfold L; nia).
    rewrite EL at 1. rewrite run_app, BU by (clear - EL; lia). cbn [fst snd app].
    replace (1 + (L - 2))%nat with (L - 1)%nat by (clear - EL; lia).
    assert (SL : S (L - 1) = L) by (clear - EL; lia).
    unfold run. cbn [rcv_run rcv_step]. rewrite <- gathered_S, gathered_length, SL.
    replace (Nat.eqb L (MI + 1)) with false by (symmetry; apply Nat.eqb_neq; unfold L; nia).
    cbn [andb]. replace (Nat.eqb L (LA * SA + MI + 1)) with true by (symmetry; apply Nat.eqb_eq; reflexivity).
    cbn [app fst snd]. f_equal.
    + do 2 f_equal. unfold L. lia.
    + f_equal. apply map_ext_in. intros k K. apply in_seq in K. apply FV; [lia|]. unfold L. nia.
Qed.
Lemma run_frame : forall f i (bits : nat -> bool), bits 0%nat = false -> bits LA = true -> f i = false ->
  (forall k j, (k <= LA)%nat -> (MI - 2 <= j <= MI)%nat -> f (i + Z.of_nat (k * SA + j)) = bits k) ->
  (forall m, (m < L)%nat -> snd (run f (WIdle true) i m) = []) /\
  run f (WIdle true) i L = (WIdle true, [map bits (seq 0 (S LA))]).
Proof.
  intros f i bits B0 BL F0 FB. destruct (run_votes f i bits B0 F0) as [A B].
  - intros k c K C. apply vote_gathered; [exact C|]. intros j J. apply FB; assumption.
  - split; [exact A|]. rewrite B, (FB LA MI) by lia. rewrite BL. reflexivity.
Qed.

(** Two samples of three decide. *)
Lemma majority_l : forall f i (bits : nat -> bool), bits 0%nat = false -> f i = false ->
  (forall k, (k <= LA)%nat -> most (bits k) (map (fun j => f (i + Z.of_nat (k * SA + j))) [(MI - 2)%nat; (MI - 1)%nat; MI])) ->
  (forall m, (m < L)%nat -> snd (run f (WIdle true) i m) = []) /\
  run f (WIdle true) i L = (WIdle (f (i + Z.of_nat (LA * SA + MI))), [map bits (seq 0 (S LA))]).
Proof.
  intros f i bits B0 F0 MO. apply run_votes; auto. intros k c K C. unfold vote. cbv zeta. rewrite !gathered_nth by lia.
  specialize (MO k K). unfold most in MO. cbn [map] in MO.
  destruct (f (i + Z.of_nat (k * SA + (MI - 2)))), (f (i + Z.of_nat (k * SA + (MI - 1)))), (f (i + Z.of_nat (k * SA + MI))), (bits k);
    cbn in MO |- *; try reflexivity; exfalso; lia.
Qed.
(** A line held low. *)
Lemma run_low : forall f m i, (forall j, i <= j < i + Z.of_nat m -> f j = false) -> run f (WIdle false) i m = (WIdle false, []).
Proof.
  intros f m. induction m as [|m IH]; intros i E; [reflexivity|].
  unfold run in *. cbn [rcv_run rcv_step andb]. rewrite E by lia.
  rewrite IH by (intros j J; apply E; lia). reflexivity.
Qed.
Lemma break_l : forall f i m, (forall j, i <= j -> f j = false) ->
  snd (run f (WIdle true) i m) = if (m <? L)%nat then [] else [repeat false (S LA)].
Proof.
  intros f i m E. destruct (run_votes f i (fun _ => false) eq_refl (E i ltac:(lia))) as [A B].
  { intros k c K C. apply vote_gathered; [exact C|]. intros j J. apply E. lia. }
  destruct (m <? L)%nat eqn:C; [apply A; apply Nat.ltb_lt; exact C|]. apply Nat.ltb_ge in C.
  replace m with (L + (m - L))%nat by lia. rewrite run_app, B. cbn [fst snd]. rewrite E by lia.
  rewrite run_low by (intros j J; apply E; lia). cbn [snd]. rewrite app_nil_r. f_equal.
  clear. generalize 0%nat as b. generalize (S LA) as k. intros k. induction k as [|n IH]; intros b; [reflexivity|]. cbn [seq map repeat]. f_equal. apply IH.
Qed.
(** A pulse on a high line. *)
Lemma pulse_l : forall f i w m, (1 <= w < SA + MI)%nat -> (forall j, i <= j < i + Z.of_nat w -> f j = false) ->
  (forall j, i + Z.of_nat w <= j -> f j = true) ->
  snd (run f (WIdle true) i m) =
    if (w <? MI)%nat || (m <? L)%nat then [] else [false :: repeat true LA].
Proof.
  intros f i w m W LO HI. destruct (w <? MI)%nat eqn:C; cbn [orb].
  - apply Nat.ltb_lt in C.
    assert (ST : run f (WIdle true) i 1 = (WBusy (gathered f i 1), [])).
    { unfold run. cbn [rcv_run rcv_step]. rewrite LO by lia. cbn [negb andb app]. unfold gathered. cbn [seq map]. rewrite Z.add_0_r, LO by lia. reflexivity. }
    assert (BU : forall k, (1 + k <= MI)%nat -> run f (WIdle true) i (1 + k) = (WBusy (gathered f i (1 + k)), [])).
    { intros k K. rewrite run_app, ST. cbn [fst snd app]. rewrite run_busy; [reflexivity|lia|unfold L; nia|intros X; lia]. }
    destruct (le_lt_dec m MI) as [Mm|Mm].
    + destruct m as [|m]; [reflexivity|]. change (S m) with (1 + m)%nat. rewrite BU by exact Mm. reflexivity.
    + replace m with (1 + (MI - 1) + (1 + (m - MI - 1)))%nat by lia. rewrite run_app, BU by lia. cbn [fst snd app].
      replace (1 + (MI - 1))%nat with MI by lia. rewrite run_app.
      assert (ONE : run f (WBusy (gathered f i MI)) (i + Z.of_nat MI) 1 = (WIdle true, [])).
      { unfold run. cbn [rcv_run rcv_step]. rewrite <- gathered_S, gathered_length.
        replace (Nat.eqb (S MI) (MI + 1)) with true by (symmetry; apply Nat.eqb_eq; lia).
        assert (V : vote SA MI (gathered f i (S MI)) 0 = true).
        { unfold vote. cbv zeta. rewrite !gathered_nth by lia. rewrite (HI (i + Z.of_nat (0 * SA + (MI - 1)))), (HI (i + Z.of_nat (0 * SA + MI))) by lia.
          destruct (f (i + Z.of_nat (0 * SA + (MI - 2)))); reflexivity. }
        rewrite V, HI by lia. reflexivity. }
      rewrite ONE. cbn [fst snd app]. rewrite run_quiet by (intros j J; apply HI; lia). reflexivity.
  - apply Nat.ltb_ge in C. destruct (run_votes f i (fun k => negb (Nat.eqb k 0)) eq_refl (LO i ltac:(lia))) as [A B].
    { intros k c K KC. unfold vote. cbv zeta. rewrite !gathered_nth by lia. destruct k as [|k]; cbn [Nat.eqb negb].
      - rewrite (LO (i + Z.of_nat (0 * SA + (MI - 2)))), (LO (i + Z.of_nat (0 * SA + (MI - 1)))) by lia.
        destruct (f (i + Z.of_nat (0 * SA + MI))); reflexivity.
      - assert (X : (w <= S k * SA + (MI - 1))%nat) by nia.
        rewrite (HI (i + Z.of_nat (S k * SA + (MI - 1)))), (HI (i + Z.of_nat (S k * SA + MI))) by lia.
        destruct (f (i + Z.of_nat (S k * SA + (MI - 2)))); reflexivity. }
    destruct (m <? L)%nat eqn:CM; [apply A; apply Nat.ltb_lt; exact CM|]. apply Nat.ltb_ge in CM.
    replace m with (L + (m - L))%nat by lia. rewrite run_app, B. cbn [fst snd].
    rewrite (HI (i + Z.of_nat (LA * SA + MI))) by nia.
    rewrite run_quiet by (intros j J; apply HI; unfold L in *; nia). cbn [snd]. rewrite app_nil_r. f_equal.
    cbn [seq map Nat.eqb negb]. f_equal.
    assert (X : forall n b, (1 <= b)%nat -> map (fun k => negb (Nat.eqb k 0)) (seq b n) = repeat true n).
    { induction n as [|n IH]; intros b Hb; [reflexivity|]. cbn [seq map repeat]. destruct b as [|b]; [lia|]. cbn [Nat.eqb negb]. f_equal. apply IH. lia. }
    apply X. lia.
Qed.

Variables (T q a : Z).
Hypothesis Q : 0 < q.
Hypothesis TOL : tolerable SA MI LA T q.

Lemma tol_k : forall k j, (k <= LA)%nat -> (MI - 2 <= j <= MI)%nat ->
  Z.of_nat k * T <= Z.of_nat (k * SA + j) * q /\ (Z.of_nat (k * SA + j) + 1) * q <= (Z.of_nat k + 1) * T.
Proof.
  intros k j K J. destruct TOL as [A B].
  destruct (tol_all (Z.of_nat SA) (Z.of_nat MI) (Z.of_nat LA) T q (Z.of_nat k) Q) as [X Y]; try lia; try assumption.
  rewrite Nat2Z.inj_add, Nat2Z.inj_mul.
  assert (J1 : Z.of_nat MI - 2 <= Z.of_nat j <= Z.of_nat MI) by (clear - J MI2; lia).
  clear - X Y J1 Q. split; nia.
Qed.
Lemma T_pos : 0 < T.
Proof. destruct (tol_k 0%nat MI ltac:(lia) ltac:(lia)) as [A B]. clear - B Q. nia. Qed.

Lemma in_turn_le : forall fs t0 k s bs, in_turn T t0 fs -> nth_error fs k = Some (s, bs) -> t0 <= s.
Proof.
  intros fs. induction fs as [|[s0 b0] fs IH]; intros t0 k s bs TU E; [destruct k; discriminate|].
  destruct TU as [TU1 TU2]. destruct k as [|k]; cbn [nth_error] in E; [injection E as <- <-; exact TU1|].
  assert (X := IH _ k s bs TU2 E). assert (P := T_pos). clear - X P TU1. nia.
Qed.

Lemma receives : forall fs t0 i m f, in_turn T t0 fs -> Forall (fun s => framed LA (snd s)) fs ->
  a + (i - 1) * q < t0 -> (forall j, i <= j -> f j = sampled T q a fs j) ->
  exists c, snd (run f (WIdle true) i m) = map (fun s => firstn (S LA) (snd s)) (firstn c fs) /\ (c <= length fs)%nat /\
    forall k s bs, nth_error fs k = Some (s, bs) ->
      (s + T * Z.of_nat (length bs) <= a + (i + Z.of_nat m - 1) * q -> (k < c)%nat) /\
      ((k < c)%nat -> s + Z.of_nat LA * T <= a + (i + Z.of_nat m - 1) * q).
Proof.
  intros fs. induction fs as [|[s bs] fs IH]; intros t0 i m f TU FR BE FE.
  - exists 0%nat. rewrite run_quiet by (intros j J; rewrite FE by lia; reflexivity).
    refine (conj eq_refl (conj (le_n _) _)). intros k s bs E. destruct k; discriminate.
  - inversion FR as [|? ? FR1 FR2 [X1 X2]]; subst. destruct TU as [TU1 TU2]. cbn [snd] in FR1. assert (PT := T_pos).
    assert (FR1' := FR1). destruct FR1' as [G1 [G2 G3]].
    set (e := s + T * Z.of_nat (length bs)) in *.
    assert (TUF : in_turn T s ((s, bs) :: fs)) by (split; [lia|exact TU2]).
    (* the first sample not before s *)
    set (i0 := (s - a + q - 1) / q).
    assert (I0 : s <= a + i0 * q < s + q).
    { assert (X := Z.div_mod (s - a + q - 1) q ltac:(lia)). assert (Y := Z.mod_pos_bound (s - a + q - 1) q Q). fold i0 in X.
      clear - X Y. lia. }
    assert (II : i <= i0).
    { assert (X : (i - 1) * q < i0 * q) by (clear - BE TU1 I0; lia). clear - X Q. nia. }
    clearbody i0.
    assert (HI : forall j, i <= j < i0 -> f j = true).
    { intros j J. rewrite FE by lia. unfold sampled. apply (level_before T _ s); auto. clear - I0 J Q. nia. }
    assert (F0 : f i0 = false).
    { rewrite FE by lia. unfold sampled. rewrite (level_in T s bs fs _ 0%nat PT); [exact G2|lia|].
      destruct (tol_k 0%nat MI ltac:(lia) ltac:(lia)) as [A B]. clear - I0 A B Q MI2. cbn [Nat.mul Nat.add Z.of_nat] in *. nia. }
    assert (FB : forall k j, (k <= LA)%nat -> (MI - 2 <= j <= MI)%nat -> f (i0 + Z.of_nat (k * SA + j)) = nth k bs true).
    { intros k j K J. rewrite FE by lia. unfold sampled. apply level_in; [exact PT|lia|].
      destruct (tol_k k j K J) as [A B]. clear - I0 A B Q. nia. }
    destruct (run_frame f i0 (fun k => nth k bs true) G2 (G3 LA (le_n _)) F0 FB) as [NO YES].
    assert (EL : (LA < length bs)%nat) by exact G1.
    assert (TL := tol_k LA MI (le_n _) ltac:(lia)).
    assert (LL : Z.of_nat L = Z.of_nat (LA * SA + MI) + 1) by (unfold L; lia).
    assert (EE : s + (Z.of_nat LA + 1) * T <= e) by (unfold e; clear - EL PT; nia).
    set (n0 := Z.to_nat (i0 - i)). assert (N0 : Z.of_nat n0 = i0 - i) by (unfold n0; lia). clearbody n0.
    destruct (le_lt_dec m n0) as [M|M]; [|destruct (le_lt_dec (n0 + L) m) as [M2|M2]].
    + exists 0%nat. rewrite run_quiet by (intros j J; apply HI; lia).
      refine (conj eq_refl (conj (Nat.le_0_l _) _)). intros k s' bs' E. split; [|intros X; lia]. intros X. exfalso.
      assert (S1 := in_turn_le _ s k s' bs' TUF E).
      assert (X2 : (i + Z.of_nat m - 1) * q <= (i0 - 1) * q) by (clear - M N0 Q; nia).
      assert (X3 : 0 <= T * Z.of_nat (length bs')) by (clear - PT; nia). clear - X X2 X3 S1 I0. lia.
    + (* the frame is complete *)
      set (m' := (m - n0 - L)%nat). assert (Em : m = (n0 + (L + m'))%nat) by (unfold m'; lia).
      assert (BE' : a + (i0 + Z.of_nat L - 1) * q < e).
      { destruct TL as [_ TL2]. clear - TL2 I0 LL EE. nia. }
      assert (FE' : forall j, i0 + Z.of_nat L <= j -> f j = sampled T q a fs j).
      { intros j J. rewrite FE by (clear - II J; lia). unfold sampled. apply (level_tail T LA); auto.
        assert (Y : (i0 + Z.of_nat (LA * SA + MI)) * q <= j * q) by (clear - J LL Q; nia). destruct TL as [TL1 _]. clear - Y TL1 I0. lia. }
      destruct (IH e (i0 + Z.of_nat L) m' f TU2 FR2 BE' FE') as [c [O [CL EX]]].
      exists (S c). split; [|split].
      * rewrite Em, run_app, run_quiet by (intros j J; apply HI; lia). cbn [fst snd app].
        replace (i + Z.of_nat n0) with i0 by (clear - N0; lia). rewrite run_app, YES. cbn [fst snd]. rewrite O. cbn [firstn map app].
        f_equal. clear - EL. cbn [snd].
        assert (Y : forall l n, (n <= length l)%nat -> map (fun k => nth k l true) (seq 0 n) = firstn n l).
        { induction l as [|x l IHl]; intros n N; [cbn in N; replace n with 0%nat by lia; reflexivity|].
          destruct n as [|n]; [reflexivity|]. cbn [seq map nth firstn]. f_equal. rewrite <- seq_shift, map_map. apply IHl. cbn in N. lia. }
        apply Y. lia.
      * cbn [length]. lia.
      * replace (i + Z.of_nat m - 1) with (i0 + Z.of_nat L + Z.of_nat m' - 1) by (clear - Em N0; lia).
        intros k s' bs' E. destruct k as [|k]; cbn [nth_error] in E.
        { injection E as <- <-. split; [intros _; lia|]. intros _. destruct TL as [TL1 _].
          assert (Y : (i0 + Z.of_nat (LA * SA + MI)) * q <= (i0 + Z.of_nat L + Z.of_nat m' - 1) * q) by (clear - LL Q; nia). clear - Y TL1 I0. lia. }
        destruct (EX k s' bs' E) as [E1 E2]. split; [intros X; specialize (E1 X); lia|]. intros X. apply E2. lia.
    + (* in the middle of the frame *)
      exists 0%nat. set (m' := (m - n0)%nat). assert (Em : m = (n0 + m')%nat) by (unfold m'; lia).
      split; [|split; [lia|]].
      * rewrite Em, run_app, run_quiet by (intros j J; apply HI; lia). cbn [fst snd app].
        replace (i + Z.of_nat n0) with i0 by (clear - N0; lia). rewrite NO by lia. reflexivity.
      * intros k s' bs' E. split; [|intros X; lia]. intros X. exfalso.
        assert (Y : (i + Z.of_nat m - 1) * q <= (i0 + Z.of_nat (LA * SA + MI) - 1) * q) by (clear - M2 N0 LL Q; nia).
        destruct TL as [_ TL2].
        assert (Y2 : (i0 + Z.of_nat (LA * SA + MI) - 1) * q < (i0 + Z.of_nat (LA * SA + MI)) * q) by (clear - Q; nia).
        assert (Y3 : a + (i + Z.of_nat m - 1) * q < e) by (clear - Y Y2 TL2 I0 EE; lia).
        destruct k as [|k]; cbn [nth_error] in E; [injection E as <- <-; fold e in X; clear - X Y3; lia|].
        assert (S1 := in_turn_le _ e k s' bs' TU2 E).
        assert (X3 : 0 <= T * Z.of_nat (length bs')) by (clear - PT; nia). clear - X X3 S1 Y3. lia.
Qed.
End Receiver.

(** ** Boards *)
Lemma speeds : forall d, d = 8 \/ d = 16 ->
  Z.of_nat (speed_samples d) = d /\ Z.of_nat (speed_middle d) = d / 2 + 1 /\ (2 <= speed_middle d)%nat /\
  (speed_middle d + 1 <= speed_samples d)%nat.
Proof. intros d [-> | ->]; cbn; repeat split; lia. Qed.

Lemma spaced_turn : forall n p (two : bool) T cs t0, spaced (T * (Z.of_nat (last_bit n p) + 1 + if two then 1 else 0)) t0 cs ->
  in_turn T t0 (frames_of n p two cs) /\ Forall (fun s => framed (last_bit n p) (snd s)) (frames_of n p two cs).
Proof.
  intros n p two T cs. induction cs as [|[s d] cs IH]; intros t0 SP; [split; [exact Logic.I|constructor]|].
  destruct SP as [S1 S2]. cbn [frames_of map in_turn fst snd]. fold (frames_of n p two cs).
  destruct (IH _ S2) as [A B]. split.
  - split; [exact S1|]. rewrite encode_length.
    replace (Z.of_nat (S (last_bit n p) + (if two then 1 else 0))) with (Z.of_nat (last_bit n p) + 1 + (if two then 1 else 0)) by (destruct two; lia).
    exact A.
  - constructor; [apply encode_framed|exact B].
Qed.

Lemma last_frame : forall b p, 0 <= b <= 3 -> Z.of_nat (last_bit (Z.to_nat (5 + b)) p) = 6 + b + (match p with POff => 0 | _ => 1 end).
Proof. intros b p B. unfold last_bit. destruct p; lia. Qed.

Lemma heard_l : forall F G m1 id1 m2 id2 b p1 p2 (two1 two2 : bool) cs a t0 m,
  hw_frame m1 id1 = Some (5 + b, p1, two1) -> hw_frame m2 id2 = Some (5 + b, p2, two2) -> 0 <= b <= 3 ->
  (p1 = POff <-> p2 = POff) ->
  let d := hw_divider m2 id2 in
  let T := bit_time G (hw_divider m1 id1) (hw_ubrr m1 id1) in
  let q := sample_time F (hw_ubrr m2 id2) in
  0 < q -> tolerable (speed_samples d) (speed_middle d) (last_bit (Z.to_nat (5 + b)) p1) T q ->
  let K := 6 + b + (match p1 with POff => 0 | _ => 1 end) in
  spaced (T * (K + 1 + if two1 then 1 else 0)) t0 cs -> a - q < t0 ->
  exists c, heard F G m1 id1 m2 id2 cs a m =
      Some (map (fun x => (snd x mod 2 ^ (5 + b), false, opposite p1 p2)) (firstn c cs)) /\
    hears (T * (K + 1 + if two1 then 1 else 0)) (K * T) cs (a + (Z.of_nat m - 1) * q) c.
Proof.
  intros F G m1 id1 m2 id2 b p1 p2 two1 two2 cs a t0 m H1 H2 B PP d T q Q TOL K SP BE.
  assert (D : d = 8 \/ d = 16) by (unfold d, hw_divider; destruct (Z.testbit _ 1); auto).
  destruct (speeds d D) as [_ [_ [D3 D4]]].
  assert (LK := last_frame b p1 B). fold K in LK.
  assert (LP : last_bit (Z.to_nat (5 + b)) p2 = last_bit (Z.to_nat (5 + b)) p1).
  { unfold last_bit. destruct p1, p2; try reflexivity; exfalso; destruct PP as [E1 E2]; first [discriminate (E1 eq_refl) | discriminate (E2 eq_refl)]. }
  rewrite <- LK in SP. destruct (spaced_turn _ _ _ _ _ _ SP) as [TU FR].
  assert (L1 : (1 <= last_bit (Z.to_nat (5 + b)) p1)%nat) by (unfold last_bit; destruct p1; lia).
  destruct (receives (speed_samples d) (speed_middle d) (last_bit (Z.to_nat (5 + b)) p1) D3 D4 L1 T q a Q TOL
             (frames_of (Z.to_nat (5 + b)) p1 two1 cs) t0 0 m (sampled T q a (frames_of (Z.to_nat (5 + b)) p1 two1 cs)) TU FR)
    as [c [O [CL EX]]]; [clear - BE; lia|reflexivity|].
  exists c. split.
  - unfold heard. rewrite H1, H2. fold d. rewrite LP. cbv zeta. fold T q. rewrite O. f_equal.
    unfold frames_of. rewrite firstn_map, !map_map. apply map_ext. intros [s x]. cbn [fst snd].
    rewrite decode_encode_l by exact PP. rewrite Z2Nat.id by lia. reflexivity.
  - unfold frames_of in CL. rewrite map_length in CL. refine (conj CL _). intros k s x E.
    destruct (EX k s (encode (Z.to_nat (5 + b)) p1 two1 x)) as [E1 E2].
    { unfold frames_of. rewrite nth_error_map, E. reflexivity. }
    rewrite encode_length in E1.
    replace (Z.of_nat (S (last_bit (Z.to_nat (5 + b)) p1) + (if two1 then 1 else 0))) with (K + 1 + (if two1 then 1 else 0)) in E1 by (rewrite <- LK; destruct two1; lia).
    rewrite LK in E2. replace (0 + Z.of_nat m - 1) with (Z.of_nat m - 1) in * by lia. split; assumption.
Qed.

(** Rates of two boards that were asked for the same rate. *)
Lemma rates_l : forall F G b d1 u1 d2 u2, 1 <= F -> 1 <= G -> 1 <= b -> 1 <= d1 -> 1 <= d2 ->
  fits F d1 b u1 -> fits G d2 b u2 ->
  let T := bit_time G d1 u1 in let R := d2 * sample_time F u2 in
  R * (u1 + 1) < T * (u1 + 2) /\ T * (u2 + 1) < R * (u2 + 2).
Proof.
  intros F G b d1 u1 d2 u2 HF HG HB H1 H2 [U1 [A1 B1]] [U2 [A2 B2]] T R. subst T R. unfold bit_time, sample_time.
  assert (X : forall F G d1 u1 d2 u2, 1 <= F -> 1 <= G -> 1 <= d1 -> 1 <= d2 -> 0 <= u1 -> 0 <= u2 ->
    F < d1 * b * (u1 + 2) -> d2 * b * (u2 + 1) <= G ->
    d2 * ((u2 + 1) * F) * (u1 + 1) < d1 * (u1 + 1) * G * (u1 + 2)).
  { clear - HB. intros F G d1 u1 d2 u2 HF HG H1 H2 U1 U2 A B.
    assert (P1 : d2 * b * (u2 + 1) * (F * (u1 + 1)) <= G * (F * (u1 + 1))) by (apply Z.mul_le_mono_nonneg_r; [nia|exact B]).
    assert (P2 : F * (G * (u1 + 1)) < d1 * b * (u1 + 2) * (G * (u1 + 1))) by (apply Z.mul_lt_mono_pos_r; [nia|exact A]).
    apply (Z.mul_lt_mono_pos_l b); [lia|].
    replace (b * (d2 * ((u2 + 1) * F) * (u1 + 1))) with (d2 * b * (u2 + 1) * (F * (u1 + 1))) by ring.
    replace (b * (d1 * (u1 + 1) * G * (u1 + 2))) with (d1 * b * (u1 + 2) * (G * (u1 + 1))) by ring.
    replace (G * (F * (u1 + 1))) with (F * (G * (u1 + 1))) in P1 by ring. lia. }
  split.
  - apply X; lia.
  - assert (Y := X G F d2 u2 d1 u1 HG HF H2 H1 ltac:(lia) ltac:(lia) B2 A1).
    replace (d1 * (u1 + 1) * G * (u2 + 1)) with (d1 * ((u1 + 1) * G) * (u2 + 1)) by ring.
    replace (d2 * ((u2 + 1) * F) * (u2 + 2)) with (d2 * (u2 + 1) * F * (u2 + 2)) by ring. exact Y.
Qed.

Lemma tolerable_rates : forall d K T q N1 N2, d = 8 \/ d = 16 -> (1 <= K <= 10)%nat -> 0 < q -> 0 < T -> 43 <= N1 -> 27 <= N2 ->
  d * q * N1 < T * (N1 + 1) -> T * N2 < d * q * (N2 + 1) -> tolerable (speed_samples d) (speed_middle d) K T q.
Proof.
  intros d K T q N1 N2 D HK Q PT H1 H2 A B. destruct (speeds d D) as [E1 [E2 _]]. unfold tolerable. rewrite E1, E2.
  assert (KZ : 1 <= Z.of_nat K <= 10) by lia. generalize dependent (Z.of_nat K). intros k KZ.
  assert (A43 : 43 * (d * q) < 44 * T).
  { assert (X : (d * q - T) * N1 < T) by (clear - A; lia). destruct (Z_le_gt_dec (d * q - T) 0) as [Y|Y]; [clear - Y PT; lia|].
    assert (W : (d * q - T) * 43 <= (d * q - T) * N1) by (clear - Y H1; nia). clear - X W. lia. }
  assert (B27 : 27 * T < 28 * (d * q)).
  { assert (X : (T - d * q) * N2 < d * q) by (clear - B; lia). destruct (Z_le_gt_dec (T - d * q) 0) as [Y|Y].
    - assert (0 < d * q) by (destruct D; subst d; clear - Q; lia). clear - Y H. lia.
    - assert (W : (T - d * q) * 27 <= (T - d * q) * N2) by (clear - Y H2; nia). clear - X W. lia. }
  assert (KK : k = 1 \/ k = 2 \/ k = 3 \/ k = 4 \/ k = 5 \/ k = 6 \/ k = 7 \/ k = 8 \/ k = 9 \/ k = 10) by (clear - KZ; lia).
  clear A B KZ HK E1 E2 H1 H2.
  destruct D as [-> | ->]; [change (8 / 2 + 1) with 5|change (16 / 2 + 1) with 9];
    repeat (destruct KK as [-> | KK]; [clear - A43 B27 Q PT; lia|]); subst k; clear - A43 B27 Q PT; lia.
Qed.
Lemma tolerable_same : forall d K q, d = 8 \/ d = 16 -> 0 < q -> tolerable (speed_samples d) (speed_middle d) K (d * q) q.
Proof.
  intros d K q D Q. destruct (speeds d D) as [E1 [E2 _]]. unfold tolerable. rewrite E1, E2. clear E1 E2.
  destruct D as [-> | ->]; [change (8 / 2 + 1) with 5|change (16 / 2 + 1) with 9]; clear - Q; lia.
Qed.

Lemma init_fits : forall F b c c', 1 <= F -> 1 <= b <= 65535 -> F / (8 * b) <= 32768 ->
  F < 16 * b \/ 32 * b <= F \/ b <= 32767 -> init_async F c b = Some (c', true) ->
  c_bits c' = c_bits c /\ c_par c' = c_par c /\ c_two c' = c_two c /\ (c_div c' = 8 \/ c_div c' = 16) /\ fits F (c_div c') b (c_ubrr c').
Proof.
  intros F b c c' HF HB HU HR E. destruct (AvrProofs.choice_l F b c HF HB HU HR) as [c2 [h [E2 [X1 [X2 [X3 [X4 [X5 X6]]]]]]]].
  rewrite E in E2. injection E2 as <- <-. destruct (X5 eq_refl) as [Y1 [Y2 _]]. auto.
Qed.
Lemma opened_l : forall m id c, id = 0 \/ id = 1 -> 0 <= c_bits c <= 3 -> 0 <= c_ubrr c < 65536 -> c_div c = 8 \/ c_div c = 16 ->
  hw_divider (opened m id c) id = c_div c /\ hw_ubrr (opened m id c) id = c_ubrr c /\
  hw_frame (opened m id c) id = Some (5 + c_bits c, swap_parity (c_par c), c_two c).
Proof.
  intros m id c I B U D. destruct (AvrProofs.open_l m id c I) as [_ [_ O]]; [unfold cfg_ok; lia|].
  destruct (O D) as [_ [O1 [O2 [_ O3]]]]. unfold opened. refine (conj O1 (conj O2 _)). rewrite O3. replace (c_bits c =? 4) with false by lia. reflexivity.
Qed.
Lemma swap_off : forall p, (match swap_parity p with POff => 0 | _ => 1 end) = (match p with POff => 0 | _ => 1 end).
Proof. intros []; reflexivity. Qed.

Lemma opened_heard : forall F G id1 id2 c1 c2 m1 m2 cs a t0 m, 1 <= F -> 1 <= G -> id1 = 0 \/ id1 = 1 -> id2 = 0 \/ id2 = 1 ->
  0 <= c_bits c1 <= 3 -> c_bits c2 = c_bits c1 -> c_par c2 = c_par c1 ->
  0 <= c_ubrr c1 < 65536 -> 0 <= c_ubrr c2 < 65536 -> c_div c1 = 8 \/ c_div c1 = 16 -> c_div c2 = 8 \/ c_div c2 = 16 ->
  tolerable (speed_samples (c_div c2)) (speed_middle (c_div c2)) (last_bit (Z.to_nat (5 + c_bits c1)) (c_par c1))
     (bit_time G (c_div c1) (c_ubrr c1)) (sample_time F (c_ubrr c2)) ->
  spaced (frame_time G c1) t0 cs -> a - sample_time F (c_ubrr c2) < t0 ->
  exists c, heard F G (opened m1 id1 c1) id1 (opened m2 id2 c2) id2 cs a m =
      Some (map (fun x => (snd x mod 2 ^ (5 + c_bits c1), false, false)) (firstn c cs)) /\
    hears (frame_time G c1) (frame_time G c1 - bit_time G (c_div c1) (c_ubrr c1) * (if c_two c1 then 2 else 1)) cs
      (a + (Z.of_nat m - 1) * sample_time F (c_ubrr c2)) c.
Proof.
  intros F G id1 id2 c1 c2 m1 m2 cs a t0 m HF HG I1 I2 B EB EP U1 U2 D1 D2 TOL SP BE.
  destruct (opened_l m1 id1 c1 I1 B U1 D1) as [R1 [R2 R3]].
  destruct (opened_l m2 id2 c2 I2 ltac:(rewrite EB; exact B) U2 D2) as [S1 [S2 S3]]. rewrite EB, EP in S3.
  assert (HH := heard_l F G (opened m1 id1 c1) id1 (opened m2 id2 c2) id2 (c_bits c1) (swap_parity (c_par c1)) (swap_parity (c_par c1))
    (c_two c1) (c_two c2) cs a t0 m R3 S3 B ltac:(tauto)).
  cbv zeta in HH. rewrite R1, R2, S1, S2, !swap_off in HH.
  assert (LB : last_bit (Z.to_nat (5 + c_bits c1)) (swap_parity (c_par c1)) = last_bit (Z.to_nat (5 + c_bits c1)) (c_par c1)) by (destruct (c_par c1); reflexivity).
  rewrite LB in HH.
  set (T := bit_time G (c_div c1) (c_ubrr c1)) in *. set (q := sample_time F (c_ubrr c2)) in *.
  assert (Q : 0 < q) by (unfold q, sample_time; clear - HF U2; nia).
  assert (FT : T * (6 + c_bits c1 + (match c_par c1 with POff => 0 | _ => 1 end) + 1 + (if c_two c1 then 1 else 0)) = frame_time G c1).
  { unfold frame_time, frame_bits. fold T. f_equal. lia. }
  rewrite FT in HH. destruct (HH Q TOL SP BE) as [c [O EX]]. exists c. split.
  - rewrite O. destruct (swap_parity (c_par c1)); reflexivity.
  - replace (frame_time G c1 - T * (if c_two c1 then 2 else 1)) with ((6 + c_bits c1 + (match c_par c1 with POff => 0 | _ => 1 end)) * T); [exact EX|].
    rewrite <- FT. destruct (c_two c1); lia.
Qed.

Lemma boards_l : forall F G b c1 c2 c1' c2' id1 id2 m1 m2 cs a t0 m, 1 <= F -> 1 <= G -> 1 <= b <= 65535 ->
  F / (8 * b) <= 32768 -> G / (8 * b) <= 32768 ->
  init_async F c1 b = Some (c1', true) -> init_async G c2 b = Some (c2', true) ->
  F < 16 * b \/ 32 * b <= F \/ b <= 32767 -> G < 16 * b \/ 32 * b <= G \/ b <= 32767 ->
  id1 = 0 \/ id1 = 1 -> id2 = 0 \/ id2 = 1 ->
  0 <= c_bits c1 <= 3 -> c_bits c2 = c_bits c1 -> c_par c2 = c_par c1 ->
  42 <= c_ubrr c1' -> 26 <= c_ubrr c2' ->
  spaced (frame_time G c1') t0 cs -> a - sample_time F (c_ubrr c2') < t0 ->
  exists c, heard F G (opened m1 id1 c1') id1 (opened m2 id2 c2') id2 cs a m =
      Some (map (fun x => (snd x mod 2 ^ (5 + c_bits c1), false, false)) (firstn c cs)) /\
    hears (frame_time G c1') (frame_time G c1' - bit_time G (c_div c1') (c_ubrr c1') * (if c_two c1' then 2 else 1)) cs
      (a + (Z.of_nat m - 1) * sample_time F (c_ubrr c2')) c.
Proof.
  intros F G b c1 c2 c1' c2' id1 id2 m1 m2 cs a t0 m HF HG HB HU1 HU2 N1 N2 HR1 HR2 I1 I2 B EB EP U1 U2 SP BE.
  destruct (init_fits F b c1 c1' HF HB HU1 HR1 N1) as [X1 [X2 [_ [X4 X5]]]].
  destruct (init_fits G b c2 c2' HG HB HU2 HR2 N2) as [Y1 [Y2 [_ [Y4 Y5]]]].
  rewrite <- X1. destruct (rates_l F G b (c_div c1') (c_ubrr c1') (c_div c2') (c_ubrr c2')) as [RA RB]; try lia; try assumption.
  assert (V1 : 0 <= c_ubrr c1' < 65536) by (destruct X5 as [? _]; lia).
  assert (V2 : 0 <= c_ubrr c2' < 65536) by (destruct Y5 as [? _]; lia).
  apply opened_heard with (t0 := t0); auto; try congruence; try (rewrite X1; exact B).
  assert (HK : (1 <= last_bit (Z.to_nat (5 + c_bits c1')) (c_par c1') <= 10)%nat) by (unfold last_bit; destruct (c_par c1'); lia).
  apply (tolerable_rates (c_div c2') _ _ _ (c_ubrr c1' + 1) (c_ubrr c2' + 1)); auto; try lia.
  - unfold sample_time. clear - V2 HF. nia.
  - unfold bit_time. clear - V1 HG X4. nia.
Qed.

Lemma one_clock_l : forall F c1 c2 id1 id2 m1 m2 cs a t0 m, 1 <= F ->
  c_div c1 = 8 \/ c_div c1 = 16 -> c_div c2 = c_div c1 -> 0 <= c_ubrr c1 < 65536 -> c_ubrr c2 = c_ubrr c1 ->
  id1 = 0 \/ id1 = 1 -> id2 = 0 \/ id2 = 1 -> 0 <= c_bits c1 <= 3 -> c_bits c2 = c_bits c1 -> c_par c2 = c_par c1 ->
  spaced (frame_time F c1) t0 cs -> a - sample_time F (c_ubrr c2) < t0 ->
  exists c, heard F F (opened m1 id1 c1) id1 (opened m2 id2 c2) id2 cs a m =
      Some (map (fun x => (snd x mod 2 ^ (5 + c_bits c1), false, false)) (firstn c cs)) /\
    hears (frame_time F c1) (frame_time F c1 - bit_time F (c_div c1) (c_ubrr c1) * (if c_two c1 then 2 else 1)) cs
      (a + (Z.of_nat m - 1) * sample_time F (c_ubrr c2)) c.
Proof.
  intros F c1 c2 id1 id2 m1 m2 cs a t0 m HF D ED U EU I1 I2 B EB EP SP BE.
  apply opened_heard with (t0 := t0); auto; try lia.
  rewrite ED, EU. unfold bit_time. replace (c_div c1 * (c_ubrr c1 + 1) * F) with (c_div c1 * sample_time F (c_ubrr c1)) by (unfold sample_time; ring).
  apply tolerable_same; [exact D|]. unfold sample_time. clear - U HF. nia.
Qed.

(** A board of another make, set to the parity the configuration names. *)
Lemma other_parity_l : forall F c1 m1 id1 m2 id2 two cs a t0 m, 1 <= F -> id1 = 0 \/ id1 = 1 ->
  c_div c1 = 8 \/ c_div c1 = 16 -> 0 <= c_ubrr c1 < 65536 -> 0 <= c_bits c1 <= 3 -> c_par c1 <> POff ->
  hw_divider m2 id2 = c_div c1 -> hw_ubrr m2 id2 = c_ubrr c1 -> hw_frame m2 id2 = Some (5 + c_bits c1, c_par c1, two) ->
  spaced (frame_time F c1) t0 cs -> a - sample_time F (c_ubrr c1) < t0 ->
  exists c, heard F F (opened m1 id1 c1) id1 m2 id2 cs a m =
      Some (map (fun x => (snd x mod 2 ^ (5 + c_bits c1), false, true)) (firstn c cs)) /\
    hears (frame_time F c1) (frame_time F c1 - bit_time F (c_div c1) (c_ubrr c1) * (if c_two c1 then 2 else 1)) cs
      (a + (Z.of_nat m - 1) * sample_time F (c_ubrr c1)) c.
Proof.
  intros F c1 m1 id1 m2 id2 two cs a t0 m HF I1 D U B P H1 H2 H3 SP BE.
  destruct (opened_l m1 id1 c1 I1 B U D) as [R1 [R2 R3]].
  assert (PP : swap_parity (c_par c1) = POff <-> c_par c1 = POff) by (destruct (c_par c1); split; intros X; try discriminate X; reflexivity).
  assert (HH := heard_l F F (opened m1 id1 c1) id1 m2 id2 (c_bits c1) (swap_parity (c_par c1)) (c_par c1) (c_two c1) two cs a t0 m R3 H3 B PP).
  cbv zeta in HH. rewrite R1, R2, H1, H2, !swap_off in HH.
  set (T := bit_time F (c_div c1) (c_ubrr c1)) in *. set (q := sample_time F (c_ubrr c1)) in *.
  assert (Q : 0 < q) by (unfold q, sample_time; clear - HF U; nia).
  assert (FT : T * (6 + c_bits c1 + (match c_par c1 with POff => 0 | _ => 1 end) + 1 + (if c_two c1 then 1 else 0)) = frame_time F c1).
  { unfold frame_time, frame_bits. fold T. f_equal. lia. }
  rewrite FT in HH.
  assert (TT : T = c_div c1 * q) by (unfold T, q, bit_time, sample_time; ring).
  assert (TOL : tolerable (speed_samples (c_div c1)) (speed_middle (c_div c1)) (last_bit (Z.to_nat (5 + c_bits c1)) (swap_parity (c_par c1))) T q).
  { rewrite TT. apply tolerable_same; assumption. }
  destruct (HH Q TOL SP BE) as [c [O EX]]. exists c. split.
  - rewrite O. destruct (c_par c1); [contradiction P; reflexivity|reflexivity|reflexivity].
  - replace (frame_time F c1 - T * (if c_two c1 then 2 else 1)) with ((6 + c_bits c1 + (match c_par c1 with POff => 0 | _ => 1 end)) * T); [exact EX|].
    rewrite <- FT. destruct (c_two c1); lia.
Qed.
