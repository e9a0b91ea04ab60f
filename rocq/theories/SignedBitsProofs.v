(** Proofs about SignedBitsModel.v: everything is read off the bits below the width. *)
Require Import ZArith List Bool Lia ZifyBool.
Import ListNotations.
From Verif Require Import Base BaseFacts BitModel BitSpec BitProofs SignedBitsModel SignedBitsSpec.
Open Scope Z_scope.
Local Ltac Zify.zify_post_hook ::= idtac.

Lemma testbit_sn_high : forall n x j, 1 <= n -> n - 1 <= j -> Z.testbit (sn n x) j = Z.testbit x (n - 1).
Proof.
  intros n x j Hn Hj. rewrite <- (testbit_sn n x (n - 1)) by lia. pose proof (sn_range n x Hn) as R.
  destruct (Z.ltb_spec (sn n x) 0) as [L|L].
  - rewrite !(testbit_high_neg _ (n - 1)) by lia. reflexivity.
  - rewrite !(testbit_high_pos _ (n - 1)) by lia. reflexivity.
Qed.

Lemma sn_type : forall w x, 1 <= w -> in_type true w (sn w x).
Proof. intros w x H. unfold in_type. now apply sn_range. Qed.

Lemma sn_ext : forall w a b, 1 <= w -> (forall j, 0 <= j < w -> Z.testbit a j = Z.testbit b j) -> sn w a = sn w b.
Proof.
  intros w a b Hw H. apply (in_type_ext true w); [exact Hw|now apply sn_type|now apply sn_type|].
  intros j Hj. rewrite !testbit_sn by lia. now apply H.
Qed.

Lemma sb_shl_l : forall iw w x k, 0 <= k < Z.max w iw -> sb_shl iw w x k = Some (sn w (x * 2 ^ k)).
Proof. intros iw w x k H. unfold sb_shl. assert ((0 <=? k) && (k <? Z.max w iw) = true) as -> by lia. reflexivity. Qed.
Lemma sb_shr_l : forall iw w x k, 0 <= k < Z.max w iw -> sb_shr iw w x k = Some (x / 2 ^ k).
Proof. intros iw w x k H. unfold sb_shr. assert ((0 <=? k) && (k <? Z.max w iw) = true) as -> by lia. reflexivity. Qed.

Lemma testbit_mul_sn : forall w x k j, 0 <= w -> 0 <= k -> 0 <= j < w ->
  Z.testbit (sn w x * 2 ^ k) j = Z.testbit (x * 2 ^ k) j.
Proof. intros w x k j Hw Hk Hj. rewrite !Z.mul_pow2_bits by lia. rewrite testbit_sn by lia. reflexivity. Qed.

Lemma sb_mask_loop_l : forall iw w n a, 1 <= w -> 2 <= Z.max w iw -> 0 <= a ->
  sb_mask_loop iw w (sn w (Z.ones a)) n = Some (sn w (Z.ones (a + Z.of_nat n))).
Proof.
  intros iw w n. induction n as [|n IH]; intros a Hw Hm Ha; cbn [sb_mask_loop].
  - do 3 f_equal. lia.
  - rewrite sb_shl_l by lia.
    assert (E : sn w (Z.lor (sn w (sn w (Z.ones a) * 2 ^ 1)) 1) = sn w (Z.ones (a + 1))).
    { apply sn_ext; [lia|]. intros j Hj. rewrite <- ones_succ by lia. rewrite !Z.lor_spec.
      rewrite testbit_sn, testbit_mul_sn by lia. reflexivity. }
    rewrite E, IH by lia. do 3 f_equal. lia.
Qed.

Lemma sb_mask_l : forall iw w c, 1 <= w -> 2 <= Z.max w iw -> 0 <= c -> sb_mask iw w c = Some (sn w (Z.ones c)).
Proof.
  intros iw w c Hw Hm Hc. unfold sb_mask. replace 0 with (sn w (Z.ones 0)).
  - rewrite sb_mask_loop_l by lia. do 3 f_equal. lia.
  - apply sn_small; [lia|]. change (Z.ones 0) with 0. pose proof (pow_pos (w - 1) ltac:(lia)). lia.
Qed.

Lemma mask_shifted : forall w i c j, 0 <= i -> 0 <= c -> 0 <= w -> 0 <= j < w ->
  Z.testbit (sn w (sn w (Z.ones c) * 2 ^ i)) j = (i <=? j) && (j <? i + c).
Proof.
  intros w i c j Hi Hc Hw Hj. rewrite testbit_sn, testbit_mul_sn, Z.mul_pow2_bits by lia.
  destruct (Z.leb_spec i j).
  - rewrite Z.testbit_ones_nonneg by lia. cbn [andb]. lia.
  - rewrite Z.testbit_neg_r by lia. reflexivity.
Qed.

Lemma sb_set_l : forall iw w b i v c, 1 <= w -> 2 <= Z.max w iw -> 0 <= i -> 0 <= c -> i + c <= w -> i < Z.max w iw ->
  exists b', sb_set_field iw w b i v c = Some (b', true) /\ in_type true w b' /\
    forall j, 0 <= j < w -> Z.testbit b' j = if (i <=? j) && (j <? i + c) then Z.testbit v (j - i) else Z.testbit b j.
Proof.
  intros iw w b i v c Hw Hm Hi Hc H Hx. unfold sb_set_field, ba_valid.
  assert (i + c <=? w = true) as -> by lia. cbn [negb]. rewrite sb_mask_l, !sb_shl_l by lia.
  eexists. split; [reflexivity|]. split; [now apply sn_type|]. intros j Hj.
  rewrite testbit_sn, Z.lor_spec, testbit_sn, Z.land_spec, Z.lnot_spec, mask_shifted by lia.
  rewrite (testbit_sn w _ j), testbit_mul_sn, Z.mul_pow2_bits by lia.
  destruct (Z.leb_spec i j) as [L|L]; cbn [andb].
  - rewrite Z.land_spec, testbit_sn, Z.testbit_ones_nonneg by lia.
    replace (j - i <? c) with (j <? i + c) by lia.
    destruct (j <? i + c); cbn [negb]; rewrite ?andb_true_r, ?andb_false_r, ?orb_false_r; reflexivity.
  - rewrite (Z.testbit_neg_r _ (j - i)) by lia. cbn [negb]. now rewrite andb_true_r, orb_false_r.
Qed.

Lemma sb_get_l : forall iw w b i c, 1 <= w -> 2 <= Z.max w iw -> 0 <= i -> 0 <= c -> i + c <= w -> i < Z.max w iw ->
  sb_get_field iw w b i c = Some (field_value w b i c).
Proof.
  intros iw w b i c Hw Hm Hi Hc H Hx. unfold sb_get_field, ba_valid.
  assert (i + c <=? w = true) as -> by lia. cbn [negb]. rewrite sb_mask_l, sb_shl_l, sb_shr_l by lia.
  f_equal. apply Z.bits_inj'. intros j Hj. rewrite Z.div_pow2_bits by lia.
  set (m := sn w (sn w (Z.ones c) * 2 ^ i)).
  assert (M : forall k, 0 <= k < w -> Z.testbit m k = (i <=? k) && (k <? i + c)) by (intros; apply mask_shifted; lia).
  unfold field_value. destruct (Z.ltb_spec (j + i) w) as [L|L].
  - rewrite testbit_sn, Z.land_spec, M by lia.
    assert (i <=? j + i = true) as -> by lia. cbn [andb].
    destruct ((i + c =? w) && (0 <? c)) eqn:E.
    + assert (j + i <? i + c = true) as -> by lia. rewrite testbit_sn, Z.div_pow2_bits by lia. apply andb_true_r.
    + rewrite Z.testbit_mod_pow2, Z.div_pow2_bits by lia. rewrite andb_comm. f_equal. lia.
  - rewrite testbit_sn_high, Z.land_spec, M by lia.
    destruct ((i + c =? w) && (0 <? c)) eqn:E.
    + rewrite testbit_sn_high, Z.div_pow2_bits by lia.
      assert ((i <=? w - 1) && (w - 1 <? i + c) = true) as -> by lia. rewrite andb_true_r. f_equal. lia.
    + rewrite Z.testbit_mod_pow2 by lia. assert (j <? c = false) as -> by lia.
      assert ((i <=? w - 1) && (w - 1 <? i + c) = false) as -> by lia. apply andb_false_r.
Qed.

Lemma field_ext : forall w b b' i i' c, 0 <= i -> 0 <= i' -> 0 <= c -> ((i + c =? w) = (i' + c =? w)) ->
  (forall j, 0 <= j < c -> Z.testbit b (i + j) = Z.testbit b' (i' + j)) ->
  field_value w b i c = field_value w b' i' c.
Proof.
  intros w b b' i i' c Hi Hi' Hc E H. unfold field_value. rewrite E.
  assert (K : forall j, 0 <= j < c -> Z.testbit (b / 2 ^ i) j = Z.testbit (b' / 2 ^ i') j).
  { intros j Hj. rewrite !Z.div_pow2_bits by lia. rewrite !(Z.add_comm j). now apply H. }
  destruct ((i' + c =? w) && (0 <? c)) eqn:F.
  - apply sn_ext; [lia|exact K].
  - apply Z.bits_inj'. intros j Hj. rewrite !Z.testbit_mod_pow2 by lia.
    destruct (Z.ltb_spec j c); cbn [andb]; [apply K; lia|reflexivity].
Qed.

(** What Get answers after Set of the same field. *)
Lemma sb_set_get_l : forall iw w b i v c, 1 <= w -> 2 <= Z.max w iw -> 0 <= i -> 0 <= c -> i + c <= w -> i < Z.max w iw ->
  exists b', sb_set_field iw w b i v c = Some (b', true) /\ in_type true w b' /\
    sb_get_field iw w b' i c = Some (if (i + c =? w) && (0 <? c) then sn c v else v mod 2 ^ c) /\
    (forall i2 c2, 0 <= i2 -> 0 <= c2 -> i2 + c2 <= w -> i2 < Z.max w iw -> i2 + c2 <= i \/ i + c <= i2 ->
       sb_get_field iw w b' i2 c2 = sb_get_field iw w b i2 c2).
Proof.
  intros iw w b i v c Hw Hm Hi Hc H Hx.
  destruct (sb_set_l iw w b i v c Hw Hm Hi Hc H Hx) as [b' [E [T B]]]. exists b'.
  split; [exact E|]. split; [exact T|]. split.
  - rewrite sb_get_l by lia. f_equal. unfold field_value.
    assert (K : forall j, 0 <= j < c -> Z.testbit (b' / 2 ^ i) j = Z.testbit v j).
    { intros j Hj. rewrite Z.div_pow2_bits, B by lia.
      assert ((i <=? j + i) && (j + i <? i + c) = true) as -> by lia. f_equal. lia. }
    destruct ((i + c =? w) && (0 <? c)) eqn:F.
    + apply sn_ext; [lia|exact K].
    + apply Z.bits_inj'. intros j Hj. rewrite !Z.testbit_mod_pow2 by lia.
      destruct (Z.ltb_spec j c); cbn [andb]; [apply K; lia|reflexivity].
  - intros i2 c2 H2 H3 H4 H5 H6. rewrite !sb_get_l by lia. f_equal.
    apply field_ext; [lia|lia|lia|reflexivity|]. intros j Hj. rewrite B by lia.
    assert ((i <=? i2 + j) && (i2 + j <? i + c) = false) as -> by lia. reflexivity.
Qed.

Lemma sb_invalid_l : forall iw w b i v c, w < i + c ->
  sb_set_field iw w b i v c = Some (b, false) /\ sb_get_field iw w b i c = Some 0.
Proof.
  intros iw w b i v c H. unfold sb_set_field, sb_get_field, ba_valid.
  assert (i + c <=? w = false) as -> by lia. split; reflexivity.
Qed.

(** Single bits. *)
Lemma sb_reads : forall iw w b i, 1 <= w <= iw -> 0 <= i < w -> in_type true w b ->
  sb_false iw w b i = Some (negb (Z.testbit b i)) /\
  sb_true iw w b i = Some (Z.testbit b i && negb ((i =? w - 1) && (w =? iw))).
Proof.
  intros iw w b i Hw Hi Hb. unfold sb_false, sb_true, ba_valid, in_type in *.
  assert (i + 1 <=? w = true) as -> by lia. cbn [negb]. rewrite one_shl_value by lia.
  pose proof (pow_pos i ltac:(lia)) as P. destruct (Z.eqb_spec i (iw - 1)) as [E|E].
  - assert (w = iw) by lia. subst i iw.
    rewrite land_negpow by lia. assert ((w - 1 =? w - 1) && (w =? w) = true) as -> by lia. cbn [negb].
    rewrite andb_false_r. destruct (Z.ltb_spec b 0).
    + rewrite (testbit_high_neg b (w - 1)) by lia. split; f_equal; cbn [negb]; lia.
    + rewrite (testbit_high_pos b (w - 1)) by lia. split; f_equal; cbn [negb]; lia.
  - rewrite land_pow by lia. assert ((i =? w - 1) && (w =? iw) = false) as -> by lia. cbn [negb]. rewrite andb_true_r.
    destruct (Z.testbit b i); split; f_equal; cbn [negb]; lia.
Qed.

Lemma sb_step_rel : forall iw w b f o, 1 <= w <= iw -> in_type true w b -> same_bits w b f -> sb_op_ok w o ->
  exists b' r, sb_step iw w b o = Some (b', r) /\ in_type true w b' /\ same_bits w b' (fst (sv_step iw w f o)) /\
    r = snd (sv_step iw w f o).
Proof.
  intros iw w b f o Hw Hb Hf Ho.
  assert (K : forall i, 0 <= i -> i < w -> mask_ok iw w i) by (intros; unfold mask_ok; lia).
  destruct o as [i v|i|i|i|i|x|]; cbn [sb_step sv_step bv_step sb_op_ok] in *.
  1-3: try unfold sb_put; try unfold sb_set; try unfold sb_reset;
    unfold ba_valid; destruct (Z.ltb_spec i w) as [Hi|Hi];
      [assert (i + 1 <=? w = true) as -> by lia; cbn [negb fst snd];
       destruct (one_bits iw w i (K i ltac:(lia) Hi)) as [s [E Hs]]; rewrite E;
       do 2 eexists; split; [reflexivity|]
      |assert (i + 1 <=? w = false) as -> by lia; cbn [negb andb fst snd];
       do 2 eexists; split; [reflexivity|]; split; [assumption|]; split; [assumption|reflexivity]].
  - split; [destruct v; apply sn_type; lia|]. split; [|reflexivity]. intros j Hj. unfold put. rewrite <- Hf by lia.
    destruct v; rewrite ?testbit_sn, ?Z.lor_spec, ?testbit_sn, ?Z.land_spec, ?Z.lnot_spec, ?testbit_sn by lia;
      rewrite Hs by lia; destruct (j =? i), (Z.testbit b j); reflexivity.
  - split; [apply sn_type; lia|]. split; [|reflexivity]. intros j Hj. unfold put. rewrite <- Hf by lia.
    rewrite testbit_sn, Z.lor_spec, Hs by lia. destruct (j =? i), (Z.testbit b j); reflexivity.
  - split; [apply sn_type; lia|]. split; [|reflexivity]. intros j Hj. unfold put. rewrite <- Hf by lia.
    rewrite testbit_sn, Z.land_spec, Z.lnot_spec, Hs by lia. destruct (j =? i), (Z.testbit b j); reflexivity.
  - destruct (Z.ltb_spec i w) as [Hi|Hi]; cbn [fst snd andb].
    + destruct (sb_reads iw w b i Hw ltac:(lia) Hb) as [_ ->]. do 2 eexists. split; [reflexivity|].
      split; [exact Hb|]. split; [exact Hf|]. rewrite Hf by lia. reflexivity.
    + unfold sb_true, ba_valid. assert (i + 1 <=? w = false) as -> by lia. cbn [negb].
      do 2 eexists. split; [reflexivity|]. split; [exact Hb|]. split; [exact Hf|]. reflexivity.
  - destruct (Z.ltb_spec i w) as [Hi|Hi]; cbn [fst snd andb].
    + destruct (sb_reads iw w b i Hw ltac:(lia) Hb) as [-> _]. do 2 eexists. split; [reflexivity|].
      split; [exact Hb|]. split; [exact Hf|]. rewrite Hf by lia. reflexivity.
    + unfold sb_false, ba_valid. assert (i + 1 <=? w = false) as -> by lia. cbn [negb].
      do 2 eexists. split; [reflexivity|]. split; [exact Hb|]. split; [exact Hf|]. reflexivity.
  - do 2 eexists. split; [reflexivity|]. split; [exact Ho|]. split; [|reflexivity]. intros j Hj. reflexivity.
  - do 2 eexists. split; [reflexivity|]. split; [|split; [|reflexivity]].
    + unfold in_type. pose proof (pow_pos (w - 1) ltac:(lia)). lia.
    + intros j Hj. apply Z.bits_0.
Qed.

Lemma sb_history_l : forall iw w ops b f, 1 <= w <= iw -> in_type true w b -> same_bits w b f -> Forall (sb_op_ok w) ops ->
  exists b' rs, sb_run iw w b ops = Some (b', rs) /\ in_type true w b' /\
    same_bits w b' (fst (sv_run iw w f ops)) /\ rs = snd (sv_run iw w f ops).
Proof.
  intros iw w ops. induction ops as [|o ops IH]; intros b f Hw Hb Hf Ho; cbn [sb_run sv_run].
  - do 2 eexists. split; [reflexivity|]. auto.
  - inversion_clear Ho as [|? ? Ho1 Ho2].
    destruct (sb_step_rel iw w b f o Hw Hb Hf Ho1) as [b1 [r [E [Hb1 [Hf1 Er]]]]].
    rewrite E. destruct (sv_step iw w f o) as [f1 r1]. cbn [fst snd] in *.
    destruct (IH b1 f1 Hw Hb1 Hf1 Ho2) as [b2 [rs [E2 [Hb2 [Hf2 Ers]]]]]. rewrite E2.
    destruct (sv_run iw w f1 ops) as [f2 rs2]. cbn [fst snd] in *. subst.
    do 2 eexists. split; [reflexivity|]. auto.
Qed.

(** Reverse. *)
Lemma sb_rev_loop_bits : forall w n rv b, 1 <= w -> Z.of_nat n <= w -> in_type true w rv ->
  in_type true w (sb_rev_loop w rv b n) /\
  forall j, 0 <= j < w -> Z.testbit (sb_rev_loop w rv b n) j =
    if j <? Z.of_nat n then Z.testbit b (Z.of_nat n - 1 - j) else Z.testbit rv (j - Z.of_nat n).
Proof.
  intros w n. induction n as [|n IH]; intros rv b Hw Hn Hrv; cbn [sb_rev_loop].
  - split; [exact Hrv|]. intros j Hj. assert (j <? Z.of_nat 0 = false) as -> by lia. f_equal. lia.
  - destruct (IH (sn w (Z.lor (2 * rv) (Z.land b 1))) (b / 2) Hw ltac:(lia) (sn_type _ _ Hw)) as [T B].
    split; [exact T|]. intros j Hj. rewrite B by lia. destruct (Z.ltb_spec j (Z.of_nat n)) as [L|L].
    + assert (j <? Z.of_nat (S n) = true) as -> by lia. change (b / 2) with (b / 2 ^ 1).
      rewrite Z.div_pow2_bits by lia. f_equal. lia.
    + rewrite testbit_sn, Z.lor_spec, Z.land_spec by lia. change 1 with (2 ^ 0) at 1.
      rewrite testbit_pow by lia. destruct (Z.eqb_spec (j - Z.of_nat n) 0) as [Z0|Z0].
      * assert (j <? Z.of_nat (S n) = true) as -> by lia. rewrite Z0, Z.testbit_even_0, andb_true_r.
        cbn [orb]. f_equal. lia.
      * assert (j <? Z.of_nat (S n) = false) as -> by lia. rewrite andb_false_r, orb_false_r.
        replace (j - Z.of_nat n) with (Z.succ (j - Z.of_nat (S n))) by lia.
        rewrite Z.testbit_even_succ by lia. reflexivity.
Qed.

Lemma sb_reverse_l : forall w b, 1 <= w -> in_type true w (sb_reverse w b) /\
  forall j, 0 <= j < w -> Z.testbit (sb_reverse w b) j = Z.testbit b (w - 1 - j).
Proof.
  intros w b Hw. unfold sb_reverse.
  assert (T0 : in_type true w 0) by (unfold in_type; pose proof (pow_pos (w - 1) ltac:(lia)); lia).
  destruct (sb_rev_loop_bits w (Z.to_nat w) 0 b Hw ltac:(lia) T0) as [T B].
  split; [exact T|]. intros j Hj. rewrite B by lia. assert (j <? Z.of_nat (Z.to_nat w) = true) as -> by lia.
  f_equal. lia.
Qed.

Lemma sb_reverse_twice_l : forall w b, 1 <= w -> in_type true w b -> sb_reverse w (sb_reverse w b) = b.
Proof.
  intros w b Hw Hb. destruct (sb_reverse_l w b Hw) as [_ B1]. destruct (sb_reverse_l w (sb_reverse w b) Hw) as [T B2].
  apply (in_type_ext true w); [exact Hw|exact T|exact Hb|]. intros j Hj. rewrite B2, B1 by lia. f_equal. lia.
Qed.

(** Shifts. *)
Lemma sb_shift_l : forall iw w b k, 1 <= w -> in_type true w b -> 0 <= k < Z.max w iw ->
  (exists r, sb_shift_up iw w b k = Some r /\ in_type true w r /\
     forall j, 0 <= j < w -> Z.testbit r j = (k <=? j) && Z.testbit b (j - k)) /\
  (exists r, sb_shift_down iw w b k = Some r /\ in_type true w r /\
     forall j, 0 <= j < w -> Z.testbit r j = Z.testbit b (Z.min (j + k) (w - 1))).
Proof.
  intros iw w b k Hw Hb Hk. unfold sb_shift_up, sb_shift_down. rewrite sb_shl_l, sb_shr_l by lia. split.
  - eexists. split; [reflexivity|]. split; [now apply sn_type|]. intros j Hj.
    rewrite testbit_sn, Z.mul_pow2_bits by lia. destruct (Z.leb_spec k j); cbn [andb]; [reflexivity|].
    apply Z.testbit_neg_r. lia.
  - eexists. split; [reflexivity|]. unfold in_type in *. pose proof (pow_pos k ltac:(lia)) as P.
    pose proof (pow_pos (w - 1) ltac:(lia)) as P1. split.
    + split; [|apply Z.div_lt_upper_bound; [lia|]; nia].
      apply Z.div_le_lower_bound; [lia|]. nia.
    + intros j Hj. rewrite Z.div_pow2_bits by lia. destruct (Z.ltb_spec (j + k) w).
      * f_equal. lia.
      * replace (Z.min (j + k) (w - 1)) with (w - 1) by lia. destruct (Z.ltb_spec b 0).
        -- rewrite !(testbit_high_neg b (w - 1)) by lia. reflexivity.
        -- rewrite !(testbit_high_pos b (w - 1)) by lia. reflexivity.
Qed.
