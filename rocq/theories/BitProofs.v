Require Import ZArith List Bool Lia ZifyBool.
Import ListNotations.
From Verif Require Import BitModel BitSpec.
Open Scope Z_scope.

Lemma pow_pos : forall n, 0 <= n -> 0 < 2 ^ n.
Proof. intros n H. apply Z.pow_pos_nonneg; lia. Qed.

Lemma pow_split : forall n, 1 <= n -> 2 ^ n = 2 * 2 ^ (n - 1).
Proof. intros n H. rewrite <- Z.pow_succ_r by lia. f_equal. lia. Qed.

Lemma pow_lt : forall a b, 0 <= a < b -> 2 ^ a < 2 ^ b.
Proof. intros a b H. apply Z.pow_lt_mono_r; lia. Qed.

Lemma pow_le : forall a b, 0 <= a <= b -> 2 ^ a <= 2 ^ b.
Proof. intros a b H. apply Z.pow_le_mono_r; lia. Qed.

Lemma un_small : forall n x, 0 <= x < 2 ^ n -> un n x = x.
Proof. intros n x H. unfold un. now apply Z.mod_small. Qed.

Lemma un_range : forall n x, 0 <= n -> 0 <= un n x < 2 ^ n.
Proof. intros n x H. unfold un. apply Z.mod_pos_bound. now apply pow_pos. Qed.

Lemma sn_range : forall n x, 1 <= n -> - 2 ^ (n - 1) <= sn n x < 2 ^ (n - 1).
Proof.
  intros n x H. unfold sn. cbv zeta. pose proof (pow_split n H). pose proof (pow_pos (n - 1)).
  pose proof (Z.mod_pos_bound x (2 ^ n)). destruct (Z.ltb_spec (x mod 2 ^ n) (2 ^ (n - 1))); lia.
Qed.

Lemma sn_small : forall n x, 1 <= n -> - 2 ^ (n - 1) <= x < 2 ^ (n - 1) -> sn n x = x.
Proof.
  intros n x Hn H. unfold sn. cbv zeta. pose proof (pow_split n Hn) as E. pose proof (pow_pos (n - 1)).
  destruct (Z.ltb_spec x 0) as [Hx|Hx].
  - assert (x mod 2 ^ n = x + 2 ^ n) as ->.
    { rewrite <- (Z.mod_small (x + 2 ^ n) (2 ^ n)) by lia.
      rewrite <- (Z.mul_1_l (2 ^ n)) at 2. rewrite Z.mod_add by lia. reflexivity. }
    destruct (Z.ltb_spec (x + 2 ^ n) (2 ^ (n - 1))); lia.
  - rewrite Z.mod_small by lia. destruct (Z.ltb_spec x (2 ^ (n - 1))); lia.
Qed.

Lemma sn_mod : forall n x, 0 <= n -> sn n x mod 2 ^ n = x mod 2 ^ n.
Proof.
  intros n x H. unfold sn. cbv zeta. pose proof (pow_pos n H).
  destruct (x mod 2 ^ n <? 2 ^ (n - 1)).
  - now rewrite Z.mod_mod by lia.
  - replace (x mod 2 ^ n - 2 ^ n) with (x mod 2 ^ n + (-1) * 2 ^ n) by lia.
    rewrite Z.mod_add by lia. now rewrite Z.mod_mod by lia.
Qed.

Lemma testbit_un : forall n x j, 0 <= n -> Z.testbit (un n x) j = (j <? n) && Z.testbit x j.
Proof. intros n x j H. unfold un. now apply Z.testbit_mod_pow2. Qed.

Lemma testbit_sn : forall n x j, j < n -> 0 <= n -> Z.testbit (sn n x) j = Z.testbit x j.
Proof.
  intros n x j Hj H. pose proof (sn_mod n x H) as E.
  assert (F : Z.testbit (sn n x mod 2 ^ n) j = Z.testbit (x mod 2 ^ n) j) by now rewrite E.
  rewrite !Z.testbit_mod_pow2 in F by lia. assert (j <? n = true) as G by lia. now rewrite G in F.
Qed.

Lemma testbit_cv : forall sg w x j, j < w -> 0 <= w -> Z.testbit (cv sg w x) j = Z.testbit x j.
Proof.
  intros sg w x j Hj Hw. unfold cv. destruct sg; [now apply testbit_sn|].
  rewrite testbit_un by lia. assert (j <? w = true) as -> by lia. reflexivity.
Qed.

Lemma cv_range : forall sg w x, 1 <= w -> in_type sg w (cv sg w x).
Proof.
  intros sg w x Hw. unfold in_type, cv. destruct sg; [now apply sn_range|]. apply un_range. lia.
Qed.

(** The mask value. *)
Lemma one_shl_value : forall iw i, 0 <= i < iw ->
  one_shl iw i = Some (if i =? iw - 1 then - 2 ^ i else 2 ^ i).
Proof.
  intros iw i H. unfold one_shl. assert ((0 <=? i) && (i <? iw) = true) as -> by lia. f_equal.
  pose proof (pow_pos i ltac:(lia)) as Hp.
  destruct (Z.eqb_spec i (iw - 1)) as [E|E].
  - unfold sn. cbv zeta. subst i. pose proof (pow_split iw ltac:(lia)) as F.
    rewrite Z.mod_small by lia. rewrite Z.ltb_irrefl. lia.
  - apply sn_small; [lia|]. pose proof (pow_lt i (iw - 1)). lia.
Qed.

Lemma one_shl_none : forall iw i, iw <= i -> one_shl iw i = None.
Proof. intros iw i H. unfold one_shl. now assert ((0 <=? i) && (i <? iw) = false) as -> by lia. Qed.

Lemma un_neg_top : forall w, 1 <= w -> un w (- 2 ^ (w - 1)) = 2 ^ (w - 1).
Proof.
  intros w Hw. unfold un. pose proof (pow_split w Hw) as E. pose proof (pow_pos (w - 1) ltac:(lia)).
  replace (- 2 ^ (w - 1)) with (2 ^ (w - 1) + (-1) * 2 ^ w) by lia.
  rewrite Z.mod_add by lia. apply Z.mod_small. lia.
Qed.

Lemma bit_mask_u : forall iw w i, mask_ok iw w i -> bit_mask iw false w i = Some (2 ^ i).
Proof.
  intros iw w i [H1 [H2 H3]]. unfold bit_mask. rewrite one_shl_value by lia. f_equal. unfold cv.
  pose proof (pow_pos i ltac:(lia)). pose proof (pow_lt i w ltac:(lia)).
  destruct (Z.eqb_spec i (iw - 1)) as [E|E].
  - assert (w = iw) as -> by lia. subst i. apply un_neg_top. lia.
  - apply un_small. lia.
Qed.

Lemma bit_mask_s : forall iw w i, mask_ok iw w i ->
  bit_mask iw true w i = Some (if i =? w - 1 then - 2 ^ i else 2 ^ i).
Proof.
  intros iw w i [H1 [H2 H3]]. unfold bit_mask. rewrite one_shl_value by lia. f_equal. unfold cv.
  pose proof (pow_pos i ltac:(lia)).
  destruct (Z.eqb_spec i (iw - 1)) as [E|E].
  - assert (w = iw) as -> by lia. assert (i =? iw - 1 = true) as -> by lia. subst i. apply sn_small; lia.
  - destruct (Z.eqb_spec i (w - 1)) as [F|F].
    + subst i. unfold sn. cbv zeta. pose proof (pow_split w ltac:(lia)). rewrite Z.mod_small by lia.
      rewrite Z.ltb_irrefl. lia.
    + apply sn_small; [lia|]. pose proof (pow_lt i (w - 1)). lia.
Qed.

Lemma testbit_pow : forall i j, 0 <= i -> Z.testbit (2 ^ i) j = (j =? i).
Proof. intros i j H. rewrite Z.pow2_bits_eqb by lia. apply Z.eqb_sym. Qed.

Lemma testbit_negpow : forall i j, 0 <= i -> 0 <= j -> Z.testbit (- 2 ^ i) j = (i <=? j).
Proof.
  intros i j Hi Hj. replace (- 2 ^ i) with (Z.lnot (2 ^ i - 1)) by (unfold Z.lnot; lia).
  rewrite Z.lnot_spec by lia.
  replace (2 ^ i - 1) with (Z.ones i) by (rewrite Z.ones_equiv; lia).
  rewrite Z.testbit_ones by lia. lia.
Qed.

Lemma mask_bits : forall iw sg w i, mask_ok iw w i ->
  exists m, bit_mask iw sg w i = Some m /\ forall j, 0 <= j < w -> Z.testbit m j = (j =? i).
Proof.
  intros iw sg w i H. pose proof H as [H1 [H2 H3]]. destruct sg.
  - eexists. split; [now apply bit_mask_s|]. intros j Hj.
    destruct (Z.eqb_spec i (w - 1)); [rewrite testbit_negpow by lia; lia|now rewrite testbit_pow by lia].
  - eexists. split; [now apply bit_mask_u|]. intros j Hj. now rewrite testbit_pow by lia.
Qed.

Lemma bit_writes_l : forall iw sg w t i, mask_ok iw w i ->
  (exists r, bit_set iw sg w t i = Some r /\ in_type sg w r /\
     forall j, 0 <= j < w -> Z.testbit r j = if j =? i then true else Z.testbit t j) /\
  (exists r, bit_reset iw sg w t i = Some r /\ in_type sg w r /\
     forall j, 0 <= j < w -> Z.testbit r j = if j =? i then false else Z.testbit t j) /\
  (forall v, exists r, bit_put iw sg w t i v = Some r /\ in_type sg w r /\
     forall j, 0 <= j < w -> Z.testbit r j = if j =? i then v else Z.testbit t j) /\
  (exists r, bit_toggle iw sg w t i = Some r /\ in_type sg w r /\
     forall j, 0 <= j < w -> Z.testbit r j = if j =? i then negb (Z.testbit t j) else Z.testbit t j).
Proof.
  intros iw sg w t i H. pose proof H as [H1 _].
  destruct (mask_bits iw sg w i H) as [m [E Hm]].
  unfold bit_set, bit_reset, bit_put, bit_toggle. rewrite E. repeat split.
  - eexists. split; [reflexivity|]. split; [apply cv_range; lia|]. intros j Hj.
    rewrite testbit_cv, Z.lor_spec, Hm by lia. destruct (j =? i); [apply orb_true_r|apply orb_false_r].
  - eexists. split; [reflexivity|]. split; [apply cv_range; lia|]. intros j Hj.
    rewrite testbit_cv, Z.land_spec, Z.lnot_spec, Hm by lia.
    destruct (j =? i); [apply andb_false_r|apply andb_true_r].
  - intros v. eexists. split; [reflexivity|]. split; [destruct v; apply cv_range; lia|]. intros j Hj.
    destruct v; [rewrite testbit_cv, Z.lor_spec, Hm by lia|];
      rewrite testbit_cv, Z.land_spec, Z.lnot_spec, Hm by lia; destruct (j =? i), (Z.testbit t j); reflexivity.
  - eexists. split; [reflexivity|]. split; [apply cv_range; lia|]. intros j Hj.
    rewrite testbit_cv, Z.lxor_spec, Hm by lia. destruct (j =? i), (Z.testbit t j); reflexivity.
Qed.

Lemma land_pow : forall t i, 0 <= i -> Z.land t (2 ^ i) = if Z.testbit t i then 2 ^ i else 0.
Proof.
  intros t i Hi. apply Z.bits_inj'. intros j Hj. rewrite Z.land_spec, testbit_pow by lia.
  destruct (Z.testbit t i) eqn:E.
  - rewrite testbit_pow by lia. destruct (Z.eqb_spec j i); [subst; now rewrite E|apply andb_false_r].
  - rewrite Z.bits_0. destruct (Z.eqb_spec j i); [subst; now rewrite E|apply andb_false_r].
Qed.

Lemma testbit_high_pos : forall t i j, 0 <= i -> 0 <= t < 2 ^ i -> i <= j -> Z.testbit t j = false.
Proof.
  intros t i j Hi Ht Hj. rewrite <- (Z.mod_small t (2 ^ i)) by lia.
  rewrite Z.testbit_mod_pow2 by lia. now assert (j <? i = false) as -> by lia.
Qed.

Lemma testbit_high_neg : forall t i j, 0 <= i -> - 2 ^ i <= t < 0 -> i <= j -> Z.testbit t j = true.
Proof.
  intros t i j Hi Ht Hj. replace t with (Z.lnot (- t - 1)) by (unfold Z.lnot; lia).
  rewrite Z.lnot_spec by lia. rewrite (testbit_high_pos _ i) by lia. reflexivity.
Qed.

Lemma land_negpow : forall t i, 0 <= i -> - 2 ^ i <= t < 2 ^ i ->
  Z.land t (- 2 ^ i) = if t <? 0 then - 2 ^ i else 0.
Proof.
  intros t i Hi Ht. apply Z.bits_inj'. intros j Hj. rewrite Z.land_spec, testbit_negpow by lia.
  destruct (Z.ltb_spec t 0).
  - rewrite testbit_negpow by lia. destruct (Z.leb_spec i j); [|apply andb_false_r].
    rewrite (testbit_high_neg t i) by lia. reflexivity.
  - rewrite Z.bits_0. destruct (Z.leb_spec i j); [|apply andb_false_r].
    rewrite (testbit_high_pos t i) by lia. reflexivity.
Qed.

Lemma bit_reads_l : forall iw sg w t i, mask_ok iw w i -> in_type sg w t ->
  bit_false iw sg w t i = Some (negb (Z.testbit t i)) /\
  bit_true iw sg w t i = Some (Z.testbit t i && negb (sg && (i =? w - 1))).
Proof.
  intros iw sg w t i H Ht. pose proof H as [H1 _]. unfold bit_false, bit_true, in_type in *.
  pose proof (pow_pos i ltac:(lia)) as Hp. destruct sg; cbn [andb].
  - rewrite bit_mask_s by exact H. destruct (Z.eqb_spec i (w - 1)) as [E|E].
    + subst i. rewrite land_negpow by lia. destruct (Z.ltb_spec t 0).
      * rewrite (testbit_high_neg t (w - 1)) by lia. split; f_equal; cbn [andb negb]; lia.
      * rewrite (testbit_high_pos t (w - 1)) by lia. split; reflexivity.
    + rewrite land_pow by lia. destruct (Z.testbit t i); split; f_equal; cbn [andb negb]; lia.
  - rewrite bit_mask_u by exact H. rewrite land_pow by lia.
    destruct (Z.testbit t i); split; f_equal; cbn [andb negb]; lia.
Qed.

Lemma in_type_ext : forall sg w a b, 1 <= w -> in_type sg w a -> in_type sg w b ->
  (forall j, 0 <= j < w -> Z.testbit a j = Z.testbit b j) -> a = b.
Proof.
  intros sg w a b Hw Ha Hb H. unfold in_type in *. apply Z.bits_inj'. intros j Hj.
  destruct (Z.ltb_spec j w) as [L|L]; [apply H; lia|]. destruct sg.
  - pose proof (H (w - 1) ltac:(lia)) as S.
    destruct (Z.ltb_spec a 0), (Z.ltb_spec b 0);
      rewrite ?(testbit_high_neg a (w - 1)), ?(testbit_high_neg b (w - 1)),
              ?(testbit_high_pos a (w - 1)), ?(testbit_high_pos b (w - 1)) in * by lia; congruence.
  - now rewrite !(testbit_high_pos _ w) by lia.
Qed.

Lemma bit_toggle_twice_l : forall iw sg w t i, mask_ok iw w i -> in_type sg w t ->
  exists r, bit_toggle iw sg w t i = Some r /\ bit_toggle iw sg w r i = Some t.
Proof.
  intros iw sg w t i H Ht. pose proof H as [H1 _].
  destruct (bit_writes_l iw sg w t i H) as [_ [_ [_ [r [E [Hr Br]]]]]].
  destruct (bit_writes_l iw sg w r i H) as [_ [_ [_ [q [E2 [Hq Bq]]]]]].
  exists r. split; [exact E|]. rewrite E2. f_equal. apply (in_type_ext sg w); auto; [lia|].
  intros j Hj. rewrite Bq, Br by lia. destruct (j =? i); [apply negb_involutive|reflexivity].
Qed.

(** BitFlag. *)
Lemma flag_same : forall iw sg w t i v, mask_ok iw w i ->
  flag_set iw sg w t i = bit_set iw sg w t i /\ flag_reset iw sg w t i = bit_reset iw sg w t i /\
  flag_put iw sg w t i v = bit_put iw sg w t i v /\ flag_toggle iw sg w t i = bit_toggle iw sg w t i /\
  flag_true iw sg w t i = bit_true iw sg w t i /\ flag_false iw sg w t i = bit_false iw sg w t i.
Proof.
  intros iw sg w t i v [H _]. unfold flag_set, flag_reset, flag_put, flag_toggle, flag_true, flag_false.
  assert (i >? w = false) as -> by lia. repeat split; reflexivity.
Qed.

Lemma cv_id : forall sg w t, 1 <= w -> in_type sg w t -> cv sg w t = t.
Proof. intros sg w t Hw H. unfold cv, in_type in *. destruct sg; [now apply sn_small|now apply un_small]. Qed.

Lemma flag_beyond_l : forall iw sg w t i v, w < i ->
  flag_set iw sg w t i = Some t /\ flag_reset iw sg w t i = Some t /\
  flag_put iw sg w t i v = Some t /\ flag_toggle iw sg w t i = Some t /\
  flag_true iw sg w t i = Some false /\ flag_false iw sg w t i = Some false.
Proof.
  intros iw sg w t i v H. unfold flag_set, flag_reset, flag_put, flag_toggle, flag_true, flag_false.
  assert (i >? w = true) as -> by lia. repeat split; reflexivity.
Qed.

Lemma flag_edge_l : forall iw sg w t v, 1 <= w -> in_type sg w t ->
  (w < iw ->
    flag_set iw sg w t w = Some t /\ flag_reset iw sg w t w = Some t /\
    flag_put iw sg w t w v = Some t /\ flag_toggle iw sg w t w = Some t /\
    flag_true iw sg w t w = Some false /\ flag_false iw sg w t w = Some true) /\
  (iw <= w ->
    flag_set iw sg w t w = None /\ flag_reset iw sg w t w = None /\
    flag_put iw sg w t w v = None /\ flag_toggle iw sg w t w = None /\
    flag_true iw sg w t w = None /\ flag_false iw sg w t w = None).
Proof.
  intros iw sg w t v Hw Ht. unfold flag_set, flag_reset, flag_put, flag_toggle, flag_true, flag_false,
    bit_set, bit_reset, bit_put, bit_toggle, bit_true, bit_false.
  assert (w >? w = false) as -> by lia. split; intros H.
  - assert (E : bit_mask iw sg w w = Some 0).
    { unfold bit_mask. rewrite one_shl_value by lia. f_equal. pose proof (pow_pos w ltac:(lia)).
      assert (M : (if w =? iw - 1 then - 2 ^ w else 2 ^ w) mod 2 ^ w = 0).
      { destruct (w =? iw - 1); [|apply Z.mod_same; lia].
        rewrite Z.mod_opp_l_z; [reflexivity|lia|apply Z.mod_same; lia]. }
      unfold cv, sn, un. cbv zeta. rewrite M. pose proof (pow_pos (w - 1) ltac:(lia)).
      destruct sg; [|reflexivity]. now assert (0 <? 2 ^ (w - 1) = true) as -> by lia. }
    rewrite E. rewrite Z.lor_0_r, Z.lxor_0_r, Z.land_0_r.
    change (Z.lnot 0) with (-1). rewrite Z.land_m1_r. cbv zeta. rewrite Z.lor_0_r.
    rewrite !(cv_id sg w t) by assumption. destruct v; repeat split; reflexivity.
  - unfold bit_mask. rewrite one_shl_none by lia. repeat split; reflexivity.
Qed.

(** The uint32_t defect on a 16-bit int. *)
Lemma bit32_l : forall t, 0 <= t < 2 ^ 32 ->
  exists r, bit_set 16 false 32 t 15 = Some r /\
    (forall j, 15 <= j < 32 -> Z.testbit r j = true) /\
    (forall i, 16 <= i -> bit_set 16 false 32 t i = None).
Proof.
  intros t Ht. unfold bit_set, bit_mask. assert (one_shl 16 15 = Some (- 2 ^ 15)) as -> by reflexivity.
  eexists. split; [reflexivity|]. split.
  - intros j Hj. rewrite testbit_cv, Z.lor_spec, testbit_cv by lia.
    rewrite testbit_negpow by lia. assert (15 <=? j = true) as -> by lia. apply orb_true_r.
  - intros i Hi. now rewrite one_shl_none by lia.
Qed.

(** ** BitArray *)
Lemma t_shl_ok : forall iw w x k, 1 <= iw -> 0 <= w -> 0 <= x -> 0 <= k -> k < Z.max w iw ->
  x * 2 ^ k < 2 ^ w -> t_shl iw w x k = Some (x * 2 ^ k).
Proof.
  intros iw w x k Hi Hw Hx Hk Hm H. unfold t_shl. pose proof (pow_pos k Hk).
  assert (0 <= x * 2 ^ k) by (apply Z.mul_nonneg_nonneg; lia).
  destruct (Z.ltb_spec w iw).
  - pose proof (pow_lt w iw ltac:(lia)).
    assert ((0 <=? k) && (k <? iw) && (x * 2 ^ k <? 2 ^ iw) = true) as -> by lia.
    now rewrite un_small by lia.
  - assert ((0 <=? k) && (k <? w) = true) as -> by lia. now rewrite un_small by lia.
Qed.

Lemma ones_succ : forall a, 0 <= a -> Z.lor (Z.ones a * 2 ^ 1) 1 = Z.ones (a + 1).
Proof.
  intros a Ha. rewrite <- Z.shiftl_mul_pow2 by lia. apply Z.bits_inj'. intros j Hj.
  rewrite Z.lor_spec, Z.shiftl_spec by lia. change 1 with (2 ^ 0) at 2. rewrite testbit_pow by lia.
  rewrite Z.testbit_ones by lia. rewrite Z.testbit_ones by lia. lia.
Qed.

Lemma ba_mask_loop_ones : forall iw w n a, 1 <= iw -> 2 <= Z.max w iw -> 0 <= a -> a + Z.of_nat n <= w ->
  ba_mask_loop iw w (Z.ones a) n = Some (Z.ones (a + Z.of_nat n)).
Proof.
  intros iw w n. induction n as [|n IH]; intros a Hi Hm Ha H; cbn [ba_mask_loop].
  - do 2 f_equal. lia.
  - pose proof (pow_pos a Ha). pose proof (pow_le (a + 1) w ltac:(lia)) as L.
    rewrite Z.pow_add_r in L by lia. assert (E : Z.ones a = 2 ^ a - 1) by (rewrite Z.ones_equiv; lia).
    rewrite t_shl_ok; try lia. rewrite ones_succ by lia. rewrite IH by lia. do 2 f_equal. lia.
Qed.

Lemma ba_mask_ones : forall iw w c, 1 <= iw -> 2 <= Z.max w iw -> 0 <= c <= w ->
  ba_mask iw w c = Some (Z.ones c).
Proof.
  intros iw w c Hi Hm Hc. unfold ba_mask. change 0 with (Z.ones 0).
  rewrite ba_mask_loop_ones by lia. do 2 f_equal. lia.
Qed.

Lemma ones_shift_lt : forall w i c, 0 <= i -> 0 <= c -> i + c <= w -> Z.ones c * 2 ^ i < 2 ^ w.
Proof.
  intros w i c Hi Hc H. pose proof (pow_le (c + i) w ltac:(lia)) as L. rewrite Z.pow_add_r in L by lia.
  pose proof (pow_pos i Hi). pose proof (pow_pos c Hc). rewrite Z.ones_equiv. nia.
Qed.

Lemma ba_get_l : forall iw w b i c, 1 <= iw -> 2 <= Z.max w iw -> 0 <= b < 2 ^ w ->
  0 <= i -> 0 <= c -> i + c <= w -> i < Z.max w iw ->
  ba_get_field iw w b i c = Some ((b / 2 ^ i) mod 2 ^ c).
Proof.
  intros iw w b i c Hiw Hm Hb Hi Hc H Hx. unfold ba_get_field, ba_valid.
  assert (i + c <=? w = true) as -> by lia. cbn [negb]. rewrite ba_mask_ones by lia.
  pose proof (ones_shift_lt w i c Hi Hc H) as L.
  assert (0 <= Z.ones c) by (rewrite Z.ones_equiv; pose proof (pow_pos c Hc); lia).
  rewrite t_shl_ok by lia. unfold t_shr. assert ((0 <=? i) && (i <? Z.max w iw) = true) as -> by lia.
  f_equal. rewrite <- Z.shiftr_div_pow2, <- Z.shiftl_mul_pow2 by lia. rewrite Z.shiftr_land.
  rewrite Z.shiftr_shiftl_l by lia. rewrite Z.sub_diag, Z.shiftl_0_r.
  rewrite Z.land_ones by lia. now rewrite Z.shiftr_div_pow2 by lia.
Qed.

Lemma ba_set_l : forall iw w b i v c, 1 <= iw -> 2 <= Z.max w iw -> 0 <= b < 2 ^ w ->
  0 <= v < 2 ^ w ->
  0 <= i -> 0 <= c -> i + c <= w -> i < Z.max w iw ->
  exists b', ba_set_field iw w b i v c = Some (b', true) /\ 0 <= b' < 2 ^ w /\
    forall j, 0 <= j -> Z.testbit b' j =
      if (i <=? j) && (j <? i + c) then Z.testbit v (j - i) else Z.testbit b j.
Proof.
  intros iw w b i v c Hiw Hm Hb Hv Hi Hc H Hx. unfold ba_set_field, ba_valid.
  assert (i + c <=? w = true) as -> by lia. cbn [negb]. rewrite ba_mask_ones by lia.
  pose proof (ones_shift_lt w i c Hi Hc H) as L. pose proof (pow_pos c Hc). pose proof (pow_pos i Hi).
  assert (0 <= Z.ones c) by (rewrite Z.ones_equiv; lia).
  assert (M : 0 <= Z.land v (Z.ones c) <= Z.ones c).
  { rewrite Z.land_ones by lia. pose proof (Z.mod_pos_bound v (2 ^ c)). rewrite Z.ones_equiv. lia. }
  assert (Z.land v (Z.ones c) * 2 ^ i < 2 ^ w).
  { apply Z.le_lt_trans with (2 := L). apply Z.mul_le_mono_nonneg_r; lia. }
  rewrite !t_shl_ok by lia. eexists. split; [reflexivity|]. split; [apply un_range; lia|].
  intros j Hj. rewrite testbit_un, Z.lor_spec, testbit_un, Z.land_spec, Z.lnot_spec by lia.
  rewrite <- !Z.shiftl_mul_pow2 by lia. rewrite !Z.shiftl_spec, Z.land_spec by lia.
  destruct (Z.ltb_spec j i) as [Hji|Hji].
  - assert ((i <=? j) && (j <? i + c) = false) as -> by lia. assert (j <? w = true) as -> by lia.
    rewrite !(Z.testbit_neg_r _ (j - i)) by lia. cbn [andb negb]. rewrite orb_false_r. apply andb_true_r.
  - rewrite Z.testbit_ones by lia.
    destruct (Z.ltb_spec j (i + c)) as [Hc2|Hc2].
    + assert ((i <=? j) && true = true) as -> by lia. assert (j <? w = true) as -> by lia.
      assert ((0 <=? j - i) && (j - i <? c) = true) as -> by lia.
      cbn [andb negb]. rewrite andb_false_r, andb_true_r. reflexivity.
    + rewrite (andb_false_r (i <=? j)). assert ((0 <=? j - i) && (j - i <? c) = false) as -> by lia.
      cbn [negb]. rewrite andb_true_r, andb_false_r, orb_false_r.
      destruct (Z.ltb_spec j w); [reflexivity|]. cbn [andb]. symmetry. apply (testbit_high_pos b w); lia.
Qed.

Lemma ba_set_get_l : forall iw w b i v c, 1 <= iw -> 2 <= Z.max w iw -> 0 <= b < 2 ^ w ->
  0 <= v < 2 ^ w ->
  0 <= i -> 0 <= c -> i + c <= w -> i < Z.max w iw ->
  exists b', ba_set_field iw w b i v c = Some (b', true) /\ 0 <= b' < 2 ^ w /\
    ba_get_field iw w b' i c = Some (v mod 2 ^ c) /\
    (forall j, 0 <= j -> ~ (i <= j < i + c) -> Z.testbit b' j = Z.testbit b j) /\
    (forall i2 c2, 0 <= i2 -> 0 <= c2 -> i2 + c2 <= w -> i2 < Z.max w iw ->
       i2 + c2 <= i \/ i + c <= i2 -> ba_get_field iw w b' i2 c2 = ba_get_field iw w b i2 c2).
Proof.
  intros iw w b i v c Hiw Hm Hb Hv Hi Hc H Hx.
  destruct (ba_set_l iw w b i v c Hiw Hm Hb Hv Hi Hc H Hx) as [b' [E [Hb' T]]].
  exists b'. split; [exact E|]. split; [exact Hb'|]. split; [|split].
  - rewrite ba_get_l by lia. f_equal. apply Z.bits_inj'. intros j Hj.
    rewrite !Z.testbit_mod_pow2 by lia. destruct (Z.ltb_spec j c); [|reflexivity].
    cbn [andb]. rewrite <- Z.shiftr_div_pow2, Z.shiftr_spec by lia. rewrite T by lia.
    assert ((i <=? j + i) && (j + i <? i + c) = true) as -> by lia. f_equal. lia.
  - intros j Hj N. rewrite T by lia. now assert ((i <=? j) && (j <? i + c) = false) as -> by lia.
  - intros i2 c2 H1 H2 H3 H4 D. rewrite !ba_get_l by lia. f_equal. apply Z.bits_inj'. intros j Hj.
    rewrite !Z.testbit_mod_pow2 by lia. destruct (Z.ltb_spec j c2); [|reflexivity].
    cbn [andb]. rewrite <- !Z.shiftr_div_pow2, !Z.shiftr_spec by lia. rewrite T by lia.
    now assert ((i <=? j + i2) && (j + i2 <? i + c) = false) as -> by lia.
Qed.

Lemma ba_invalid_l : forall iw w b i v c, w < i + c ->
  ba_set_field iw w b i v c = Some (b, false) /\ ba_get_field iw w b i c = Some 0.
Proof.
  intros iw w b i v c H. unfold ba_set_field, ba_get_field, ba_valid.
  assert (i + c <=? w = false) as -> by lia. split; reflexivity.
Qed.

(** Single bits. *)
Definition rel (w b : Z) (f : bits) : Prop := 0 <= b < 2 ^ w /\ same_bits w b f.

Lemma one_bits : forall iw w i, mask_ok iw w i -> exists s, one_shl iw i = Some s /\
  (forall j, 0 <= j < w -> Z.testbit s j = (j =? i)).
Proof.
  intros iw w i H. pose proof H as [H1 [H2 H3]]. rewrite one_shl_value by lia. eexists. split; [reflexivity|].
  intros j Hj. destruct (Z.eqb_spec i (iw - 1)).
  - rewrite testbit_negpow by lia. lia.
  - now rewrite testbit_pow by lia.
Qed.

Lemma land_one : forall w b i s, 0 <= i < w -> 0 <= b < 2 ^ w ->
  (forall j, 0 <= j < w -> Z.testbit s j = (j =? i)) ->
  Z.land b s = if Z.testbit b i then 2 ^ i else 0.
Proof.
  intros w b i s Hi Hb Hs. rewrite <- land_pow by lia. apply Z.bits_inj'. intros j Hj.
  rewrite !Z.land_spec, testbit_pow by lia. destruct (Z.ltb_spec j w).
  - now rewrite Hs by lia.
  - now rewrite (testbit_high_pos b w) by lia.
Qed.

Lemma ba_step_rel : forall iw w b f o, 1 <= w <= iw -> rel w b f -> ba_op_ok w o ->
  exists b' r, ba_step iw w b o = Some (b', r) /\ rel w b' (fst (bv_step w f o)) /\ r = snd (bv_step w f o).
Proof.
  intros iw w b f o Hw [Hb Hf] Ho.
  assert (K : forall i, 0 <= i -> i < w -> mask_ok iw w i) by (intros; unfold mask_ok; lia).
  destruct o as [i v|i|i|i|i|x|]; cbn [ba_step bv_step ba_op_ok] in *;
    try unfold ba_put; try unfold ba_set; try unfold ba_reset; try unfold ba_true; try unfold ba_false;
    try (unfold ba_valid; destruct (Z.ltb_spec i w) as [Hi|Hi];
      [assert (i + 1 <=? w = true) as -> by lia; cbn [negb fst snd];
       destruct (one_bits iw w i (K i ltac:(lia) Hi)) as [s [E Hs]]; rewrite E
      |assert (i + 1 <=? w = false) as -> by lia; cbn [negb andb fst snd];
       do 2 eexists; split; [reflexivity|]; split; [split; assumption|reflexivity]]).
  - do 2 eexists. split; [reflexivity|]. split; [|reflexivity]. split; [destruct v; apply un_range; lia|].
    intros j Hj. unfold put. rewrite <- Hf by lia. assert (J : j <? w = true) by lia.
    destruct v; rewrite testbit_un, ?Z.lor_spec, ?testbit_un, ?Z.land_spec, ?Z.lnot_spec, ?testbit_un by lia;
      rewrite J, Hs by lia; destruct (j =? i), (Z.testbit b j); reflexivity.
  - do 2 eexists. split; [reflexivity|]. split; [|reflexivity]. split; [apply un_range; lia|].
    intros j Hj. unfold put. rewrite <- Hf by lia. assert (J : j <? w = true) by lia.
    rewrite testbit_un, Z.lor_spec, J, Hs by lia. destruct (j =? i), (Z.testbit b j); reflexivity.
  - do 2 eexists. split; [reflexivity|]. split; [|reflexivity]. split; [apply un_range; lia|].
    intros j Hj. unfold put. rewrite <- Hf by lia. assert (J : j <? w = true) by lia.
    rewrite testbit_un, Z.land_spec, Z.lnot_spec, J, Hs by lia. destruct (j =? i), (Z.testbit b j); reflexivity.
  - do 2 eexists. split; [reflexivity|]. split; [split; assumption|].
    rewrite (land_one w b i s) by (auto; lia). rewrite <- Hf by lia. pose proof (pow_pos i ltac:(lia)).
    destruct (Z.testbit b i); cbn [andb]; lia.
  - do 2 eexists. split; [reflexivity|]. split; [split; assumption|].
    rewrite (land_one w b i s) by (auto; lia). rewrite <- Hf by lia. pose proof (pow_pos i ltac:(lia)).
    destruct (Z.testbit b i); cbn [andb negb]; lia.
  - do 2 eexists. split; [reflexivity|]. split; [|reflexivity]. split; [exact Ho|]. intros j Hj. reflexivity.
  - do 2 eexists. split; [reflexivity|]. split; [|reflexivity]. split; [pose proof (pow_pos w); lia|].
    intros j Hj. apply Z.bits_0.
Qed.

Lemma ba_history_l : forall iw w ops b f, 1 <= w <= iw -> 0 <= b < 2 ^ w -> same_bits w b f ->
  Forall (ba_op_ok w) ops ->
  exists b' rs, ba_run iw w b ops = Some (b', rs) /\ 0 <= b' < 2 ^ w /\
    same_bits w b' (fst (bv_run w f ops)) /\ rs = snd (bv_run w f ops).
Proof.
  intros iw w ops. induction ops as [|o ops IH]; intros b f Hw Hb Hf Ho; cbn [ba_run bv_run].
  - do 2 eexists. split; [reflexivity|]. auto.
  - inversion_clear Ho as [|? ? Ho1 Ho2].
    destruct (ba_step_rel iw w b f o Hw (conj Hb Hf) Ho1) as [b1 [r [E [[Hb1 Hf1] Er]]]].
    rewrite E. destruct (bv_step w f o) as [f1 r1]. cbn [fst snd] in *.
    destruct (IH b1 f1 Hw Hb1 Hf1 Ho2) as [b2 [rs [E2 [Hb2 [Hf2 Ers]]]]]. rewrite E2.
    destruct (bv_run w f1 ops) as [f2 rs2]. cbn [fst snd] in *. subst.
    do 2 eexists. split; [reflexivity|]. auto.
Qed.

(** Reverse. *)
Lemma rev_loop_bits : forall w n rv b, 0 <= w -> Z.of_nat n <= w -> 0 <= rv < 2 ^ (w - Z.of_nat n) ->
  0 <= ba_rev_loop w rv b n < 2 ^ w /\
  forall j, 0 <= j < w -> Z.testbit (ba_rev_loop w rv b n) j =
    if j <? Z.of_nat n then Z.testbit b (Z.of_nat n - 1 - j) else Z.testbit rv (j - Z.of_nat n).
Proof.
  intros w n. induction n as [|n IH]; intros rv b Hw Hn Hrv.
  - cbn [ba_rev_loop]. replace (w - Z.of_nat 0) with w in Hrv by lia. split; [exact Hrv|].
    intros j Hj. assert (j <? Z.of_nat 0 = false) as -> by lia. f_equal. lia.
  - cbn [ba_rev_loop]. pose proof (pow_pos (w - Z.of_nat (S n)) ltac:(lia)).
    assert (P : 2 ^ (w - Z.of_nat n) = 2 * 2 ^ (w - Z.of_nat (S n))).
    { rewrite <- Z.pow_succ_r by lia. f_equal. lia. }
    assert (B : 0 <= Z.land b 1 <= 1).
    { change 1 with (Z.ones 1) at 1 2. rewrite Z.land_ones by lia. pose proof (Z.mod_pos_bound b (2 ^ 1)).
      change (2 ^ 1) with 2 in *. lia. }
    set (x := Z.lor (2 * rv) (Z.land b 1)).
    assert (TX : forall j, 0 <= j -> Z.testbit x j = if j =? 0 then Z.testbit b 0 else Z.testbit rv (j - 1)).
    { intros j Hj. unfold x. rewrite Z.lor_spec, Z.land_spec. change 1 with (2 ^ 0) at 1.
      rewrite testbit_pow by lia. destruct (Z.eqb_spec j 0) as [->|Hj0].
      - rewrite Z.testbit_even_0. now rewrite andb_true_r.
      - rewrite andb_false_r, orb_false_r. replace j with (Z.succ (j - 1)) at 1 by lia.
        rewrite Z.testbit_even_succ by lia. reflexivity. }
    assert (X : 0 <= x < 2 ^ (w - Z.of_nat n)).
    { assert (0 <= x) by (unfold x; apply Z.lor_nonneg; lia). split; [assumption|].
      assert (E : x = x mod 2 ^ (w - Z.of_nat n)).
      { apply Z.bits_inj'. intros j Hj. rewrite Z.testbit_mod_pow2 by lia.
        destruct (Z.ltb_spec j (w - Z.of_nat n)); [reflexivity|]. cbn [andb]. rewrite TX by lia.
        assert (j =? 0 = false) as -> by lia.
        apply (testbit_high_pos rv (w - Z.of_nat (S n))); lia. }
      rewrite E. apply Z.mod_pos_bound. apply pow_pos. lia. }
    assert (un w x = x) as ->.
    { apply un_small. pose proof (pow_le (w - Z.of_nat n) w ltac:(lia)). lia. }
    destruct (IH x (b / 2) Hw ltac:(lia) X) as [R1 R2]. split; [exact R1|].
    intros j Hj. rewrite R2 by lia.
    destruct (Z.ltb_spec j (Z.of_nat n)) as [L|L].
    + assert (j <? Z.of_nat (S n) = true) as -> by lia. rewrite <- Z.div2_div.
      rewrite Z.div2_spec, Z.shiftr_spec by lia. f_equal. lia.
    + rewrite TX by lia. destruct (Z.eqb_spec (j - Z.of_nat n) 0).
      * assert (j <? Z.of_nat (S n) = true) as -> by lia. f_equal. lia.
      * assert (j <? Z.of_nat (S n) = false) as -> by lia. f_equal. lia.
Qed.

Lemma ba_reverse_l : forall w b, 0 <= w ->
  0 <= ba_reverse w b < 2 ^ w /\
  forall j, 0 <= j < w -> Z.testbit (ba_reverse w b) j = Z.testbit b (w - 1 - j).
Proof.
  intros w b Hw. unfold ba_reverse.
  destruct (rev_loop_bits w (Z.to_nat w) 0 b Hw ltac:(lia)) as [H1 H2].
  { replace (w - Z.of_nat (Z.to_nat w)) with 0 by lia. cbn. lia. }
  split; [exact H1|]. intros j Hj. rewrite H2 by lia.
  assert (j <? Z.of_nat (Z.to_nat w) = true) as -> by lia. f_equal. lia.
Qed.

Lemma ba_reverse_twice_l : forall w b, 1 <= w -> 0 <= b < 2 ^ w -> ba_reverse w (ba_reverse w b) = b.
Proof.
  intros w b Hw Hb. destruct (ba_reverse_l w b ltac:(lia)) as [H1 H2].
  destruct (ba_reverse_l w (ba_reverse w b) ltac:(lia)) as [H3 H4].
  apply (in_type_ext false w); auto. intros j Hj. rewrite H4, H2 by lia. f_equal. lia.
Qed.

(** The specialised versions: each stage exchanges bits at distance [s]. *)
Definition swap_stage (w hi lo s b : Z) : Z :=
  un w (Z.lor (Z.shiftr (Z.land b hi) s) (Z.shiftl (Z.land b lo) s)).

Lemma swap_stage_bits : forall w hi lo s b j, 0 <= s -> 0 <= j < w ->
  Z.testbit (swap_stage w hi lo s b) j =
    (Z.testbit b (j + s) && Z.testbit hi (j + s)) || (Z.testbit b (j - s) && Z.testbit lo (j - s)).
Proof.
  intros w hi lo s b j Hs Hj. unfold swap_stage. rewrite testbit_un, Z.lor_spec by lia.
  rewrite Z.shiftr_spec, Z.shiftl_spec, !Z.land_spec by lia.
  assert (j <? w = true) as -> by lia. reflexivity.
Qed.

(** Splits [j] into its possible values. *)
Ltac each j n :=
  match n with
  | O => lia
  | S ?k => destruct (Z.eq_dec j (Z.of_nat k)) as [?Hj|?Hj]; [subst j|each j k]
  end.
Ltac fold_bits :=
  repeat match goal with
  | |- context [Z.testbit ?c ?k] =>
      match c with Zpos _ => let v := eval vm_compute in (Z.testbit c k) in change (Z.testbit c k) with v end
  end.
Ltac stage := intros b j Hj; rewrite swap_stage_bits by lia;
  match type of Hj with _ <= _ < 8 => each j 8%nat | _ => each j 16%nat end;
  fold_bits; rewrite ?andb_true_r, ?andb_false_r, ?orb_false_r, ?orb_false_l; reflexivity.

Lemma st8_4 : forall b j, 0 <= j < 8 -> Z.testbit (swap_stage 8 240 15 4 b) j = Z.testbit b (Z.lxor j 4).
Proof. stage. Qed.
Lemma st8_2 : forall b j, 0 <= j < 8 -> Z.testbit (swap_stage 8 204 51 2 b) j = Z.testbit b (Z.lxor j 2).
Proof. stage. Qed.
Lemma st8_1 : forall b j, 0 <= j < 8 -> Z.testbit (swap_stage 8 170 85 1 b) j = Z.testbit b (Z.lxor j 1).
Proof. stage. Qed.
Lemma st16_8 : forall b j, 0 <= j < 16 -> Z.testbit (swap_stage 16 65280 255 8 b) j = Z.testbit b (Z.lxor j 8).
Proof. stage. Qed.
Lemma st16_4 : forall b j, 0 <= j < 16 -> Z.testbit (swap_stage 16 61680 3855 4 b) j = Z.testbit b (Z.lxor j 4).
Proof. stage. Qed.
Lemma st16_2 : forall b j, 0 <= j < 16 -> Z.testbit (swap_stage 16 52428 13107 2 b) j = Z.testbit b (Z.lxor j 2).
Proof. stage. Qed.
Lemma st16_1 : forall b j, 0 <= j < 16 -> Z.testbit (swap_stage 16 43690 21845 1 b) j = Z.testbit b (Z.lxor j 1).
Proof. stage. Qed.

Lemma ba_reverse8_l : forall b, 0 <= b < 256 -> ba_reverse8 b = ba_reverse 8 b.
Proof.
  intros b Hb. destruct (ba_reverse_l 8 b ltac:(lia)) as [H1 H2].
  apply (in_type_ext false 8); [lia|apply (un_range 8); lia|exact H1|]. intros j Hj. rewrite H2 by lia.
  change (ba_reverse8 b) with (swap_stage 8 170 85 1 (swap_stage 8 204 51 2 (swap_stage 8 240 15 4 b))).
  each j 8%nat; (rewrite st8_1 by lia; cbn [Z.of_nat Pos.of_succ_nat Pos.succ Z.lxor Pos.lxor Z.of_N Pos.Nsucc_double Pos.Ndouble];
    rewrite st8_2 by (vm_compute; intuition congruence); rewrite st8_4 by (vm_compute; intuition congruence); reflexivity).
Qed.

Lemma ba_reverse16_l : forall b, 0 <= b < 65536 -> ba_reverse16 b = ba_reverse 16 b.
Proof.
  intros b Hb. destruct (ba_reverse_l 16 b ltac:(lia)) as [H1 H2].
  apply (in_type_ext false 16); [lia|apply (un_range 16); lia|exact H1|]. intros j Hj. rewrite H2 by lia.
  change (ba_reverse16 b) with (swap_stage 16 43690 21845 1 (swap_stage 16 52428 13107 2
    (swap_stage 16 61680 3855 4 (swap_stage 16 65280 255 8 b)))).
  each j 16%nat; (rewrite st16_1 by lia;
    rewrite st16_2 by (vm_compute; intuition congruence); rewrite st16_4 by (vm_compute; intuition congruence);
    rewrite st16_8 by (vm_compute; intuition congruence); reflexivity).
Qed.

(** Shifts. *)
Lemma ba_shift_l : forall iw w b k, 1 <= w -> 0 <= b < 2 ^ w -> 0 <= k ->
  (k < w -> 2 * w <= iw \/ iw <= w ->
     exists r, ba_shift_up iw w b k = Some r /\ 0 <= r < 2 ^ w /\
       forall j, 0 <= j < w -> Z.testbit r j = (k <=? j) && Z.testbit b (j - k)) /\
  (k < Z.max w iw ->
     exists r, ba_shift_down iw w b k = Some r /\ 0 <= r < 2 ^ w /\
       forall j, 0 <= j < w -> Z.testbit r j = (j + k <? w) && Z.testbit b (j + k)) /\
  (Z.max w iw <= k -> ba_shift_up iw w b k = None /\ ba_shift_down iw w b k = None).
Proof.
  intros iw w b k Hw Hb Hk. pose proof (pow_pos k Hk). split; [|split].
  - intros Hkw Hd. unfold ba_shift_up, t_shl.
    assert (E : (if w <? iw
      then if (0 <=? k) && (k <? iw) && (b * 2 ^ k <? 2 ^ iw) then Some (un w (b * 2 ^ k)) else None
      else if (0 <=? k) && (k <? w) then Some (un w (b * 2 ^ k)) else None) = Some (un w (b * 2 ^ k))).
    { destruct (Z.ltb_spec w iw).
      - assert (b * 2 ^ k < 2 ^ iw).
        { apply Z.lt_le_trans with (2 ^ w * 2 ^ k).
          - apply Z.mul_lt_mono_pos_r; lia.
          - rewrite <- Z.pow_add_r by lia. apply pow_le. lia. }
        now assert ((0 <=? k) && (k <? iw) && (b * 2 ^ k <? 2 ^ iw) = true) as -> by lia.
      - now assert ((0 <=? k) && (k <? w) = true) as -> by lia. }
    rewrite E. eexists. split; [reflexivity|]. split; [apply un_range; lia|].
    intros j Hj. rewrite testbit_un by lia. assert (j <? w = true) as -> by lia. cbn [andb].
    rewrite <- Z.shiftl_mul_pow2, Z.shiftl_spec by lia. destruct (Z.leb_spec k j); [reflexivity|].
    now rewrite Z.testbit_neg_r by lia.
  - intros Hkw. unfold ba_shift_down, t_shr. assert ((0 <=? k) && (k <? Z.max w iw) = true) as -> by lia.
    eexists. split; [reflexivity|]. split.
    + split; [apply Z.div_pos; lia|]. apply Z.le_lt_trans with b; [|lia].
      apply Z.div_le_upper_bound; [lia|]. nia.
    + intros j Hj. rewrite <- Z.shiftr_div_pow2, Z.shiftr_spec by lia.
      destruct (Z.ltb_spec (j + k) w); [reflexivity|]. now rewrite (testbit_high_pos b w) by lia.
  - intros Hkw. unfold ba_shift_up, ba_shift_down, t_shl, t_shr.
    assert ((0 <=? k) && (k <? Z.max w iw) = false) as -> by lia.
    destruct (Z.ltb_spec w iw).
    + now assert ((0 <=? k) && (k <? iw) && (b * 2 ^ k <? 2 ^ iw) = false) as -> by lia.
    + now assert ((0 <=? k) && (k <? w) = false) as -> by lia.
Qed.
