(** The operations of [spec_float] round the exact result to nearest, ties to even. *)
Require Import ZArith List Bool Lia ZifyBool Floats.SpecFloat.
Import ListNotations.
From Verif Require Import Base BaseFacts RealModel RealSpec RealProofs FloatSpec.
Open Scope Z_scope.
Ltac Zify.zify_post_hook ::= idtac.

(** Rounding depends only on the quotient. *)
Lemma div_ratio : forall n d n' d', 0 < d -> 0 < d' -> n * d' = n' * d -> n / d = n' / d'.
Proof.
  intros n d n' d' Hd Hd' E.
  rewrite <- (Z.div_mul_cancel_r n d d') by lia. rewrite E. rewrite (Z.mul_comm d d'). apply Z.div_mul_cancel_r; lia.
Qed.
Lemma rne_ratio : forall n d n' d', 0 < d -> 0 < d' -> n * d' = n' * d -> rne n d = rne n' d'.
Proof.
  intros n d n' d' Hd Hd' E. unfold rne. cbv zeta. pose proof (div_ratio n d n' d' Hd Hd' E) as Q. rewrite <- Q.
  pose proof (Z.div_mod n d ltac:(lia)) as A. pose proof (Z.div_mod n' d' ltac:(lia)) as B. rewrite <- Q in B.
  assert (M : n mod d * d' = n' mod d' * d) by nia.
  assert (K : (2 * (n mod d) ?= d) = (2 * (n' mod d') ?= d')).
  { rewrite (Zmult_compare_compat_r (2 * (n mod d)) d d') by lia.
    rewrite (Zmult_compare_compat_r (2 * (n' mod d')) d' d) by lia. f_equal; lia. }
  unfold Z.ltb. rewrite (Z.compare_antisym (2 * (n mod d)) d), (Z.compare_antisym (2 * (n' mod d')) d'), K.
  reflexivity.
Qed.
Lemma fl_ratio : forall p n d n' d', 0 < d -> 0 < d' -> n * d' = n' * d -> fl p n d = fl p n' d'.
Proof.
  intros p n d n' d' Hd Hd' E. unfold fl. rewrite <- (div_ratio n d n' d' Hd Hd' E). set (e := spacing p (n / d)).
  assert (P : 0 < 2 ^ e) by (apply pow_pos; apply spacing_nonneg). f_equal. apply rne_ratio; nia.
Qed.

(** Digits. *)
Lemma digits_log2 : forall m, Zpos (digits2_pos m) = Z.log2 (Zpos m) + 1.
Proof.
  induction m as [m IH|m IH|]; [| |reflexivity].
  - change (Z.pos m~1) with (2 * Z.pos m + 1). rewrite Z.log2_succ_double by lia. cbn [digits2_pos]. lia.
  - change (Z.pos m~0) with (2 * Z.pos m). rewrite Z.log2_double by lia. cbn [digits2_pos]. lia.
Qed.
Lemma zdigits_log2 : forall m, 0 < m -> Zdigits2 m = Z.log2 m + 1.
Proof. intros [|m|m] H; try lia. apply digits_log2. Qed.

(** Shifting right keeps track of what is lost: [r] of [D]. *)
Definition lost (rb sb : bool) (r D : Z) : Prop :=
  0 <= r < D /\
  match rb, sb with
  | false, false => r = 0
  | false, true => 0 < r /\ 2 * r < D
  | true, false => 2 * r = D
  | true, true => D < 2 * r
  end.
Definition located (mrs : shr_record) (N D : Z) : Prop :=
  0 <= N /\ 0 < D /\ shr_m mrs = N / D /\ lost (shr_r mrs) (shr_s mrs) (N mod D) D.

Lemma shr_1_l : forall mrs N D, located mrs N D -> located (shr_1 mrs) N (2 * D).
Proof.
  intros [m rb sb] N D (HN & HD & Hm & Hr & Hl). cbn [shr_m shr_r shr_s] in *.
  assert (Q : N / (2 * D) = m / 2). { rewrite Hm, Z.div_div by lia. f_equal. lia. }
  assert (M : N mod (2 * D) = m mod 2 * D + N mod D).
  { rewrite (Z.mod_eq N (2 * D)) by lia. rewrite (Z.mod_eq N D) by lia. rewrite <- Hm, (Z.mod_eq m 2), Q by lia. ring. }
  assert (m0 : 0 <= m). { rewrite Hm. apply Z.div_pos; lia. }
  assert (G : forall m' b, m = 2 * m' + Z.b2z b -> located {| shr_m := m'; shr_r := b; shr_s := rb || sb |} N (2 * D)).
  { intros m' b E. assert (m / 2 = m' /\ m mod 2 = Z.b2z b) as [E1 E2].
    { split; [symmetry; apply Z.div_unique with (Z.b2z b)|symmetry; apply Z.mod_unique with m']; destruct b; cbn [Z.b2z] in *; lia. }
    unfold located. cbn [shr_m shr_r shr_s]. repeat split; try lia.
    rewrite M, E2. unfold lost. destruct b, rb, sb; cbn [Z.b2z orb] in *; lia. }
  unfold shr_1. destruct m as [|[m|m|]|m]; try lia; apply G; cbn [Z.b2z]; lia.
Qed.
Lemma shr_iter_l : forall p mrs N D, located mrs N D -> located (iter_pos shr_1 p mrs) N (D * 2 ^ Zpos p).
Proof.
  induction p as [p IH|p IH|]; intros mrs N D H; cbn [iter_pos].
  - pose proof (IH _ _ _ (IH _ _ _ (shr_1_l _ _ _ H))) as G.
    replace (D * 2 ^ Z.pos p~1) with (2 * D * 2 ^ Z.pos p * 2 ^ Z.pos p); [exact G|].
    replace (Z.pos p~1) with (1 + Z.pos p + Z.pos p) by lia. rewrite !Z.pow_add_r by lia. change (2 ^ 1) with 2. ring.
  - pose proof (IH _ _ _ (IH _ _ _ H)) as G.
    replace (D * 2 ^ Z.pos p~0) with (D * 2 ^ Z.pos p * 2 ^ Z.pos p); [exact G|].
    replace (Z.pos p~0) with (Z.pos p + Z.pos p) by lia. rewrite !Z.pow_add_r by lia. ring.
  - replace (D * 2 ^ 1) with (2 * D) by lia. apply shr_1_l, H.
Qed.
Lemma shr_l : forall k mrs e N D, 0 <= k -> located mrs N D ->
  exists mrs', shr mrs e k = (mrs', e + k) /\ located mrs' N (D * 2 ^ k).
Proof.
  intros k mrs e N D Hk H. destruct k as [|k|k]; [| |lia]; cbn [shr].
  - exists mrs. rewrite Z.add_0_r, Z.mul_1_r. auto.
  - exists (iter_pos shr_1 k mrs). split; [reflexivity|]. apply shr_iter_l, H.
Qed.
Lemma round_located : forall mrs N D, located mrs N D -> round_nearest_even (shr_m mrs) (loc_of_shr_record mrs) = rne N D.
Proof.
  intros [m rb sb] N D (HN & HD & Hm & Hr & Hl). cbn [shr_m shr_r shr_s] in *. unfold rne. cbv zeta. rewrite <- Hm.
  destruct rb, sb; cbn [loc_of_shr_record round_nearest_even].
  - replace (2 * (N mod D) <? D) with false by lia. replace (D <? 2 * (N mod D)) with true by lia. reflexivity.
  - replace (2 * (N mod D) <? D) with false by lia. replace (D <? 2 * (N mod D)) with false by lia. reflexivity.
  - replace (2 * (N mod D) <? D) with true by lia. reflexivity.
  - replace (2 * (N mod D) <? D) with true by lia. reflexivity.
Qed.

Section Format.
Variables p x : Z.
Hypothesis Hp : 24 <= p.
Hypothesis Hx : p < x.
Notation emin := (emin p x).
Notation fexp := (fexp p x).

Lemma emin_neg : emin < 0.
Proof. unfold SpecFloat.emin. lia. Qed.
Lemma emin_le : emin <= x - p.
Proof. unfold SpecFloat.emin. lia. Qed.

Lemma log2_bounds : forall m, 0 < m -> 2 ^ Z.log2 m <= m < 2 ^ (Z.log2 m + 1).
Proof. intros m H. pose proof (Z.log2_spec m H). rewrite Z.add_1_r. exact H0. Qed.
Lemma pow_le : forall a b, 0 <= a <= b -> 2 ^ a <= 2 ^ b.
Proof. intros a b H. apply Z.pow_le_mono_r; lia. Qed.
Lemma pow_inj : forall a b, 0 <= a -> 0 <= b -> 2 ^ a < 2 ^ b -> a < b.
Proof. intros a b Ha Hb H. apply (Z.pow_lt_mono_r_iff 2); lia. Qed.

Lemma sign_l : forall sx a b, 0 < a -> 0 < b -> sx = (cond_Zopp sx (a * b) <? 0).
Proof. intros sx a b Ha Hb. assert (0 < a * b) by nia. destruct sx; cbn [cond_Zopp]; lia. Qed.
Lemma abs_l : forall sx a b, 0 <= a -> 0 < b -> Z.abs (cond_Zopp sx (a * b)) = a * b.
Proof. intros sx a b Ha Hb. assert (0 <= a * b) by nia. destruct sx; cbn [cond_Zopp]; lia. Qed.

(** The exponent the rounding chooses is the spacing of the format at the exact result
    n/d = N/D * 2^(e - emin). *)
Definition same (N D e n d : Z) : Prop :=
  0 <= N /\ 0 < D /\ 0 <= n /\ 0 < d /\ n * D * 2 ^ Z.max (emin - e) 0 = N * d * 2 ^ Z.max (e - emin) 0.
Lemma spacing_l : forall N D e n d, same N D e n d -> e <= fexp (Zdigits2 (N / D) + e) ->
  spacing p (n / d) = fexp (Zdigits2 (N / D) + e) - emin.
Proof.
  intros N D e n d (HN & HD & Hn & Hd & E) He. unfold SpecFloat.fexp in *.
  set (A := 2 ^ Z.max (e - emin) 0) in *. set (B := 2 ^ Z.max (emin - e) 0) in *.
  assert (PA : 0 < A) by (apply pow_pos; lia). assert (PB : 0 < B) by (apply pow_pos; lia).
  pose proof (Z.div_mod N D ltac:(lia)) as DM. pose proof (Z.mod_pos_bound N D HD) as MB.
  set (m := N / D) in *. assert (m0 : 0 <= m) by (apply Z.div_pos; lia).
  pose proof (Z.div_mod n d ltac:(lia)) as DQ. pose proof (Z.mod_pos_bound n d Hd) as MQ.
  set (q := n / d) in *. assert (q0 : 0 <= q) by (apply Z.div_pos; lia).
  (* q * B <= ... *)
  assert (DB : 0 < D * B) by nia. assert (DA : 0 < d * A) by nia.
  assert (U1 : m * A < (q + 1) * B).
  { assert (G : m * A * (D * d) < (q + 1) * B * (D * d)); [|clear - G HD Hd; nia].
    assert (G1 : m * D * (d * A) <= N * (d * A)) by (apply Z.mul_le_mono_nonneg_r; lia).
    assert (G2 : n * (D * B) < (q + 1) * d * (D * B)) by (apply Z.mul_lt_mono_pos_r; lia).
    clear - G1 G2 E. lia. }
  assert (U2 : q * B < (m + 1) * A).
  { assert (G : q * B * (D * d) < (m + 1) * A * (D * d)); [|clear - G HD Hd; nia].
    assert (G1 : q * d * (D * B) <= n * (D * B)) by (apply Z.mul_le_mono_nonneg_r; lia).
    assert (G2 : N * (d * A) < (m + 1) * D * (d * A)) by (apply Z.mul_lt_mono_pos_r; lia).
    clear - G1 G2 E. lia. }
  destruct (Z.eq_dec m 0) as [M0|M0].
  - rewrite M0 in *. cbn [Zdigits2] in *. assert (L : e <= emin) by lia.
    assert (A1 : A = 1). { unfold A. replace (Z.max (e - emin) 0) with 0 by lia. reflexivity. }
    assert (Q0 : q = 0) by nia. rewrite Q0. unfold spacing. change (Z.log2 0) with 0. lia.
  - assert (MP : 0 < m) by lia. rewrite (zdigits_log2 m MP) in *. pose proof (log2_bounds m MP) as LB.
    pose proof (Z.log2_nonneg m) as LN. set (l := Z.log2 m) in *. unfold spacing.
    destruct (Z.le_gt_cases 0 (l + (e - emin))) as [G|G].
    + assert (LQ : Z.log2 q = l + (e - emin)); [|lia].
      apply Z.log2_unique; [lia|]. rewrite <- Z.add_1_r.
      assert (P1 : 2 ^ (l + (e - emin)) * B = 2 ^ l * A).
      { unfold A, B. rewrite <- !Z.pow_add_r by lia. f_equal. lia. }
      assert (P2 : 2 ^ (l + (e - emin) + 1) * B = 2 ^ (l + 1) * A).
      { unfold A, B. rewrite <- !Z.pow_add_r by lia. f_equal. lia. }
      split.
      * assert (G1 : 2 ^ (l + (e - emin)) * B < (q + 1) * B) by (rewrite P1; clear - LB U1 PA; nia). clear - G1 PB. nia.
      * assert (G1 : q * B < 2 ^ (l + (e - emin) + 1) * B) by (rewrite P2; clear - LB U2 PA; nia). clear - G1 PB. nia.
    + assert (A1 : A = 1). { unfold A. replace (Z.max (e - emin) 0) with 0 by lia. reflexivity. }
      assert (B1 : 2 ^ (l + 1) <= B). { unfold B. apply pow_le. lia. }
      assert (Q0 : q = 0) by nia. rewrite Q0. change (Z.log2 0) with 0. lia.
Qed.

Lemma digits_pow : forall k, 0 <= k -> Zdigits2 (2 ^ k) = k + 1.
Proof. intros k Hk. rewrite zdigits_log2 by (apply pow_pos; lia). rewrite Z.log2_pow2 by lia. reflexivity. Qed.
Lemma digits_le : forall m k, 0 <= k -> 0 <= m < 2 ^ k -> Zdigits2 m <= k.
Proof.
  intros m k Hk Hm. destruct (Z.eq_dec m 0) as [->|M]; [cbn; lia|]. rewrite zdigits_log2 by lia.
  assert (Z.log2 m < k); [|lia]. apply Z.log2_lt_pow2; lia.
Qed.
Lemma digits_ge : forall m k, 0 <= k -> 2 ^ k <= m -> k < Zdigits2 m.
Proof.
  intros m k Hk Hm. pose proof (pow_pos k Hk). rewrite zdigits_log2 by lia.
  assert (k <= Z.log2 m); [|lia]. apply Z.log2_le_pow2; lia.
Qed.
Lemma digits_below : forall m, 0 <= m -> m < 2 ^ Zdigits2 m.
Proof.
  intros m Hm. destruct (Z.eq_dec m 0) as [->|M]; [cbn; lia|]. rewrite zdigits_log2 by lia. apply log2_bounds. lia.
Qed.
Lemma digits_above : forall m, 0 < m -> 2 ^ (Zdigits2 m - 1) <= m.
Proof. intros m Hm. rewrite zdigits_log2 by lia. replace (Z.log2 m + 1 - 1) with (Z.log2 m) by lia. apply log2_bounds. lia. Qed.
Lemma digits_nonneg : forall m, 0 <= Zdigits2 m.
Proof. intros [|m|m]; cbn; lia. Qed.

Lemma aux_l : forall sx mx ex lx N D n d, located (shr_record_of_loc mx lx) N D -> same N D ex n d ->
  ex <= fexp (Zdigits2 mx + ex) -> gives p x (cond_Zopp sx (fl p n d)) (binary_round_aux p x sx mx ex lx).
Proof.
  intros sx mx ex lx N D n d L S He.
  assert (HM : mx = N / D). { destruct L as (_ & _ & L & _). destruct lx as [|[]]; exact L. }
  pose proof (spacing_l N D ex n d S) as SP. rewrite <- HM in SP. specialize (SP He).
  destruct S as (HN & HD & Hn & Hd & E).
  unfold binary_round_aux, shr_fexp. set (f := fexp (Zdigits2 mx + ex)) in *.
  destruct (shr_l (f - ex) (shr_record_of_loc mx lx) ex N D ltac:(lia) L) as (mrs & -> & L1).
  replace (ex + (f - ex)) with f by lia. rewrite (round_located _ _ _ L1).
  set (D1 := D * 2 ^ (f - ex)) in *. set (R := rne N D1). set (m1 := N / D1).
  assert (PK : 0 < 2 ^ (f - ex)) by (apply pow_pos; lia). assert (PD1 : 0 < D1) by (unfold D1; nia).
  assert (f0 : emin <= f) by (unfold f, SpecFloat.fexp; lia).
  assert (FL : fl p n d = R * 2 ^ (f - emin)).
  { unfold fl. rewrite SP. f_equal. unfold R. apply rne_ratio; [|exact PD1|].
    - pose proof (pow_pos (f - emin) ltac:(lia)). nia.
    - unfold D1. set (a := Z.max (ex - emin) 0) in *. set (b := Z.max (emin - ex) 0) in *.
      assert (PB : 0 < 2 ^ b) by (apply pow_pos; lia).
      assert (G : 2 ^ (f - emin) * 2 ^ b = 2 ^ a * 2 ^ (f - ex)) by (rewrite <- !Z.pow_add_r by lia; f_equal; lia).
      assert (n * (D * 2 ^ (f - ex)) * 2 ^ b = N * (d * 2 ^ (f - emin)) * 2 ^ b); [|nia].
      transitivity (n * D * 2 ^ b * 2 ^ (f - ex)); [ring|]. rewrite E. transitivity (N * d * (2 ^ a * 2 ^ (f - ex))); [ring|].
      rewrite <- G. ring. }
  assert (m0 : 0 <= mx) by (rewrite HM; apply Z.div_pos; lia).
  assert (M1 : m1 = mx / 2 ^ (f - ex)). { unfold m1, D1. rewrite HM, Z.div_div by lia. reflexivity. }
  assert (m1lt : m1 < 2 ^ p).
  { rewrite M1. apply Z.div_lt_upper_bound; [lia|]. rewrite <- Z.pow_add_r by lia.
    apply Z.lt_le_trans with (2 ^ Zdigits2 mx); [apply digits_below, m0|]. apply pow_le. pose proof (digits_nonneg mx).
    unfold f, SpecFloat.fexp. lia. }
  assert (m1ge : emin < f -> 2 ^ (p - 1) <= m1).
  { intros Lf. assert (Ef : f = Zdigits2 mx + ex - p) by (unfold f, SpecFloat.fexp in *; lia).
    assert (MP : 0 < mx). { destruct (Z.eq_dec mx 0) as [Z0|]; [|lia]. rewrite Z0 in *. cbn [Zdigits2] in *. lia. }
    rewrite M1. apply Z.div_le_lower_bound; [lia|]. rewrite <- Z.pow_add_r by lia.
    replace (f - ex + (p - 1)) with (Zdigits2 mx - 1) by lia. apply digits_above, MP. }
  pose proof (rne_low N D1) as RL. fold R m1 in RL.
  assert (m1n : 0 <= m1) by (unfold m1; apply Z.div_pos; lia).
  assert (PF : 0 < 2 ^ (f - emin)) by (apply pow_pos; lia).
  assert (P2 : 2 ^ p = 2 * 2 ^ (p - 1)) by (rewrite <- Z.pow_succ_r by lia; f_equal; lia).
  assert (PP1 : 0 < 2 ^ (p - 1)) by (apply pow_pos; lia).
  assert (HUGE : huge p x = 2 ^ p * 2 ^ (x - p - emin)).
  { unfold huge. rewrite <- Z.pow_add_r by (pose proof emin_le; lia). f_equal. lia. }
  assert (EL := emin_le).
  assert (ABS : Z.abs (cond_Zopp sx (fl p n d)) = R * 2 ^ (f - emin)). { rewrite FL. apply abs_l; lia. }
  unfold gives. rewrite ABS.
  destruct (Z.eq_dec R (2 ^ p)) as [RP|RP].
  - rewrite RP, (digits_pow p) by lia.
    replace (fexp (p + 1 + f) - f) with 1 by (unfold SpecFloat.fexp; lia). cbn [shr_record_of_loc].
    destruct (shr_l 1 {| shr_m := 2 ^ p; shr_r := false; shr_s := false |} f (2 ^ p) 1 ltac:(lia)) as (mrs2 & -> & (_ & _ & M2 & _)).
    { unfold located. cbn [shr_m shr_r shr_s]. rewrite Z.div_1_r, Z.mod_1_r. unfold lost. repeat split; lia. }
    rewrite M2. replace (2 ^ p / (1 * 2 ^ 1)) with (2 ^ (p - 1)).
    2: { rewrite P2. change (1 * 2 ^ 1) with 2. rewrite (Z.mul_comm 2). rewrite Z.div_mul; lia. }
    destruct (2 ^ (p - 1)) as [|h|h] eqn:Eh; try lia.
    assert (V : Z.pos h * 2 ^ (f + 1 - emin) = 2 ^ p * 2 ^ (f - emin)).
    { rewrite P2. replace (f + 1 - emin) with (Z.succ (f - emin)) by lia. rewrite Z.pow_succ_r by lia. lia. }
    destruct (Z.leb_spec (f + 1) (x - p)) as [LE|LE].
    + replace (_ <? huge p x) with true.
      2: { symmetry. rewrite HUGE. apply Z.ltb_lt. apply Z.mul_lt_mono_pos_l; [lia|]. apply Z.pow_lt_mono_r; lia. }
      split; [split; [exact Logic.I|]|].
      * cbn [valid_binary]. unfold bounded, canonical_mantissa. change (Z.pos (digits2_pos h)) with (Zdigits2 (Z.pos h)).
        rewrite <- Eh, digits_pow by lia. unfold SpecFloat.fexp. apply andb_true_intro. split; [apply Zeq_is_eq_bool|apply Z.leb_le]; lia.
      * cbn [fval]. rewrite FL, RP, V. reflexivity.
    + replace (_ <? huge p x) with false.
      2: { symmetry. rewrite HUGE. apply Z.ltb_ge. apply Z.mul_le_mono_nonneg_l; [lia|]. apply pow_le. lia. }
      f_equal. rewrite FL, RP. apply sign_l; lia.
  - assert (RB : 0 <= R < 2 ^ p) by lia.
    assert (DR : Zdigits2 R <= p) by (apply digits_le; lia).
    assert (SH : shr (shr_record_of_loc R loc_Exact) f (fexp (Zdigits2 R + f) - f) = (shr_record_of_loc R loc_Exact, f)).
    { assert (K : fexp (Zdigits2 R + f) - f <= 0) by (unfold SpecFloat.fexp; lia).
      destruct (fexp (Zdigits2 R + f) - f); [reflexivity|lia|reflexivity]. }
    rewrite SH. cbn [shr_record_of_loc shr_m].
    destruct R as [|h|h] eqn:Eh; [| |lia].
    + replace (0 * _ <? huge p x) with true.
      2: { symmetry. rewrite HUGE. apply Z.ltb_lt. pose proof (pow_pos (x - p - emin) ltac:(lia)). nia. }
      split; [split; [exact Logic.I|reflexivity]|]. cbn [fval]. rewrite FL. destruct sx; reflexivity.
    + destruct (Z.leb_spec f (x - p)) as [LE|LE].
      * replace (_ <? huge p x) with true.
        2: { symmetry. rewrite HUGE. apply Z.ltb_lt. pose proof (pow_le (f - emin) (x - p - emin) ltac:(lia)) as G. clear - G RB PF. nia. }
        split; [split; [exact Logic.I|]|].
        -- cbn [valid_binary]. unfold bounded, canonical_mantissa. change (Z.pos (digits2_pos h)) with (Zdigits2 (Z.pos h)).
           apply andb_true_intro. split; [apply Zeq_is_eq_bool|apply Z.leb_le; lia]. unfold SpecFloat.fexp.
           destruct (Z.eq_dec f emin) as [Fe|Fe]; [lia|].
           assert (p - 1 < Zdigits2 (Z.pos h)); [|lia]. apply digits_ge; lia.
        -- cbn [fval]. rewrite FL. reflexivity.
      * replace (_ <? huge p x) with false.
        2: { symmetry. rewrite HUGE. apply Z.ltb_ge. pose proof (m1ge ltac:(lia)).
             pose proof (pow_le (x - p - emin + 1) (f - emin) ltac:(lia)) as PL.
             rewrite Z.pow_add_r in PL by lia. change (2 ^ 1) with 2 in PL. 
             pose proof (pow_pos (x - p - emin) ltac:(lia)) as G. clear - PL G H RL P2 PP1. nia. }
        f_equal. rewrite FL. apply sign_l; lia.
Qed.

(** Numbers. *)
Lemma bounded_l : forall m e, bounded p x m e = true ->
  emin <= e <= x - p /\ Zpos m < 2 ^ p /\ (emin < e -> 2 ^ (p - 1) <= Zpos m) /\ fexp (Zdigits2 (Zpos m) + e) = e.
Proof.
  intros m e H. unfold bounded, canonical_mantissa in H. apply andb_prop in H. destruct H as [H1 H2].
  apply Zeq_is_eq_bool in H1. apply Z.leb_le in H2. change (Z.pos (digits2_pos m)) with (Zdigits2 (Zpos m)) in H1.
  pose proof (digits_below (Zpos m) ltac:(lia)) as B. pose proof (digits_above (Zpos m) ltac:(lia)) as A.
  assert (D : Zdigits2 (Z.pos m) <= p) by (unfold SpecFloat.fexp in H1; lia).
  pose proof (digits_nonneg (Zpos m)) as DN.
  split; [|split; [|split; [|exact H1]]].
  - unfold SpecFloat.fexp in H1. lia.
  - pose proof (pow_le (Zdigits2 (Z.pos m)) p ltac:(lia)). lia.
  - intros L. replace (p - 1) with (Zdigits2 (Z.pos m) - 1) by (unfold SpecFloat.fexp in H1; lia). exact A.
Qed.
Lemma number_float : forall f, number p x f -> is_float p (fval p x f) /\ Z.abs (fval p x f) < huge p x.
Proof.
  assert (PH : 0 < huge p x). { unfold huge. apply pow_pos. pose proof emin_le. lia. }
  intros [s|s| |s m e] [F V]; try contradiction; cbn [fval].
  - split; [|exact PH]. exists 0, 0. pose proof (pow_pos p ltac:(lia)). repeat split; lia.
  - cbn [valid_binary] in V. destruct (bounded_l m e V) as (E & M & _).
    pose proof (pow_pos (e - emin) ltac:(lia)) as P. split.
    + exists (cond_Zopp s (Zpos m)), (e - emin). repeat split; [lia|destruct s; cbn [cond_Zopp]; lia|].
      destruct s; cbn [cond_Zopp]; lia.
    + rewrite abs_l by lia. assert (huge p x = 2 ^ p * 2 ^ (x - p - emin)) as ->.
      { unfold huge. rewrite <- Z.pow_add_r by lia. f_equal. lia. }
      pose proof (pow_le (e - emin) (x - p - emin) ltac:(lia)). nia.
Qed.
Lemma abs_float : forall v, is_float p v -> is_float p (Z.abs v).
Proof.
  intros v (m & e & He & Hm & ->). exists (Z.abs m), e. pose proof (pow_pos e He). repeat split; [lia|lia|].
  rewrite Z.abs_mul. f_equal. lia.
Qed.
Lemma rnd_exact : forall v, is_float p v -> rnd p v 1 = v.
Proof. intros v F. unfold rnd. rewrite fl_exact by (try apply abs_float; auto; lia). rewrite Z.mul_comm. apply Z.abs_sgn. Qed.
Lemma gives_number : forall f v, number p x f -> fval p x f = v -> gives p x v f.
Proof.
  intros f v N E. unfold gives. destruct (number_float f N) as [_ B]. rewrite E in B.
  replace (_ <? huge p x) with true by lia. auto.
Qed.
Lemma gives_self : forall f v, number p x f -> v = fval p x f -> gives p x (rnd p v 1) f.
Proof. intros f v N ->. rewrite rnd_exact by (apply number_float; exact N). apply gives_number; auto. Qed.

Lemma shl_align_l : forall m e f, f <= e -> exists m', shl_align m e f = (m', f) /\ Zpos m' = Zpos m * 2 ^ (e - f).
Proof.
  intros m e f L. unfold shl_align. destruct (f - e) as [|d|d] eqn:E; [| lia |].
  - exists m. replace e with f by lia. rewrite Z.sub_diag, Z.mul_1_r. auto.
  - exists (shift_pos d m). split; [reflexivity|]. rewrite shift_pos_correct. change (Z.pow_pos 2 d) with (2 ^ Z.pos d).
    replace (e - f) with (Z.pos d) by lia. lia.
Qed.
Lemma digits_shift : forall m k, 0 < m -> 0 <= k -> Zdigits2 (m * 2 ^ k) = Zdigits2 m + k.
Proof.
  intros m k Hm Hk. pose proof (pow_pos k Hk). rewrite !zdigits_log2 by nia. rewrite Z.log2_mul_pow2 by lia. lia.
Qed.
Lemma round_l : forall sx m e, emin <= e ->
  gives p x (cond_Zopp sx (fl p (Zpos m * 2 ^ (e - emin)) 1)) (binary_round p x sx m e).
Proof.
  intros sx m e He. unfold binary_round. change (Z.pos (digits2_pos m)) with (Zdigits2 (Zpos m)).
  set (f := fexp (Zdigits2 (Zpos m) + e)).
  assert (PE : 0 < 2 ^ (e - emin)) by (apply pow_pos; lia).
  assert (G : forall mz ez, emin <= ez -> Zpos mz * 2 ^ (ez - emin) = Zpos m * 2 ^ (e - emin) ->
    ez <= fexp (Zdigits2 (Zpos mz) + ez) ->
    gives p x (cond_Zopp sx (fl p (Zpos m * 2 ^ (e - emin)) 1)) (binary_round_aux p x sx (Zpos mz) ez loc_Exact)).
  { intros mz ez B E K. apply aux_l with (N := Zpos mz) (D := 1).
    - unfold located. cbn [shr_record_of_loc shr_m shr_r shr_s]. rewrite Z.div_1_r, Z.mod_1_r. unfold lost. repeat split; lia.
    - unfold same. replace (Z.max (emin - ez) 0) with 0 by lia. replace (Z.max (ez - emin) 0) with (ez - emin) by lia.
      repeat split; try lia.
    - exact K. }
  destruct (Z.le_gt_cases f e) as [L|L].
  - destruct (shl_align_l m e f L) as (m' & -> & E). 
    assert (f0 : emin <= f) by (unfold f, SpecFloat.fexp; lia).
    apply G; [exact f0| |].
    + rewrite E, <- Z.mul_assoc, <- Z.pow_add_r by lia. do 2 f_equal. lia.
    + rewrite E, digits_shift by lia. replace (Zdigits2 (Z.pos m) + (e - f) + f) with (Zdigits2 (Z.pos m) + e) by lia. fold f. lia.
  - unfold shl_align. destruct (f - e) as [|d|d] eqn:E; [lia| |lia]. apply G; [exact He|reflexivity|fold f; lia].
Qed.
Lemma pos_mul : forall m k, 0 <= k -> 0 < Zpos m * 2 ^ k.
Proof. intros m k H. apply Z.mul_pos_pos; [lia|apply pow_pos, H]. Qed.
Lemma normalize_l : forall z e, emin <= e ->
  gives p x (rnd p (z * 2 ^ (e - emin)) 1) (binary_normalize p x z e false).
Proof.
  intros z e He. destruct z as [|m|m]; cbn [binary_normalize].
  - apply gives_self; [split; [exact Logic.I|reflexivity]|]. reflexivity.
  - pose proof (pos_mul m (e - emin) ltac:(lia)) as P. pose proof (round_l false m e He) as G. cbn [cond_Zopp] in G. unfold rnd.
    replace (Z.sgn (Z.pos m * 2 ^ (e - emin))) with 1 by lia. replace (Z.abs (Z.pos m * 2 ^ (e - emin))) with (Z.pos m * 2 ^ (e - emin)) by lia.
    rewrite Z.mul_1_l. exact G.
  - pose proof (pos_mul m (e - emin) ltac:(lia)) as P. change (Z.neg m) with (- Z.pos m). rewrite Z.mul_opp_l.
    pose proof (round_l true m e He) as G. cbn [cond_Zopp] in G. unfold rnd.
    replace (Z.sgn (- (Z.pos m * 2 ^ (e - emin)))) with (-1) by lia.
    replace (Z.abs (- (Z.pos m * 2 ^ (e - emin)))) with (Z.pos m * 2 ^ (e - emin)) by lia.
    replace (-1 * fl p (Z.pos m * 2 ^ (e - emin)) 1) with (- fl p (Z.pos m * 2 ^ (e - emin)) 1) by lia. exact G.
Qed.
Lemma aligned_l : forall s m e f, emin <= f <= e ->
  cond_Zopp s (Zpos (fst (shl_align m e f))) * 2 ^ (f - emin) = cond_Zopp s (Zpos m * 2 ^ (e - emin)).
Proof.
  intros s m e f H. destruct (shl_align_l m e f ltac:(lia)) as (m' & -> & E). cbn [fst]. rewrite E.
  replace (2 ^ (e - emin)) with (2 ^ (e - f) * 2 ^ (f - emin)) by (rewrite <- Z.pow_add_r by lia; f_equal; lia).
  destruct s; cbn [cond_Zopp]; ring.
Qed.

Lemma add_l : forall a b, number p x a -> number p x b -> gives p x (rnd p (fval p x a + fval p x b) 1) (SFadd p x a b).
Proof.
  intros [s|s| |s m e] [t|t| |t m' e'] A B; try (exfalso; exact (proj1 A)); try (exfalso; exact (proj1 B)); cbn [SFadd fval].
  - apply gives_self; destruct (eqb s t); try split; try reflexivity; exact Logic.I.
  - apply gives_self; [exact B|reflexivity].
  - apply gives_self; [exact A|cbn [fval]; lia].
  - destruct A as [_ VA], B as [_ VB]. cbn [valid_binary] in *. apply bounded_l in VA, VB.
    rewrite <- (aligned_l s m e (Z.min e e')), <- (aligned_l t m' e' (Z.min e e')) by lia. rewrite <- Z.mul_add_distr_r.
    apply normalize_l. lia.
Qed.
Lemma sub_l : forall a b, number p x a -> number p x b -> gives p x (rnd p (fval p x a - fval p x b) 1) (SFsub p x a b).
Proof.
  intros [s|s| |s m e] [t|t| |t m' e'] A B; try (exfalso; exact (proj1 A)); try (exfalso; exact (proj1 B)); cbn [SFsub fval].
  - apply gives_self; destruct (eqb s (negb t)); try split; try reflexivity; exact Logic.I.
  - apply gives_self; [exact B|]. cbn [fval]. destruct t; cbn [cond_Zopp negb]; lia.
  - apply gives_self; [exact A|cbn [fval]; lia].
  - destruct A as [_ VA], B as [_ VB]. cbn [valid_binary] in *. apply bounded_l in VA, VB.
    rewrite <- (aligned_l s m e (Z.min e e')), <- (aligned_l t m' e' (Z.min e e')) by lia. rewrite <- Z.mul_sub_distr_r.
    apply normalize_l. lia.
Qed.
Lemma rnd_0 : forall d, 0 < d -> rnd p 0 d = 0.
Proof. reflexivity. Qed.
Lemma gives_zero : forall s, gives p x 0 (S754_zero s).
Proof. intros s. apply gives_number; [split; [exact Logic.I|reflexivity]|reflexivity]. Qed.
Lemma sgn_mul : forall s t a b, 0 < a -> 0 < b ->
  Z.sgn (cond_Zopp s a * cond_Zopp t b) = (if xorb s t then -1 else 1) /\ Z.abs (cond_Zopp s a * cond_Zopp t b) = a * b.
Proof. intros s t a b Ha Hb. assert (0 < a * b) by nia. destruct s, t; cbn [cond_Zopp xorb]; lia. Qed.
Lemma opp_mul : forall (b : bool) v, (if b then -1 else 1) * v = cond_Zopp b v.
Proof. intros [] v; cbn [cond_Zopp]; lia. Qed.
Lemma mul_l : forall a b, number p x a -> number p x b ->
  gives p x (rnd p (fval p x a * fval p x b) (2 ^ scale p x)) (SFmul p x a b).
Proof.
  pose proof emin_neg as EN. assert (PS : 0 < 2 ^ scale p x) by (apply pow_pos; unfold scale; lia).
  intros [s|s| |s m e] [t|t| |t m' e'] A B; try (exfalso; exact (proj1 A)); try (exfalso; exact (proj1 B)); cbn [SFmul fval];
    try (rewrite ?Z.mul_0_r, ?Z.mul_0_l; apply gives_zero).
  destruct A as [_ VA], B as [_ VB]. cbn [valid_binary] in *. apply bounded_l in VA, VB.
  destruct VA as (E1 & M1 & N1 & F1), VB as (E2 & M2 & N2 & F2).
  pose proof (pos_mul m (e - emin) ltac:(lia)) as P1. pose proof (pos_mul m' (e' - emin) ltac:(lia)) as P2.
  destruct (sgn_mul s t (Z.pos m * 2 ^ (e - emin)) (Z.pos m' * 2 ^ (e' - emin)) ltac:(lia) ltac:(lia)) as [SG AB].
  unfold rnd. rewrite SG, AB, opp_mul. apply aux_l with (N := Zpos (m * m')) (D := 1).
  - unfold located. cbn [shr_record_of_loc shr_m shr_r shr_s]. rewrite Z.div_1_r, Z.mod_1_r. unfold lost. repeat split; lia.
  - unfold same, scale. repeat split; try lia. rewrite Pos2Z.inj_mul.
    transitivity (Z.pos m * Z.pos m' * (2 ^ (e - emin) * 2 ^ (e' - emin) * 2 ^ Z.max (emin - (e + e')) 0)); [ring|].
    transitivity (Z.pos m * Z.pos m' * (2 ^ (- emin) * 2 ^ Z.max (e + e' - emin) 0)); [|ring].
    f_equal. rewrite <- !Z.pow_add_r by lia. f_equal. lia.
  - rewrite Pos2Z.inj_mul. unfold SpecFloat.fexp.
    destruct (Z.eq_dec e emin) as [Q1|Q1].
    + destruct (Z.eq_dec e' emin) as [Q2|Q2]; [lia|].
      assert (G : 2 ^ (p - 1) <= Z.pos m * Z.pos m') by (pose proof (N2 ltac:(lia)); nia).
      apply digits_ge in G; [|lia]. lia.
    + assert (G : 2 ^ (p - 1) <= Z.pos m * Z.pos m') by (pose proof (N1 ltac:(lia)); nia).
      apply digits_ge in G; [|lia]. lia.
Qed.

(** Division. *)
Lemma div_loc : forall n d, 0 <= n -> 0 < d -> located (shr_record_of_loc (n / d) (new_location d (n mod d))) n d.
Proof.
  intros n d Hn Hd. pose proof (Z.mod_pos_bound n d Hd) as B. unfold new_location, new_location_even, new_location_odd.
  assert (SM : forall l, shr_m (shr_record_of_loc (n / d) l) = n / d) by (intros [|[]]; reflexivity).
  unfold located. rewrite SM. repeat (split; [lia|]).
  destruct (Z.even d) eqn:EV.
  - destruct (Zeq_bool (n mod d) 0) eqn:Q.
    + apply Zeq_bool_eq in Q. cbn. unfold lost. lia.
    + apply Zeq_bool_neq in Q. destruct (Z.compare_spec (2 * (n mod d)) d); cbn [shr_record_of_loc shr_r shr_s]; unfold lost; lia.
  - assert (OD : exists h, d = 2 * h + 1).
    { exists (d / 2). pose proof (Z.div_mod d 2 ltac:(lia)) as DM. rewrite Zmod_even, EV in DM. exact DM. }
    destruct OD as [h OD].
    destruct (Zeq_bool (n mod d) 0) eqn:Q.
    + apply Zeq_bool_eq in Q. cbn. unfold lost. lia.
    + apply Zeq_bool_neq in Q. destruct (Z.compare_spec (2 * (n mod d) + 1) d); cbn [shr_record_of_loc shr_r shr_s]; unfold lost; lia.
Qed.
Lemma div_l : forall a b, number p x a -> number p x b -> fval p x b <> 0 ->
  gives p x (rnd p (Z.sgn (fval p x b) * fval p x a * 2 ^ scale p x) (Z.abs (fval p x b))) (SFdiv p x a b).
Proof.
  pose proof emin_neg as EN. assert (PS : 0 < 2 ^ scale p x) by (apply pow_pos; unfold scale; lia).
  intros [s|s| |s m e] [t|t| |t m' e'] A B NZ; try (exfalso; exact (proj1 A)); try (exfalso; exact (proj1 B)); cbn [SFdiv fval] in *;
    try congruence; try (rewrite ?Z.mul_0_r, ?Z.mul_0_l; apply gives_zero).
  destruct A as [_ VA], B as [_ VB]. cbn [valid_binary] in *. apply bounded_l in VA, VB.
  destruct VA as (E1 & M1 & N1 & F1), VB as (E2 & M2 & N2 & F2).
  pose proof (pos_mul m (e - emin) ltac:(lia)) as P1. pose proof (pos_mul m' (e' - emin) ltac:(lia)) as P2.
  set (va := Z.pos m * 2 ^ (e - emin)). set (vb := Z.pos m' * 2 ^ (e' - emin)).
  assert (VA : 0 < va) by (unfold va; lia). assert (VB : 0 < vb) by (unfold vb; lia).
  assert (SG : Z.sgn (Z.sgn (cond_Zopp t vb) * cond_Zopp s va * 2 ^ scale p x) = (if xorb s t then -1 else 1) /\
    Z.abs (Z.sgn (cond_Zopp t vb) * cond_Zopp s va * 2 ^ scale p x) = va * 2 ^ scale p x /\ Z.abs (cond_Zopp t vb) = vb).
  { assert (0 < va * 2 ^ scale p x) by nia.
    replace (Z.sgn (cond_Zopp t vb)) with (cond_Zopp t 1) by (destruct t; cbn [cond_Zopp]; lia).
    destruct s, t; cbn [cond_Zopp xorb]; lia. }
  destruct SG as (SG & AB & AT). unfold rnd. rewrite SG, AB, AT, opp_mul. unfold SFdiv_core_binary.
  set (f := fexp (Zdigits2 (Z.pos m) + e - (Zdigits2 (Z.pos m') + e'))). set (g := Z.min f (e - e')).
  assert (SH : match e - e' - g with Z0 => Z.pos m | Zpos _ => Z.shiftl (Z.pos m) (e - e' - g) | Zneg _ => 0 end = Z.pos m * 2 ^ (e - e' - g)).
  { assert (G : 0 <= e - e' - g) by (unfold g; lia). destruct (e - e' - g) as [|k|k] eqn:K; [cbn; lia| |lia].
    rewrite Z.shiftl_mul_pow2 by lia. reflexivity. }
  rewrite SH. set (N := Z.pos m * 2 ^ (e - e' - g)).
  assert (g0 : 0 <= e - e' - g) by (unfold g; lia). pose proof (pow_pos (e - e' - g) g0) as PG.
  assert (N0 : 0 < N) by (unfold N; lia).
  destruct (Z.div_eucl N (Z.pos m')) as [q r] eqn:DE.
  assert (Q : q = N / Z.pos m' /\ r = N mod Z.pos m') by (unfold Z.div, Z.modulo; rewrite DE; auto).
  destruct Q as [-> ->]. apply aux_l with (N := N) (D := Z.pos m').
  - apply div_loc; lia.
  - unfold same, scale. split; [lia|]. split; [lia|]. split; [apply Z.mul_nonneg_nonneg; [lia|apply Z.pow_nonneg; lia]|].
    split; [lia|]. unfold va, vb, N.
    transitivity (Z.pos m * Z.pos m' * (2 ^ (e - emin) * 2 ^ (- emin) * 2 ^ Z.max (emin - g) 0)); [ring|].
    transitivity (Z.pos m * Z.pos m' * (2 ^ (e - e' - g) * 2 ^ (e' - emin) * 2 ^ Z.max (g - emin) 0)); [|ring].
    f_equal. rewrite <- !Z.pow_add_r by lia. f_equal. lia.
  - assert (DQ : Zdigits2 (Z.pos m) + (e - e' - g) - Zdigits2 (Z.pos m') <= Zdigits2 (N / Z.pos m')).
    { pose proof (digits_nonneg (N / Z.pos m')) as QN. pose proof (digits_nonneg (Z.pos m)). pose proof (digits_nonneg (Z.pos m')).
      destruct (Z.le_gt_cases (Zdigits2 (Z.pos m) + (e - e' - g) - Zdigits2 (Z.pos m')) 0) as [L|L]; [lia|].
      assert (G : 2 ^ (Zdigits2 (Z.pos m) + (e - e' - g) - Zdigits2 (Z.pos m') - 1) <= N / Z.pos m').
      { apply Z.div_le_lower_bound; [lia|].
        apply Z.le_trans with (2 ^ Zdigits2 (Z.pos m') * 2 ^ (Zdigits2 (Z.pos m) + (e - e' - g) - Zdigits2 (Z.pos m') - 1)).
        { apply Z.mul_le_mono_nonneg_r; [apply Z.pow_nonneg; lia|]. pose proof (digits_below (Z.pos m') ltac:(lia)). lia. }
        rewrite <- Z.pow_add_r by lia. unfold N.
        replace (_ + _) with (Zdigits2 (Z.pos m) - 1 + (e - e' - g)) by lia. 
        assert (1 <= Zdigits2 (Z.pos m)) by (cbn [Zdigits2]; lia). rewrite Z.pow_add_r by lia.
        apply Z.mul_le_mono_nonneg_r; [lia|]. apply digits_above. lia. }
      apply digits_ge in G; [|lia]. lia. }
    assert (L1 : g <= f) by (unfold g; lia). unfold f, SpecFloat.fexp in L1. unfold SpecFloat.fexp. lia.
Qed.

(** Order and sign. *)
Lemma opp_l : forall a, number p x a -> number p x (SFopp a) /\ fval p x (SFopp a) = - fval p x a.
Proof.
  intros [s|s| |s m e] [F V]; try contradiction; (split; [split; [exact Logic.I|exact V]|]); cbn [SFopp fval]; [lia|].
  destruct s; cbn [cond_Zopp negb]; lia.
Qed.
Lemma compare_mag : forall m e m' e', bounded p x m e = true -> bounded p x m' e' = true ->
  (Z.pos m * 2 ^ (e - emin) ?= Z.pos m' * 2 ^ (e' - emin)) = match e ?= e' with Lt => Lt | Gt => Gt | Eq => Pcompare m m' Eq end.
Proof.
  intros m e m' e' A B. apply bounded_l in A, B. destruct A as (E1 & M1 & N1 & _), B as (E2 & M2 & N2 & _).
  assert (P2 : 2 ^ p = 2 * 2 ^ (p - 1)) by (rewrite <- Z.pow_succ_r by lia; f_equal; lia).
  assert (G : forall u v f g, emin <= f -> f < g -> Z.pos u < 2 ^ p -> 2 ^ (p - 1) <= Z.pos v ->
    Z.pos u * 2 ^ (f - emin) < Z.pos v * 2 ^ (g - emin)).
  { intros u v f g F L U V. pose proof (pow_pos (f - emin) ltac:(lia)) as PF.
    assert (2 ^ (f - emin + 1) <= 2 ^ (g - emin)) as PG by (apply pow_le; lia). rewrite Z.pow_add_r in PG by lia. change (2 ^ 1) with 2 in PG.
    clear - PF PG U V P2. nia. }
  destruct (Z.compare_spec e e') as [->|L|L].
  - pose proof (pow_pos (e' - emin) ltac:(lia)) as P. rewrite <- Zmult_compare_compat_r by lia. reflexivity.
  - apply Z.compare_lt_iff. apply G; auto; lia.
  - apply Z.compare_gt_iff. apply G; auto; lia.
Qed.
Lemma compare_l : forall a b, number p x a -> number p x b -> SFcompare a b = Some (fval p x a ?= fval p x b).
Proof.
  intros [s|s| |s m e] [t|t| |t m' e'] A B; try (exfalso; exact (proj1 A)); try (exfalso; exact (proj1 B)); cbn [SFcompare fval].
  - reflexivity.
  - destruct B as [_ VB]. cbn [valid_binary] in *. apply bounded_l in VB. pose proof (pos_mul m' (e' - emin) ltac:(lia)).
    f_equal. symmetry. destruct t; cbn [cond_Zopp]; [apply Z.compare_gt_iff|apply Z.compare_lt_iff]; lia.
  - destruct A as [_ VA]. cbn [valid_binary] in *. apply bounded_l in VA. pose proof (pos_mul m (e - emin) ltac:(lia)).
    f_equal. symmetry. destruct s; cbn [cond_Zopp]; [apply Z.compare_lt_iff|apply Z.compare_gt_iff]; lia.
  - destruct A as [_ VA], B as [_ VB]. cbn [valid_binary] in *. pose proof (compare_mag m e m' e' VA VB) as C.
    apply bounded_l in VA, VB. pose proof (pos_mul m (e - emin) ltac:(lia)). pose proof (pos_mul m' (e' - emin) ltac:(lia)).
    f_equal. destruct s, t; cbn [cond_Zopp].
    + rewrite Z.compare_opp, (Z.compare_antisym (Z.pos m * 2 ^ (e - emin))), C. destruct (e ?= e'); reflexivity.
    + symmetry. apply Z.compare_lt_iff. lia.
    + symmetry. apply Z.compare_gt_iff. lia.
    + symmetry. exact C.
Qed.
End Format.
