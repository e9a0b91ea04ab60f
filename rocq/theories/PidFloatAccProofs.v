(** PID in floating point: size and accuracy of the results for inputs of moderate size. *)
Require Import ZArith List Bool Lia ZifyBool Floats.SpecFloat.
Import ListNotations.
From Verif Require Import Base BaseFacts RealModel RealSpec RealProofs FloatSpec FloatProofs PidFloatModel PidFloatSpec PidFloatProofs
  RangeModel PidModel PidSpec.
Open Scope Z_scope.
Ltac Zify.zify_post_hook ::= idtac.

Section Format.
Variables p x : Z.
Hypothesis Hp : 24 <= p.
Hypothesis Hx : 128 <= x.
Hypothesis Hpx : p < x.
Notation num := (number p x).
Notation val := (fval p x).
Notation u := (U p x).

Lemma u_pos : 0 < u.
Proof. unfold U, scale. apply pow_pos. pose proof (emin_neg p x Hp Hpx). lia. Qed.
Lemma huge_l : forall k, 0 <= k <= 120 -> 2 ^ k * u < huge p x.
Proof.
  intros k Hk. unfold huge, U, scale. pose proof (emin_neg p x Hp Hpx). rewrite <- Z.pow_add_r by lia.
  apply Z.pow_lt_mono_r; lia.
Qed.

(** Rounding. *)
Lemma rnd_err : forall z d, 0 < d -> 2 ^ (p + 1) * Z.abs (rnd p z d * d - z) <= 2 ^ p * d + 2 * Z.abs z.
Proof.
  intros z d Hd. unfold rnd. pose proof (fl_rel p Hp (Z.abs z) d ltac:(lia) Hd) as F. pose proof (pow_pos p ltac:(lia)) as P.
  replace (2 ^ (p + 1)) with (2 * 2 ^ p) by (rewrite Z.pow_add_r by lia; lia).
  assert (E : Z.abs (Z.sgn z * fl p (Z.abs z) d * d - z) <= Z.abs (fl p (Z.abs z) d * d - Z.abs z)).
  { generalize (fl p (Z.abs z) d). intros w. destruct (Z.sgn_spec z) as [[Q ->]|[[Q ->]|[Q ->]]]; lia. }
  destruct F as [F|F]; nia.
Qed.
Lemma rnd_err1 : forall z, 2 ^ p * Z.abs (rnd p z 1 - z) <= Z.abs z.
Proof.
  intros z. unfold rnd. pose proof (fl_rel1 p Hp (Z.abs z) ltac:(lia)) as F. pose proof (pow_pos p ltac:(lia)) as P.
  assert (E : Z.abs (Z.sgn z * fl p (Z.abs z) 1 - z) <= Z.abs (fl p (Z.abs z) 1 - Z.abs z)).
  { generalize (fl p (Z.abs z) 1). intros w. destruct (Z.sgn_spec z) as [[Q ->]|[[Q ->]|[Q ->]]]; lia. }
  nia.
Qed.
Lemma rnd_ratio : forall z d z' d', 0 < d -> 0 < d' -> z * d' = z' * d -> rnd p z d = rnd p z' d'.
Proof.
  intros z d z' d' Hd Hd' E. unfold rnd. assert (S : Z.sgn z = Z.sgn z') by nia. rewrite S. f_equal. apply fl_ratio; auto.
  rewrite <- (Z.abs_eq d) at 1 by lia. rewrite <- (Z.abs_eq d') by lia. rewrite <- !Z.abs_mul. f_equal. lia.
Qed.
(** Crude bounds. *)
Lemma p_big : 16777216 <= 2 ^ p.
Proof. change 16777216 with (2 ^ 24). apply Z.pow_le_mono_r; lia. Qed.
Lemma rnd_size : forall z d, 0 < d -> Z.abs (rnd p z d) * d <= 2 * Z.abs z + d.
Proof.
  intros z d Hd. pose proof (rnd_err z d Hd) as E. pose proof p_big as P.
  replace (2 ^ (p + 1)) with (2 * 2 ^ p) in E by (rewrite Z.pow_add_r by lia; lia).
  assert (Z.abs (rnd p z d) * d <= Z.abs (rnd p z d * d - z) + Z.abs z).
  { replace (Z.abs (rnd p z d) * d) with (Z.abs (rnd p z d * d)) by (rewrite Z.abs_mul, (Z.abs_eq d); lia). lia. }
  nia.
Qed.
Lemma rnd_size1 : forall z, Z.abs (rnd p z 1) <= 2 * Z.abs z.
Proof. intros z. pose proof (rnd_err1 z) as E. pose proof p_big as P. nia. Qed.

Lemma gives_upto : forall v f k, gives p x v f -> 0 <= k <= 120 -> Z.abs v <= 2 ^ k * u -> upto p x k f /\ val f = v.
Proof.
  intros v f k G Hk B. pose proof (huge_l k Hk) as H. unfold gives in G. replace (_ <? _) with true in G by lia.
  destruct G as [N <-]. repeat split; try apply N; exact B.
Qed.
Lemma upto_le : forall j k f, 0 <= j <= k -> upto p x j f -> upto p x k f.
Proof. intros j k f H [N B]. split; [exact N|]. pose proof (pow_le j k H). pose proof u_pos. nia. Qed.
Lemma upto_add : forall k a b, 0 <= k <= 110 -> upto p x k a -> upto p x k b ->
  upto p x (k + 2) (SFadd p x a b) /\ val (SFadd p x a b) = rnd p (val a + val b) 1.
Proof.
  intros k a b Hk [NA A] [NB B]. apply gives_upto; [apply add_l; assumption|lia|].
  pose proof (rnd_size1 (val a + val b)). rewrite Z.pow_add_r by lia. change (2 ^ 2) with 4. lia.
Qed.
Lemma upto_sub : forall k a b, 0 <= k <= 110 -> upto p x k a -> upto p x k b ->
  upto p x (k + 2) (SFsub p x a b) /\ val (SFsub p x a b) = rnd p (val a - val b) 1.
Proof.
  intros k a b Hk [NA A] [NB B]. apply gives_upto; [apply sub_l; assumption|lia|].
  pose proof (rnd_size1 (val a - val b)). rewrite Z.pow_add_r by lia. change (2 ^ 2) with 4. lia.
Qed.
Lemma upto_mul : forall j k a b, 0 <= j -> 0 <= k -> j + k <= 110 -> upto p x j a -> upto p x k b ->
  upto p x (j + k + 2) (SFmul p x a b) /\ val (SFmul p x a b) = rnd p (val a * val b) u.
Proof.
  intros j k a b Hj Hk H [NA A] [NB B]. apply gives_upto; [apply mul_l; assumption|lia|].
  change (2 ^ scale p x) with u. pose proof u_pos as UP. pose proof (rnd_size (val a * val b) u UP) as R.
  rewrite Z.abs_mul in R. pose proof (pow_pos j Hj). pose proof (pow_pos k Hk).
  assert (Z.abs (val a) * Z.abs (val b) <= 2 ^ j * u * (2 ^ k * u)) by (apply Z.mul_le_mono_nonneg; lia).
  rewrite !Z.pow_add_r by lia. change (2 ^ 2) with 4.
  assert (Z.abs (rnd p (val a * val b) u) * u <= (2 ^ j * 2 ^ k * 4 * u) * u) by nia. nia.
Qed.
Lemma int_l : forall n, 0 <= n < 65536 -> upto p x 16 (f_int p x n) /\ val (f_int p x n) = n * u.
Proof.
  intros n Hn. pose proof (f_int_gives p x Hp Hx Hpx n) as G. pose proof u_pos as UP. pose proof p_big.
  rewrite rnd_exact in G; [|exact Hp|].
  - apply gives_upto; [exact G|lia|]. change (2 ^ 16) with 65536. nia.
  - exists n, (scale p x). repeat split; [unfold scale; pose proof (emin_neg p x Hp Hpx); lia|lia].
Qed.
Lemma upto_div : forall k a n, 0 <= k <= 110 -> 1 <= n < 65536 -> upto p x k a ->
  upto p x (k + 2) (SFdiv p x a (f_int p x n)) /\ val (SFdiv p x a (f_int p x n)) = rnd p (val a) n.
Proof.
  intros k a n Hk Hn [NA A]. destruct (int_l n ltac:(lia)) as [[NI _] VI]. pose proof u_pos as UP.
  assert (NU : 0 < n * u) by nia.
  assert (E : rnd p (Z.sgn (val (f_int p x n)) * val a * 2 ^ scale p x) (Z.abs (val (f_int p x n))) = rnd p (val a) n).
  { rewrite VI. replace (Z.sgn (n * u)) with 1 by lia. replace (Z.abs (n * u)) with (n * u) by lia.
    apply rnd_ratio; [lia|lia|]. unfold U. ring. }
  pose proof (div_l p x Hp Hpx a (f_int p x n) NA NI ltac:(lia)) as G. rewrite E in G.
  apply gives_upto; [exact G|lia|]. pose proof (rnd_size (val a) n ltac:(lia)) as R. pose proof (pow_pos k ltac:(lia)).
  rewrite Z.pow_add_r by lia. change (2 ^ 2) with 4. nia.
Qed.

(** Comparisons. *)
Lemma eq0 : forall a, num a -> f_eq a f0 = (val a =? 0).
Proof.
  intros a N. unfold f_eq, SFeqb. rewrite (compare_l p x Hp a f0 N) by (split; [exact Logic.I|reflexivity]).
  change (val f0) with 0. unfold Z.eqb. destruct (Z.compare_spec (val a) 0) as [E|E|E]; destruct (val a); try lia; reflexivity.
Qed.
Lemma lt_l : forall a b, num a -> num b -> f_lt a b = (val a <? val b).
Proof. intros a b A B. unfold f_lt, SFltb. rewrite (compare_l p x Hp a b A B). unfold Z.ltb. destruct (_ ?= _); reflexivity. Qed.
Lemma le_l : forall a b, num a -> num b -> f_le a b = (val a <=? val b).
Proof. intros a b A B. unfold f_le, SFleb. rewrite (compare_l p x Hp a b A B). unfold Z.leb. destruct (_ ?= _); reflexivity. Qed.
Lemma clip_l : forall r v, num (fr_begin r) -> num (fr_end r) -> val (fr_begin r) <= val (fr_end r) -> num v ->
  num (fclip r v) /\ val (fclip r v) = flimit (val (fr_begin r)) (val (fr_end r)) (val v).
Proof.
  intros r v NB NE L NV. unfold fclip, flimit. rewrite (lt_l _ _ NE NV).
  destruct (Z.ltb_spec (val (fr_end r)) (val v)) as [C|C].
  - rewrite (lt_l _ _ NE NB). replace (_ <? _) with false by lia. split; [exact NE|lia].
  - rewrite (lt_l _ _ NV NB). destruct (Z.ltb_spec (val v) (val (fr_begin r))); split; auto; lia.
Qed.

(** One call on values, with the roundings of the type. *)
Definition zacc (b e L A : Z) (i : fpid_in) : Z :=
  let A := if Z.abs (fdiff p x i) <=? L then 0 else A in
  if val (f_i i) =? 0 then A
  else flimit b e (rnd p (A + rnd p (rnd p (ferr p x L i * f_dt i) 1 * val (f_i i)) u) 1).
Definition zp (L : Z) (i : fpid_in) : Z := rnd p (ferr p x L i * val (f_p i)) u.
Definition zd (L last : Z) (i : fpid_in) : Z :=
  rnd p (rnd p (rnd p (ffiltered p x L i - last) 1 * val (f_d i)) u) (f_dt i).
Definition zout (b e L A last : Z) (i : fpid_in) : Z :=
  flimit b e (rnd p (rnd p (zp L i + zacc b e L A i) 1 + zd L last i) 1).

Lemma rnd_zero : forall d, rnd p 0 d = 0.
Proof. reflexivity. Qed.
Lemma process_l : forall r largest s i, frange_ok p x r -> num largest -> 0 <= val largest ->
  upto p x 60 (f_acc s) -> upto p x 32 (f_last s) -> fmoderate p x i ->
  let b := val (fr_begin r) in let e := val (fr_end r) in let L := val largest in
  exists s' v, fprocess p x r largest s i = (s', v) /\
    upto p x 60 (f_acc s') /\ val (f_acc s') = zacc b e L (val (f_acc s)) i /\
    upto p x 32 (f_last s') /\ val (f_last s') = ffiltered p x L i /\
    num v /\ val v = zout b e L (val (f_acc s)) (val (f_last s)) i.
Proof.
  intros r largest s i (RB & RE & R0) NL L0 A0 S0 (M1 & M2 & M3 & M4 & M5 & DT & MF) b e L.
  destruct (upto_sub 30 _ _ ltac:(lia) M1 M2) as [DU DV]. set (d := SFsub p x (f_set i) (f_feedback i)) in *.
  change (30 + 2) with 32 in DU. fold (fdiff p x i) in DV.
  assert (N0 : num f0) by (split; [exact Logic.I|reflexivity]).
  assert (U0 : forall k, 0 <= k -> upto p x k f0).
  { intros k Hk. split; [exact N0|]. change (val f0) with 0. pose proof u_pos. pose proof (pow_pos k Hk). cbn. nia. }
  destruct (opp_l p x largest NL) as [NO EO].
  assert (DEAD : (f_le d largest && f_le f0 d) || (f_le (SFopp largest) d && f_le d f0) = (Z.abs (fdiff p x i) <=? L)).
  { rewrite (le_l d largest), (le_l f0 d), (le_l _ d NO), (le_l d f0), EO, DV by (try apply DU; assumption).
    change (val f0) with 0. fold L. clear - L0. subst L. lia. }
  (* the error and the integral at the start of the call *)
  assert (ER : exists acc0 er, fcalc_error p x largest s i = (mkFPid acc0 (f_last s), er) /\ upto p x 60 acc0 /\
     val acc0 = (if Z.abs (fdiff p x i) <=? L then 0 else val (f_acc s)) /\ upto p x 32 er /\ val er = ferr p x L i /\ er = ferr_data p x L i).
  { unfold fcalc_error. fold d. rewrite DEAD. unfold ferr, ferr_data. fold d. destruct (Z.abs (fdiff p x i) <=? L).
    - exists f0, f0. split; [reflexivity|]. repeat split; try reflexivity; try (apply U0; lia).
    - exists (f_acc s), d. split; [destruct s; reflexivity|]. repeat split; auto; try apply A0; try apply DU. }
  destruct ER as (acc0 & er & E1 & UA & VA & UE & VE & ED).
  destruct (int_l (f_dt i) ltac:(lia)) as [UT VT]. pose proof u_pos as UP.
  (* the proportional term *)
  assert (PT : upto p x 64 (fcalc_p p x er (f_p i)) /\ val (fcalc_p p x er (f_p i)) = zp L i).
  { unfold fcalc_p, zp. rewrite (eq0 (f_p i)) by apply M3. rewrite <- VE. destruct (Z.eqb_spec (val (f_p i)) 0) as [Q|Q].
    - rewrite Q, Z.mul_0_r. split; [apply U0; lia|reflexivity].
    - destruct (upto_mul 32 30 er (f_p i) ltac:(lia) ltac:(lia) ltac:(lia) UE M3) as [X Y]. split; [exact X|exact Y]. }
  (* the integral term *)
  assert (IT : exists acc1, fcalc_i p x r (mkFPid acc0 (f_last s)) er (f_dt i) (f_i i) = (mkFPid acc1 (f_last s), acc1) /\
      upto p x 60 acc1 /\ val acc1 = zacc b e L (val (f_acc s)) i).
  { unfold fcalc_i, zacc. rewrite (eq0 (f_i i)) by apply M4. cbn [f_acc f_last]. destruct (Z.eqb_spec (val (f_i i)) 0) as [Q|Q]; cbn [negb].
    - exists acc0. split; [reflexivity|]. split; [exact UA|exact VA].
    - destruct (upto_mul 32 16 er (f_int p x (f_dt i)) ltac:(lia) ltac:(lia) ltac:(lia) UE UT) as [X1 Y1].
      destruct (upto_mul 50 30 _ (f_i i) ltac:(lia) ltac:(lia) ltac:(lia) X1 M4) as [X2 Y2].
      destruct (upto_add 82 acc0 _ ltac:(lia) (upto_le 60 82 _ ltac:(lia) UA) X2) as [X3 Y3].
      set (w := SFadd p x acc0 _) in *.
      destruct (clip_l r w) as [C1 C2]; [apply RB|apply RE|lia|apply X3|].
      exists (fclip r w). split; [reflexivity|]. split.
      + split; [exact C1|]. rewrite C2. unfold flimit. destruct RB as [_ RB], RE as [_ RE]. lia.
      + rewrite C2. fold b e. f_equal. rewrite Y3, Y2, Y1, VA, VE, VT. f_equal. f_equal. f_equal. f_equal.
        apply rnd_ratio; [exact UP|lia|]. ring. }
  destruct IT as (acc1 & E2 & U1 & V1). destruct PT as [PU PV].
  (* the derivative term *)
  pose proof (MF er (f_dt i) UE) as FU. set (q := f_filter i er (f_dt i)) in *.
  assert (FV : val q = ffiltered p x L i) by (unfold q, ffiltered; rewrite ED; reflexivity).
  assert (D : upto p x 70 (if negb (f_eq (f_d i) f0) then SFdiv p x (SFmul p x (SFsub p x q (f_last s)) (f_d i)) (f_int p x (f_dt i)) else f0) /\
    val (if negb (f_eq (f_d i) f0) then SFdiv p x (SFmul p x (SFsub p x q (f_last s)) (f_d i)) (f_int p x (f_dt i)) else f0) = zd L (val (f_last s)) i).
  { rewrite (eq0 (f_d i)) by apply M5. unfold zd. destruct (Z.eqb_spec (val (f_d i)) 0) as [Q|Q]; cbn [negb].
    - split; [apply U0; lia|]. rewrite Q, Z.mul_0_r, !rnd_zero. reflexivity.
    - destruct (upto_sub 32 q (f_last s) ltac:(lia) FU S0) as [X1 Y1].
      destruct (upto_mul 34 30 _ (f_d i) ltac:(lia) ltac:(lia) ltac:(lia) X1 M5) as [X2 Y2].
      destruct (upto_div 66 _ (f_dt i) ltac:(lia) ltac:(lia) X2) as [X3 Y3].
      split; [exact (upto_le 68 70 _ ltac:(lia) X3)|]. rewrite Y3, Y2, Y1, FV. reflexivity. }
  destruct D as [DDU DDV].
  destruct (upto_add 64 _ _ ltac:(lia) PU (upto_le 60 64 _ ltac:(lia) U1)) as [X1 Y1].
  destruct (upto_add 70 _ _ ltac:(lia) (upto_le 66 70 _ ltac:(lia) X1) DDU) as [X2 Y2].
  unfold fprocess. rewrite E1, E2. unfold fcalc_d. cbn [f_acc f_last]. fold q.
  eexists _, _. split; [reflexivity|]. cbn [f_acc f_last].
  split; [exact U1|]. split; [exact V1|]. split; [exact FU|]. split; [exact FV|].
  match goal with |- num (fclip r ?w) /\ _ => destruct (clip_l r w) as [C1 C2]; [apply RB|apply RE|lia|apply X2|] end.
  split; [exact C1|]. rewrite C2. unfold zout. fold b e. f_equal. rewrite Y2, Y1, PV, V1, DDV. reflexivity.
Qed.

(** Limiting. *)
Lemma flimit_scale : forall b e v k, 0 < k -> flimit (b * k) (e * k) (v * k) = flimit b e v * k.
Proof. intros b e v k Hk. unfold flimit. rewrite Z.mul_min_distr_nonneg_r, Z.mul_max_distr_nonneg_r by lia. reflexivity. Qed.
Lemma flimit_lip : forall b e v w, Z.abs (flimit b e v - flimit b e w) <= Z.abs (v - w).
Proof. intros b e v w. unfold flimit. lia. Qed.
Lemma flimit_in : forall b e v, b <= e -> b <= flimit b e v <= e.
Proof. intros b e v H. unfold flimit. lia. Qed.

(** Sums of rounding errors.  [P] is 2^p, [u] the value 1. *)
Lemma le_div : forall P a b, 0 < P -> P * a <= P * b -> a <= b.
Proof. intros P a b HP H. nia. Qed.
Lemma mul_err : forall P k a e I, P * Z.abs (a - e) <= Z.abs e -> 0 <= P -> Z.abs (e * I) <= k ->
  P * Z.abs (a * I - e * I) <= k.
Proof.
  intros P k a e I H HP B. rewrite <- Z.mul_sub_distr_r, Z.abs_mul. rewrite Z.abs_mul in B. pose proof (Z.abs_nonneg I). nia.
Qed.
Lemma two_steps : forall P u k X Y w, 16777216 <= P -> 0 < u -> 0 <= k -> Z.abs X <= k -> P * Z.abs (Y - X) <= k ->
  2 * P * Z.abs (w - Y) <= P * u + 2 * Z.abs Y ->
  Z.abs w <= 3 * k + u /\ 2 * P * Z.abs (w - X) <= P * u + 6 * k.
Proof.
  intros P v k X Y w HP Hv Hk HX HY HW.
  assert (Y1 : Z.abs (Y - X) <= k) by (apply (le_div P); nia).
  assert (Y2 : Z.abs Y <= 2 * k) by lia.
  assert (W1 : Z.abs (w - Y) <= v + k). { apply (le_div (2 * P)); [lia|]. nia. }
  split; [lia|].
  assert (T : Z.abs (w - X) <= Z.abs (w - Y) + Z.abs (Y - X)) by lia. nia.
Qed.
Lemma cancel_r : forall v a b, 0 < v -> a * v <= b * v -> a <= b.
Proof. intros v a b Hv H. nia. Qed.
Lemma scale_r : forall v c a b, 0 <= v -> c * a <= b -> c * (a * v) <= v * b.
Proof. intros v c a b Hv H. nia. Qed.
Lemma abs_scale : forall v a b, 0 < v -> Z.abs (a * v - b * v) = Z.abs (a - b) * v.
Proof. intros v a b Hv. rewrite <- Z.mul_sub_distr_r, Z.abs_mul, (Z.abs_eq v) by lia. reflexivity. Qed.
Lemma abs_pos : forall v a, 0 < v -> Z.abs (a * v) = Z.abs a * v.
Proof. intros v a Hv. rewrite Z.abs_mul, (Z.abs_eq v) by lia. reflexivity. Qed.
Lemma p_mul : forall P k, 16777216 <= P -> 0 <= k -> 16777216 * k <= P * k.
Proof. intros P k H H0. nia. Qed.
Lemma acc_arith : forall P v M K A a1 a2 a3 e I, 16777216 <= P -> 0 < v -> 0 <= M -> 0 <= K -> Z.abs A <= M ->
  Z.abs (e * I) <= K * v -> P * Z.abs (a1 - e) <= Z.abs e -> 2 * P * Z.abs (a2 * v - a1 * I) <= P * v + 2 * Z.abs (a1 * I) ->
  P * Z.abs (a3 - (A + a2)) <= Z.abs (A + a2) -> P * Z.abs (a3 * v - (A * v + e * I)) <= v * (M + 6 * K + P).
Proof.
  intros P v M K A a1 a2 a3 e I HP Hv HM HK HA HX H1 H2 H3.
  assert (KV : 0 <= K * v) by (apply Z.mul_nonneg_nonneg; lia).
  pose proof (mul_err P (K * v) a1 e I H1 (Z.le_trans 0 16777216 P ltac:(discriminate) HP) HX) as H1'.
  destruct (two_steps P v (K * v) (e * I) (a1 * I) (a2 * v) HP Hv KV HX H1' H2) as [W1 W2].
  assert (A2 : Z.abs a2 <= 3 * K + 1). { rewrite abs_pos in W1 by exact Hv. apply (cancel_r v); [exact Hv|]. clear - W1. lia. }
  assert (H3' : P * Z.abs (a3 * v - (A + a2) * v) <= v * (M + 3 * K + 1)).
  { rewrite abs_scale by exact Hv. apply scale_r; [lia|]. clear - H3 A2 HA. lia. }
  assert (T : Z.abs (a3 * v - (A * v + e * I)) <= Z.abs (a3 * v - (A + a2) * v) + Z.abs (a2 * v - e * I)) by (clear; lia).
  assert (T2 : P * Z.abs (a3 * v - (A * v + e * I)) <= P * (Z.abs (a3 * v - (A + a2) * v) + Z.abs (a2 * v - e * I)))
    by (apply Z.mul_le_mono_nonneg_l; [lia|exact T]).
  pose proof (p_mul P v HP ltac:(lia)) as PV. clear - T2 H3' W2 PV Hv. lia.
Qed.
Lemma out_arith : forall P v M K t A e pw b1 h g d s o W D f,
  16777216 <= P -> 0 < v -> 0 <= M -> 0 <= K -> 1 <= t -> Z.abs A <= M ->
  Z.abs (e * pw) <= K * v -> 2 * P * Z.abs (b1 * v - e * pw) <= P * v + 2 * Z.abs (e * pw) ->
  W = f * D -> Z.abs W <= K * v * t -> P * Z.abs (h - f) <= Z.abs f ->
  2 * P * Z.abs (g * v - h * D) <= P * v + 2 * Z.abs (h * D) ->
  2 * P * Z.abs (d * t - g) <= P * t + 2 * Z.abs g ->
  P * Z.abs (s - (b1 + A)) <= Z.abs (b1 + A) -> P * Z.abs (o - (s + d)) <= Z.abs (s + d) ->
  P * Z.abs (o * (v * t) - (e * pw * t + A * v * t + W)) <= v * t * (4 * (M + 6 * K + P)).
Proof.
  intros P v M K t A e pw b1 h g d s o W D f HP Hv HM HK Ht.
  assert (P0 : 0 < P) by lia. assert (T0 : 0 < t) by lia. assert (P2 : 0 < 2 * P) by lia. assert (P2' : 0 <= 2 * P) by lia.
  pose proof (p_mul P v HP (Z.lt_le_incl _ _ Hv)) as PV. pose proof (p_mul P t HP (Z.lt_le_incl _ _ T0)) as PT.
  pose proof (p_mul P (M + 2 * K + 1) HP ltac:(lia)) as PM.
  assert (KV : 0 <= K * v) by (apply Z.mul_nonneg_nonneg; lia).
  assert (KT : 0 <= K * t) by (apply Z.mul_nonneg_nonneg; lia).
  assert (KVT : 0 <= K * v * t) by (apply Z.mul_nonneg_nonneg; lia).
  assert (VT : 0 < v * t) by (apply Z.mul_pos_pos; lia).
  pose proof (p_mul P (K * v) HP KV) as PKV. pose proof (p_mul P (K * t) HP KT) as PKT.
  assert (PVT : P * v * 1 <= P * v * t) by (apply Z.mul_le_mono_nonneg_l; [apply Z.mul_nonneg_nonneg; lia|exact Ht]).
  assert (S3 : v * t * (2 * (2 * M + 8 * K + 5) + 2 * (M + 2 * K + 1) + (P + 2 * K) + (P + 6 * K + 2) + (P + 6 * K)) <=
    v * t * (2 * (4 * (M + 6 * K + P)))) by (apply Z.mul_le_mono_nonneg_l; lia).
  intros HA HE H1 EW HW Hh Hg Hd Hs Ho.
  assert (B1 : Z.abs b1 <= 2 * K + 1).
  { assert (H : Z.abs (b1 * v - e * pw) <= v + K * v).
    { apply (le_div (2 * P)); [exact P2|]. clear - H1 HE PV PKV KV Hv. lia. }
    assert (G : Z.abs (b1 * v) <= 2 * (K * v) + v) by (clear - H HE; lia). rewrite abs_pos in G by exact Hv.
    apply (cancel_r v); [exact Hv|]. clear - G. lia. }
  rewrite EW in HW. pose proof (mul_err P (K * v * t) h f D Hh (Z.lt_le_incl _ _ P0) HW) as Hh'.
  destruct (two_steps P v (K * v * t) (f * D) (h * D) (g * v) HP Hv KVT HW Hh' Hg) as [G1 G2].
  assert (G3 : Z.abs g <= 3 * (K * t) + 1).
  { rewrite abs_pos in G1 by exact Hv. apply (cancel_r v); [exact Hv|]. clear - G1. lia. }
  assert (D1 : Z.abs (d * t - g) <= t + K * t + 1).
  { apply (le_div (2 * P)); [exact P2|]. clear - Hd G3 PT PKT HP KT Ht. lia. }
  assert (D2 : Z.abs d <= 4 * K + 3).
  { assert (G : Z.abs (d * t) <= 4 * (K * t) + t + 2) by (clear - D1 G3; lia). rewrite abs_pos in G by exact T0.
    apply (cancel_r t); [exact T0|]. clear - G Ht. lia. }
  assert (S1 : Z.abs (s - (b1 + A)) <= M + 2 * K + 1).
  { apply (le_div P); [exact P0|]. clear - Hs B1 HA PM HM HK. lia. }
  assert (S2 : Z.abs s <= 2 * (M + 2 * K + 1)) by (clear - S1 B1 HA; lia).
  (* the parts, in units of 1/(P v t) *)
  assert (E1 : P * Z.abs (o * (v * t) - (s + d) * (v * t)) <= v * t * (2 * M + 8 * K + 5)).
  { rewrite abs_scale by exact VT. apply scale_r; [apply Z.lt_le_incl, VT|]. clear - Ho S2 D2. lia. }
  assert (E2 : P * Z.abs (s * (v * t) - (b1 + A) * (v * t)) <= v * t * (M + 2 * K + 1)).
  { rewrite abs_scale by exact VT. apply scale_r; [apply Z.lt_le_incl, VT|]. clear - Hs B1 HA. lia. }
  assert (E3 : 2 * P * Z.abs (b1 * v * t - e * pw * t) <= t * (v * (P + 2 * K))).
  { rewrite abs_scale by exact T0. apply scale_r; [apply Z.lt_le_incl, T0|]. clear - H1 HE. lia. }
  assert (E4 : 2 * P * Z.abs (d * t * v - g * v) <= v * (t * (P + 6 * K + 2))).
  { rewrite abs_scale by exact Hv. apply scale_r; [apply Z.lt_le_incl, Hv|]. clear - Hd G3 Ht. lia. }
  assert (E5 : 2 * P * Z.abs (g * v - W) <= v * t * (P + 6 * K)).
  { rewrite EW. clear - G2 PVT. lia. }
  assert (T : Z.abs (o * (v * t) - (e * pw * t + A * v * t + W)) <=
     Z.abs (o * (v * t) - (s + d) * (v * t)) + Z.abs (s * (v * t) - (b1 + A) * (v * t)) +
     Z.abs (b1 * v * t - e * pw * t) + Z.abs (d * t * v - g * v) + Z.abs (g * v - W)).
  { replace ((s + d) * (v * t)) with (s * (v * t) + d * t * v) by ring.
    replace ((b1 + A) * (v * t)) with (b1 * v * t + A * v * t) by ring. clear. lia. }
  apply (Z.mul_le_mono_nonneg_l _ _ (2 * P)) in T; [|exact P2'].
  clear - S3 T E1 E2 E3 E4 E5. lia.
Qed.

Lemma double_p : 2 ^ (p + 1) = 2 * 2 ^ p.
Proof. rewrite Z.pow_add_r by lia. lia. Qed.
Lemma acc_step : forall b e L M K A G i, - M <= b <= 0 -> 0 <= e <= M -> b <= A <= e -> 0 <= K ->
  Z.abs (ferr p x L i * f_dt i * val (f_i i)) <= K * u ->
  2 ^ p * Z.abs (zacc b e L A i * u - fintegral_step p x b e L G i) <= 2 ^ p * Z.abs (A * u - G) + u * (M + 6 * K + 2 ^ p) /\
  b <= zacc b e L A i <= e.
Proof.
  intros b e L M K A G i Hb He HA HK HX. pose proof u_pos as UP. pose proof p_big as PB.
  unfold zacc, fintegral_step. cbv zeta.
  set (A0 := if Z.abs (fdiff p x i) <=? L then 0 else A). set (G0 := if Z.abs (fdiff p x i) <=? L then 0 else G).
  assert (R0 : b <= A0 <= e) by (unfold A0; destruct (_ <=? L); lia).
  assert (D0 : Z.abs (A0 * u - G0) <= Z.abs (A * u - G)) by (unfold A0, G0; destruct (_ <=? L); lia).
  assert (C0 : 0 <= u * (M + 6 * K + 2 ^ p)) by (apply Z.mul_nonneg_nonneg; lia).
  apply (Z.mul_le_mono_nonneg_l _ _ (2 ^ p)) in D0; [|lia].
  destruct (val (f_i i) =? 0).
  - split; [clear - D0 C0; lia|exact R0].
  - split; [|apply flimit_in; lia].
    rewrite <- flimit_scale by exact UP.
    set (a1 := rnd p (ferr p x L i * f_dt i) 1) in *. set (a2 := rnd p (a1 * val (f_i i)) u) in *. set (a3 := rnd p (A0 + a2) 1) in *.
    pose proof (rnd_err1 (ferr p x L i * f_dt i)) as R1. fold a1 in R1.
    pose proof (rnd_err (a1 * val (f_i i)) u UP) as R2. fold a2 in R2. rewrite double_p in R2.
    pose proof (rnd_err1 (A0 + a2)) as R3. fold a3 in R3.
    pose proof (acc_arith (2 ^ p) u M K A0 a1 a2 a3 (ferr p x L i * f_dt i) (val (f_i i)) PB UP ltac:(lia) HK ltac:(lia) HX R1 R2 R3) as AR.
    pose proof (flimit_lip (b * u) (e * u) (a3 * u) (G0 + ferr p x L i * f_dt i * val (f_i i))) as LP.
    set (X := ferr p x L i * f_dt i * val (f_i i)) in *.
    assert (T : Z.abs (a3 * u - (G0 + X)) <= Z.abs (a3 * u - (A0 * u + X)) + Z.abs (A0 * u - G0)) by (clear; lia).
    apply (Z.mul_le_mono_nonneg_l _ _ (2 ^ p)) in LP; [|lia]. apply (Z.mul_le_mono_nonneg_l _ _ (2 ^ p)) in T; [|lia].
    clear - LP T AR D0. lia.
Qed.
Lemma out_step : forall b e L M K F A G last i, - M <= b <= 0 -> 0 <= e <= M -> b <= A <= e -> 0 <= K -> 1 <= f_dt i ->
  sized p x L K F i -> Z.abs last <= F ->
  2 ^ p * Z.abs (zout b e L A last i * (u * f_dt i) - fout p x b e L G last [] i) <=
  f_dt i * (2 ^ p * Z.abs (A * u - G)) + u * f_dt i * (5 * (M + 6 * K + 2 ^ p)).
Proof.
  intros b e L M K F A G last i Hb He HA HK Hdt (S1 & S2 & S3 & S4) HL. pose proof u_pos as UP. pose proof p_big as PB.
  destruct (acc_step b e L M K A G i Hb He HA HK S2) as [AS AR].
  unfold fout. cbv zeta. change (flast p x L last []) with last. cbn [app]. unfold fintegral. cbn [fold_left].
  set (G1 := fintegral_step p x b e L G i) in *. unfold zout. set (A1 := zacc b e L A i) in *.
  set (t := f_dt i) in *. set (E := ferr p x L i) in *. set (f := ffiltered p x L i) in *.
  unfold zp, zd. fold E f t. set (b1 := rnd p (E * val (f_p i)) u). set (h := rnd p (f - last) 1).
  set (g := rnd p (h * val (f_d i)) u). set (d := rnd p g t). set (w := rnd p (b1 + A1) 1). set (o := rnd p (w + d) 1).
  assert (UT : 0 < u * t) by (apply Z.mul_pos_pos; lia).
  rewrite <- flimit_scale by exact UT.
  pose proof (rnd_err (E * val (f_p i)) u UP) as R1. fold b1 in R1. rewrite double_p in R1.
  pose proof (rnd_err1 (f - last)) as R2. fold h in R2.
  pose proof (rnd_err (h * val (f_d i)) u UP) as R3. fold g in R3. rewrite double_p in R3.
  pose proof (rnd_err g t ltac:(lia)) as R4. fold d in R4. rewrite double_p in R4.
  pose proof (rnd_err1 (b1 + A1)) as R5. fold w in R5. pose proof (rnd_err1 (w + d)) as R6. fold o in R6.
  assert (HW : Z.abs ((f - last) * val (f_d i)) <= K * u * t).
  { rewrite Z.abs_mul. assert (FL : Z.abs (f - last) <= 2 * F) by (clear - S3 HL; lia).
    apply Z.le_trans with (2 * F * Z.abs (val (f_d i))); [apply Z.mul_le_mono_nonneg_r; [apply Z.abs_nonneg|exact FL]|exact S4]. }
  assert (AM : Z.abs A1 <= M) by (clear - AR Hb He; lia). assert (M0 : 0 <= M) by (clear - Hb; lia).
  pose proof (out_arith (2 ^ p) u M K t A1 E (val (f_p i)) b1 h g d w o _ (val (f_d i)) (f - last) PB UP M0 HK Hdt AM S1 R1
    eq_refl HW R2 R3 R4 R5 R6) as O.
  set (W := (f - last) * val (f_d i)) in *. set (X := E * val (f_p i) * t) in *.
  pose proof (flimit_lip (b * (u * t)) (e * (u * t)) (o * (u * t)) (X + G1 * t + W)) as LP.
  assert (T : Z.abs (o * (u * t) - (X + G1 * t + W)) <= Z.abs (o * (u * t) - (X + A1 * u * t + W)) + Z.abs (A1 * u * t - G1 * t)) by (clear; lia).
  rewrite (abs_scale t (A1 * u) G1) in T by (clear - Hdt; lia).
  assert (P0 : 0 <= 2 ^ p) by (clear - PB; lia).
  apply (Z.mul_le_mono_nonneg_l _ _ (2 ^ p)) in LP; [|exact P0]. apply (Z.mul_le_mono_nonneg_l _ _ (2 ^ p)) in T; [|exact P0].
  apply (Z.mul_le_mono_nonneg_l _ _ t) in AS; [|clear - Hdt; lia].
  clear - LP T O AS. lia.
Qed.
Lemma flast_cons : forall L last j l, flast p x L last (j :: l) = flast p x L (ffiltered p x L j) l.
Proof. intros L last j l. unfold flast. cbn [rev]. destruct (rev l); reflexivity. Qed.
Lemma fout_cons : forall b e L G last j l i,
  fout p x b e L G last (j :: l) i = fout p x b e L (fintegral_step p x b e L G j) (ffiltered p x L j) l i.
Proof. intros. unfold fout. rewrite flast_cons. reflexivity. Qed.

Lemma run_l : forall r largest M K F ins s G n0, frange_ok p x r -> num largest -> 0 <= val largest ->
  let b := val (fr_begin r) in let e := val (fr_end r) in let L := val largest in
  - M <= b -> e <= M -> 0 <= K ->
  upto p x 60 (f_acc s) -> b <= val (f_acc s) <= e -> upto p x 32 (f_last s) -> Z.abs (val (f_last s)) <= F ->
  Forall (fun i => fmoderate p x i /\ sized p x L K F i) ins ->
  0 <= n0 -> 2 ^ p * Z.abs (val (f_acc s) * u - G) <= u * bound p M K n0 ->
  exists s' vs, fpid_run p x r largest s ins = (s', vs) /\ length vs = length ins /\
    Forall (fun v => num v /\ b <= val v <= e) vs /\ num (f_acc s') /\ b <= val (f_acc s') <= e /\
    2 ^ p * Z.abs (val (f_acc s') * u - fintegral p x b e L G ins) <= u * bound p M K (n0 + Z.of_nat (length ins)) /\
    forall n i, nth_error ins n = Some i -> exists v, nth_error vs n = Some v /\
      2 ^ p * Z.abs (val v * (u * f_dt i) - fout p x b e L G (val (f_last s)) (firstn n ins) i) <=
        u * f_dt i * bound p M K (n0 + Z.of_nat n + 5).
Proof.
  intros r largest M K F ins. induction ins as [|i ins IH]; intros s G n0 R NL L0 b e L Hb He HK UA HA UL HL FV N0 B0.
  - exists s, []. cbn [fpid_run length Z.of_nat]. rewrite Z.add_0_r. repeat split; auto; try apply UA; try lia.
    intros n i H. destruct n; discriminate.
  - inversion FV as [|? ? [Fm Fs] Fr]; subst.
    destruct (process_l r largest s i R NL L0 UA UL Fm) as (s1 & v & E1 & UA1 & VA1 & UL1 & VL1 & NV & VV).
    fold b e L in VA1, VL1, VV. pose proof R as (_ & _ & R0). fold b e in R0.
    pose proof Fs as (Z1 & Z2 & Z3 & Z4).
    assert (Hb' : - M <= b <= 0) by lia. assert (He' : 0 <= e <= M) by lia.
    destruct (acc_step b e L M K (val (f_acc s)) G i Hb' He' HA HK Z2) as [AS AR]. rewrite <- VA1 in AS, AR.
    assert (B1 : 2 ^ p * Z.abs (val (f_acc s1) * u - fintegral_step p x b e L G i) <= u * bound p M K (n0 + 1)).
    { unfold bound in *. clear - AS B0. lia. }
    destruct (IH s1 (fintegral_step p x b e L G i) (n0 + 1) R NL L0 Hb He HK UA1 AR UL1 ltac:(rewrite VL1; exact Z3) Fr ltac:(lia) B1)
      as (s2 & vs & E2 & LV & FO & NA & RA & BA & EV).
    fold b e L in E2, LV, FO, NA, RA, BA, EV.
    exists s2, (v :: vs). split; [cbn [fpid_run]; rewrite E1, E2; reflexivity|]. split; [cbn [length]; lia|].
    split; [constructor; [|exact FO]; split; [exact NV|rewrite VV; apply flimit_in; lia]|]. split; [exact NA|]. split; [exact RA|].
    split; [cbn [length]; replace (n0 + Z.of_nat (S (length ins))) with (n0 + 1 + Z.of_nat (length ins)) by lia; exact BA|].
    intros n j H. destruct n as [|n]; cbn [nth_error firstn] in *.
    + injection H as <-. exists v. split; [reflexivity|]. rewrite VV.
      destruct Fm as (_ & _ & _ & _ & _ & DT & _).
      pose proof (out_step b e L M K F (val (f_acc s)) G (val (f_last s)) i Hb' He' HA HK ltac:(lia) Fs HL) as O.
      unfold bound in *. cbn [Z.of_nat]. rewrite Z.add_0_r.
      apply (Z.mul_le_mono_nonneg_l _ _ (f_dt i)) in B0; [|lia]. clear - O B0. lia.
    + destruct (EV n j H) as (w & W1 & W2). exists w. split; [exact W1|]. rewrite fout_cons, <- VL1.
      replace (n0 + Z.of_nat (S n) + 5) with (n0 + 1 + Z.of_nat n + 5) by lia. exact W2.
Qed.

(** Whole numbers. *)
Lemma rnd_int : forall z d, 0 < d -> Z.abs z < 2 ^ p -> rnd p (z * u * d) d = z * u.
Proof.
  intros z d Hd Hz. rewrite (rnd_ratio (z * u * d) d (z * u) 1) by (try lia; ring). apply rnd_exact; [exact Hp|].
  exists z, (scale p x). repeat split; [unfold scale; pose proof (emin_neg p x Hp Hpx); lia|exact Hz].
Qed.
Lemma rnd_int1 : forall z, Z.abs z < 2 ^ p -> rnd p (z * u) 1 = z * u.
Proof. intros z Hz. rewrite <- (rnd_int z 1) at 2 by (try lia; exact Hz). f_equal. lia. Qed.
Lemma leb_scale : forall a b, (Z.abs (a * u) <=? b * u) = (Z.abs a <=? b).
Proof. intros a b. pose proof u_pos as UP. rewrite abs_pos by exact UP. destruct (Z.leb_spec (Z.abs a) b), (Z.leb_spec (Z.abs a * u) (b * u)); nia. Qed.
Lemma limit_scale : forall r v, flimit (r_begin r * u) (r_end r * u) (v * u) = limit r v * u.
Proof. intros r v. apply flimit_scale, u_pos. Qed.
Lemma limit_in : forall r v, r_begin r <= r_end r -> r_begin r <= limit r v <= r_end r.
Proof. intros r v H. unfold limit. lia. Qed.

Lemma whole_step : forall r largest A last fi i, same_in p x fi i -> whole largest last [i] -> 1 <= i_dt i ->
  - 2 ^ 22 <= r_begin r <= 0 -> 0 <= r_end r <= 2 ^ 22 -> r_begin r <= A <= r_end r -> 0 <= largest ->
  let b := r_begin r * u in let e := r_end r * u in let L := largest * u in
  zacc b e L (A * u) fi = integral_step r largest A i * u /\ ffiltered p x L fi = filtered largest i * u /\
  r_begin r <= integral_step r largest A i <= r_end r /\
  zout b e L (A * u) (last * u) fi = pid_output r largest A last [] i * u.
Proof.
  intros r largest A last fi i (S1 & S2 & S3 & S4 & S5 & SD & SF) (W1 & W2 & W3 & W4 & W5 & W6 & W7 & _) HD Hb He HA HL b e L.
  pose proof p_big as PB. pose proof u_pos as UP. change (2 ^ 22) with 4194304 in *.
  destruct S1 as [N1 V1], S2 as [N2 V2], S3 as [N3 V3], S4 as [N4 V4], S5 as [N5 V5].
  assert (FD : fdiff p x fi = raw_error i * u).
  { unfold fdiff, raw_error in *. rewrite V1, V2, <- Z.mul_sub_distr_r. apply rnd_int1. lia. }
  assert (FE : ferr p x L fi = err largest i * u).
  { unfold ferr, err, L. rewrite FD, leb_scale. destruct (_ <=? largest); lia. }
  assert (DH : holds p x (ferr_data p x L fi) (err largest i)).
  { unfold ferr_data, err, L. rewrite FD, leb_scale. destruct (_ <=? largest).
    - split; [split; [exact Logic.I|reflexivity]|reflexivity].
    - assert (G : gives p x (raw_error i * u) (SFsub p x (f_set fi) (f_feedback fi))).
      { rewrite <- FD. apply sub_l; assumption. }
      assert (Z.abs (raw_error i * u) <= 2 ^ 30 * u) by (rewrite abs_pos by exact UP; change (2 ^ 30) with 1073741824; nia).
      apply gives_upto with (k := 30) in G; [|lia|exact H]. split; [apply G|apply G]. }
  assert (FF : ffiltered p x L fi = filtered largest i * u).
  { unfold ffiltered, filtered. rewrite <- SD. apply SF. exact DH. }
  assert (ZA : zacc b e L (A * u) fi = integral_step r largest A i * u /\ r_begin r <= integral_step r largest A i <= r_end r).
  { unfold zacc, integral_step. cbv zeta. rewrite FE, V4, SD, FD. unfold L. rewrite leb_scale.
    replace (i_i i * u =? 0) with (i_i i =? 0) by (destruct (Z.eqb_spec (i_i i) 0), (Z.eqb_spec (i_i i * u) 0); nia).
    set (A0 := if Z.abs (raw_error i) <=? largest then 0 else A).
    assert (R0 : r_begin r <= A0 <= r_end r) by (unfold A0; destruct (_ <=? largest); lia).
    replace (if Z.abs (raw_error i) <=? largest then 0 else A * u) with (A0 * u) by (unfold A0; destruct (_ <=? largest); lia).
    destruct (i_i i =? 0); [auto|]. split; [|apply limit_in; lia].
    replace (err largest i * u * i_dt i) with (err largest i * i_dt i * u) by ring. rewrite rnd_int1 by lia.
    replace (err largest i * i_dt i * u * (i_i i * u)) with (err largest i * i_dt i * i_i i * u * u) by ring.
    rewrite rnd_int by lia. rewrite <- Z.mul_add_distr_r. rewrite rnd_int1 by lia. apply limit_scale. }
  destruct ZA as [ZA IA]. split; [exact ZA|]. split; [exact FF|]. split; [exact IA|].
  unfold zout. rewrite ZA. unfold zp, zd. rewrite FE, FF, V3, V5, SD. unfold pid_output. cbv zeta.
  change (last_filtered largest last []) with last. cbn [app]. unfold integral. cbn [fold_left].
  set (J := integral_step r largest A i) in *.
  replace (err largest i * u * (i_p i * u)) with (i_p i * err largest i * u * u) by ring. rewrite rnd_int by lia.
  rewrite <- Z.mul_sub_distr_r. rewrite (rnd_int1 (filtered largest i - last)) by lia.
  replace ((filtered largest i - last) * u * (i_d i * u)) with (i_d i * (filtered largest i - last) * u * u) by ring.
  rewrite (rnd_int (i_d i * (filtered largest i - last))) by lia.
  destruct W7 as [q W7].
  assert (DQ : (if i_d i =? 0 then 0 else div0 (i_d i * (filtered largest i - last)) (i_dt i)) = q).
  { destruct (Z.eqb_spec (i_d i) 0) as [Q|Q].
    - rewrite Q in W7. nia.
    - rewrite W7. unfold div0. rewrite Z.abs_mul, (Z.abs_eq (i_dt i)), Z.div_mul by lia.
      rewrite Z.sgn_mul, (Z.sgn_pos (i_dt i)), Z.mul_1_r by lia. rewrite Z.mul_comm. apply Z.abs_sgn. }
  rewrite DQ, W7. replace (q * i_dt i * u) with (q * u * i_dt i) by ring.
  assert (Q : Z.abs q <= 4194304). { rewrite W7, Z.abs_mul, (Z.abs_eq (i_dt i)) in W6 by lia. nia. }
  rewrite rnd_int by lia. rewrite <- Z.mul_add_distr_r, rnd_int1 by lia. rewrite <- Z.mul_add_distr_r, rnd_int1 by lia.
  unfold b, e. rewrite limit_scale. reflexivity.
Qed.
Lemma last_cons : forall largest last j l, last_filtered largest last (j :: l) = last_filtered largest (filtered largest j) l.
Proof. intros. unfold last_filtered. cbn [rev]. destruct (rev l); reflexivity. Qed.
Lemma whole_run : forall fr largest r lg fins ins s A last, frange_ok p x fr -> holds p x largest lg -> 0 <= lg ->
  holds p x (fr_begin fr) (r_begin r) -> holds p x (fr_end fr) (r_end r) ->
  - 2 ^ 22 <= r_begin r <= 0 -> 0 <= r_end r <= 2 ^ 22 ->
  Forall (fmoderate p x) fins -> Forall2 (same_in p x) fins ins -> whole lg last ins ->
  holds p x (f_acc s) A -> r_begin r <= A <= r_end r -> holds p x (f_last s) last -> upto p x 32 (f_last s) ->
  exists s' vs, fpid_run p x fr largest s fins = (s', vs) /\ length vs = length ins /\
    holds p x (f_acc s') (integral r lg A ins) /\
    forall n i, nth_error ins n = Some i -> exists v, nth_error vs n = Some v /\
      holds p x v (pid_output r lg A last (firstn n ins) i).
Proof.
  intros fr largest r lg fins. induction fins as [|fi fins IH]; intros ins s A last R HL L0 HB HE Hb He FM F2 W HA RA HS US.
  - inversion F2; subst. exists s, []. repeat split; try apply HA. intros n i H. destruct n; discriminate.
  - inversion F2 as [|? i ? ins' S1 S2]; subst. inversion FM as [|? ? M1 M2]; subst.
    pose proof u_pos as UP. destruct HL as [NL VL], HB as [NB VB], HE as [NE VE], HA as [NA VA], HS as [NS VS].
    assert (UA : upto p x 60 (f_acc s)).
    { split; [exact NA|]. rewrite VA, abs_pos by exact UP. change (2 ^ 60) with 1152921504606846976. change (2 ^ 22) with 4194304 in *. nia. }
    destruct (process_l fr largest s fi R NL ltac:(rewrite VL; nia) UA US M1) as (s1 & v & E1 & UA1 & VA1 & UL1 & VL1 & NV & VV).
    rewrite VB, VE, VL, VA in VA1, VV. rewrite VL in VL1. rewrite VS in VV.
    assert (W0 : whole lg last [i]) by (cbn [whole] in *; tauto).
    assert (DT : 1 <= i_dt i). { destruct S1 as (_ & _ & _ & _ & _ & <- & _). destruct M1 as (_ & _ & _ & _ & _ & DT & _). lia. }
    destruct (whole_step r lg A last fi i S1 W0 DT Hb He RA L0) as (Z1 & Z2 & Z3 & Z4).
    rewrite Z1 in VA1. rewrite Z2 in VL1. rewrite Z4 in VV.
    destruct (IH ins' s1 (integral_step r lg A i) (filtered lg i) R ltac:(split; assumption) L0 ltac:(split; assumption) ltac:(split; assumption)
      Hb He M2 S2 ltac:(cbn [whole] in W; tauto) ltac:(split; [apply UA1|exact VA1]) Z3 ltac:(split; [apply UL1|exact VL1]) UL1)
      as (s2 & vs & E2 & LV & AV & EV).
    exists s2, (v :: vs). split; [cbn [fpid_run]; rewrite E1, E2; reflexivity|]. split; [cbn [length]; lia|]. split; [exact AV|].
    intros n j H. destruct n as [|n]; cbn [nth_error firstn] in *.
    + injection H as <-. exists v. split; [reflexivity|]. split; assumption.
    + destruct (EV n j H) as (w & W1 & W2). exists w. split; [exact W1|].
      replace (pid_output r lg A last (i :: firstn n ins') j) with
        (pid_output r lg (integral_step r lg A i) (filtered lg i) (firstn n ins') j); [exact W2|].
      unfold pid_output. rewrite last_cons. reflexivity.
Qed.
(** In the dead band the integral becomes zero whatever it was, also NaN. *)
Lemma recover : forall r largest s i, ok_range p x r -> in_frange p x r f0 -> valid p x largest -> le_f p x f0 largest ->
  valid p x (f_set i) -> valid p x (f_feedback i) -> fin (f_i i) -> 0 <= f_dt i < 65536 ->
  le_f p x (SFopp largest) (SFsub p x (f_set i) (f_feedback i)) -> le_f p x (SFsub p x (f_set i) (f_feedback i)) largest ->
  exists b, f_acc (fst (fprocess p x r largest s i)) = S754_zero b.
Proof.
  intros r largest s i (VB & VE & BE) [R1 R2] VL L0 V1 V2 FI HT D1 D2.
  pose proof (proj2 (dead_iff p x Hp Hpx largest i VL L0 V1 V2) (conj D1 D2)) as DI. cbv zeta in DI.
  unfold fprocess, fcalc_error. rewrite DI.
  assert (CI : exists b l, fst (fcalc_i p x r (mkFPid f0 (f_last s)) f0 (f_dt i) (f_i i)) = mkFPid (S754_zero b) l).
  { unfold fcalc_i. destruct (negb _); [|eexists _, _; reflexivity]. cbn [f_acc f_last fst].
    assert (FT : fin (f_int p x (f_dt i))).
    { apply (int_l (f_dt i) HT). }
    assert (Z1 : exists b, SFmul p x f0 (f_int p x (f_dt i)) = S754_zero b).
    { destruct (f_int p x (f_dt i)) as [b|b| |b m e]; try contradiction; eexists; reflexivity. }
    destruct Z1 as [b Z1]. rewrite Z1.
    assert (Z2 : exists c, SFmul p x (S754_zero b) (f_i i) = S754_zero c).
    { destruct (f_i i) as [c|c| |c m e]; try contradiction; eexists; reflexivity. }
    destruct Z2 as [c Z2]. rewrite Z2.
    assert (Z3 : exists t, SFadd p x f0 (S754_zero c) = S754_zero t) by (destruct c; eexists; reflexivity).
    destruct Z3 as [t Z3]. rewrite Z3. exists t, (f_last s). f_equal. unfold fclip.
    assert (E1 : f_lt (fr_end r) (S754_zero t) = false).
    { destruct (f_lt (fr_end r) (S754_zero t)) eqn:E; [|reflexivity]. exfalso. unfold f_lt, SFltb in E.
      destruct (fr_end r) as [b'|[]| |b' m e]; try discriminate; [exact R2|].
      unfold le_f in R2. destruct b'; [|discriminate]. change (0 <= - (Z.pos m * 2 ^ (e - emin p x))) in R2. revert R2.
      assert (0 < Z.pos m * 2 ^ (e - emin p x)).
      { apply Z.mul_pos_pos; [lia|]. apply Z.pow_pos_nonneg; [lia|].
        pose proof (bounded_l p x Hp m e VE) as B. lia. } lia. }
    assert (E2 : f_lt (S754_zero t) (fr_begin r) = false).
    { destruct (f_lt (S754_zero t) (fr_begin r)) eqn:E; [|reflexivity]. exfalso. unfold f_lt, SFltb in E.
      destruct (fr_begin r) as [b'|[]| |b' m e]; try discriminate; [exact R1|].
      unfold le_f in R1. destruct b'; [discriminate|]. change (Z.pos m * 2 ^ (e - emin p x) <= 0) in R1. revert R1.
      assert (0 < Z.pos m * 2 ^ (e - emin p x)).
      { apply Z.mul_pos_pos; [lia|]. apply Z.pow_pos_nonneg; [lia|].
        pose proof (bounded_l p x Hp m e VB) as B. lia. } lia. }
    rewrite E1, E2. reflexivity. }
  destruct CI as (b & l & CI). destruct (fcalc_i _ _ _ _ _ _ _) as [s1 it]. cbn [fst] in CI. subst s1.
  unfold fcalc_d. cbn [fst f_acc]. exists b. reflexivity.
Qed.

End Format.
