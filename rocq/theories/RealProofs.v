(** Proofs about WriteReal in floating point. *)
Require Import ZArith List Bool Lia ZifyBool.
Import ListNotations.
From Verif Require Import Base BaseFacts TextModel TextSpec TextProofs RealModel RealSpec.
Open Scope Z_scope.
Ltac Zify.zify_post_hook ::= idtac.

Lemma rne_err : forall n d, 0 < d -> 2 * Z.abs (rne n d * d - n) <= d.
Proof.
  intros n d Hd. unfold rne. cbv zeta.
  pose proof (Z.div_mod n d ltac:(lia)) as E. pose proof (Z.mod_pos_bound n d Hd) as B.
  set (k := n / d) in *. set (r := n mod d) in *. clearbody k r.
  destruct (2 * r <? d) eqn:C1; [nia|]. destruct (d <? 2 * r) eqn:C2; [nia|].
  destruct (Z.even k); nia.
Qed.
Lemma rne_low : forall n d, n / d <= rne n d <= n / d + 1.
Proof.
  intros n d. unfold rne. cbv zeta. destruct (_ <? d); [lia|]. destruct (d <? _); [lia|]. destruct (Z.even _); lia.
Qed.
Lemma rne_exact : forall k d, 0 < d -> rne (k * d) d = k.
Proof.
  intros k d Hd. unfold rne. cbv zeta. rewrite Z.mod_mul, Z.div_mul by lia. replace (2 * 0 <? d) with true by lia. reflexivity.
Qed.

Section P.
Variables p s : Z.
Hypothesis Hp : 24 <= p.
Hypothesis Hs : p + 5 <= s.

Lemma spacing_nonneg : forall q, 0 <= spacing p q.
Proof. intros q. unfold spacing. lia. Qed.
Lemma pow_pos : forall e, 0 <= e -> 0 < 2 ^ e.
Proof. intros e He. apply Z.pow_pos_nonneg; lia. Qed.
Lemma pow_split : forall a b, 0 <= a <= b -> 2 ^ b = 2 ^ a * 2 ^ (b - a).
Proof. intros a b H. rewrite <- Z.pow_add_r by lia. f_equal. lia. Qed.

(** The spacing is at most 2^(1-p) of the number, or the smallest. *)
Lemma spacing_rel : forall q, 0 <= q -> spacing p q = 0 \/ 2 ^ spacing p q * 2 ^ p <= 2 * q.
Proof.
  intros q Hq. unfold spacing. destruct (Z.le_gt_cases (Z.log2 q + 1 - p) 0) as [L|L].
  - left. lia.
  - right. replace (Z.max 0 (Z.log2 q + 1 - p)) with (Z.log2 q + 1 - p) by lia.
    rewrite <- Z.pow_add_r by lia. replace (Z.log2 q + 1 - p + p) with (Z.succ (Z.log2 q)) by lia.
    rewrite Z.pow_succ_r by apply Z.log2_nonneg.
    assert (0 < q). { destruct (Z.eq_dec q 0) as [->|]; [|lia]. change (Z.log2 0) with 0 in L. lia. }
    pose proof (Z.log2_spec q H) as B. lia.
Qed.
Lemma fl_err : forall n d, 0 <= n -> 0 < d -> 2 * Z.abs (fl p n d * d - n) <= d * 2 ^ spacing p (n / d).
Proof.
  intros n d Hn Hd. unfold fl. set (e := spacing p (n / d)).
  assert (P : 0 < 2 ^ e) by (apply pow_pos; apply spacing_nonneg).
  pose proof (rne_err n (d * 2 ^ e) ltac:(nia)) as B.
  replace (rne n (d * 2 ^ e) * 2 ^ e * d) with (rne n (d * 2 ^ e) * (d * 2 ^ e)) by ring. exact B.
Qed.
(** The relative error, or at most half the smallest number. *)
Lemma fl_rel : forall n d, 0 <= n -> 0 < d ->
  2 * Z.abs (fl p n d * d - n) <= d \/ 2 ^ p * Z.abs (fl p n d * d - n) <= n.
Proof.
  intros n d Hn Hd. pose proof (fl_err n d Hn Hd) as B.
  assert (Q : 0 <= n / d) by (apply Z.div_pos; lia).
  destruct (spacing_rel (n / d) Q) as [E|E].
  - left. rewrite E in B. rewrite Z.pow_0_r, Z.mul_1_r in B. exact B.
  - right. pose proof (Z.mul_div_le n d Hd) as M. set (x := Z.abs (fl p n d * d - n)) in *.
    set (u := 2 ^ spacing p (n / d)) in *. set (w := 2 ^ p) in *. set (q := n / d) in *.
    assert (0 < w) by (apply pow_pos; lia). clearbody x u w q. nia.
Qed.
Lemma fl_rel1 : forall n, 0 <= n -> 2 ^ p * Z.abs (fl p n 1 - n) <= n.
Proof.
  intros n Hn. destruct (fl_rel n 1 Hn ltac:(lia)) as [B|B]; rewrite Z.mul_1_r in B; [|exact B].
  replace (Z.abs (fl p n 1 - n)) with 0 by lia. lia.
Qed.

Lemma fl_exact : forall x, 0 <= x -> is_float p x -> fl p x 1 = x.
Proof.
  intros x Hx (m & e & He & Hm & ->). unfold fl. rewrite Z.div_1_r, Z.mul_1_l.
  set (u := spacing p (m * 2 ^ e)).
  assert (P : 0 < 2 ^ e) by (apply pow_pos; exact He).
  assert (U : 0 <= u <= e).
  { split; [apply spacing_nonneg|]. unfold u, spacing. destruct (Z.eq_dec m 0) as [->|N].
    - cbn [Z.mul Z.log2]. lia.
    - assert (M0 : 0 < m) by nia. rewrite Z.mul_comm. rewrite Z.mul_comm. rewrite Z.log2_mul_pow2 by lia.
      assert (Z.log2 m < p); [|lia]. apply Z.log2_lt_pow2; lia. }
  rewrite (pow_split u e U). replace (m * (2 ^ u * 2 ^ (e - u))) with (m * 2 ^ (e - u) * 2 ^ u) by ring.
  rewrite rne_exact by (apply pow_pos; lia). reflexivity.
Qed.

Lemma fl_range : forall n d, 0 <= n -> 0 < d -> 0 <= fl p n d.
Proof.
  intros n d Hn Hd. unfold fl. set (e := spacing p (n / d)).
  assert (P : 0 < 2 ^ e) by (apply pow_pos; apply spacing_nonneg).
  pose proof (rne_low n (d * 2 ^ e)) as B. assert (0 <= n / (d * 2 ^ e)) by (apply Z.div_pos; nia). nia.
Qed.

Lemma fl_float : forall n d, 0 <= n -> 0 < d -> is_float p (fl p n d).
Proof.
  intros n d Hn Hd. unfold fl. set (q := n / d). set (e := spacing p q).
  assert (E0 : 0 <= e) by apply spacing_nonneg.
  assert (P : 0 < 2 ^ e) by (apply pow_pos; exact E0).
  assert (Q : 0 <= q) by (apply Z.div_pos; lia).
  pose proof (rne_low n (d * 2 ^ e)) as B. rewrite <- Z.div_div in B by lia. fold q in B.
  assert (K0 : 0 <= q / 2 ^ e) by (apply Z.div_pos; lia).
  assert (K : q / 2 ^ e < 2 ^ p).
  { apply Z.div_lt_upper_bound; [exact P|]. rewrite <- Z.pow_add_r by lia.
    destruct (Z.eq_dec q 0) as [->|N]; [apply pow_pos; lia|].
    pose proof (Z.log2_spec q ltac:(lia)) as [_ L].
    apply Z.lt_le_trans with (1 := L). apply Z.pow_le_mono_r; [lia|]. unfold e, spacing. lia. }
  set (r := rne n (d * 2 ^ e)) in *. clearbody r.
  destruct (Z.eq_dec r (2 ^ p)) as [->|N].
  - exists 1, (p + e). split; [lia|]. split; [change (Z.abs 1) with (2 ^ 0); apply Z.pow_lt_mono_r; lia|].
    rewrite Z.pow_add_r by lia. ring.
  - exists r, e. split; [exact E0|]. split; [lia|reflexivity].
Qed.

(** Integral and fractional part of a number are numbers. *)
Lemma float_parts : forall x, 0 <= x -> is_float p x -> is_float p (x / 2 ^ s * 2 ^ s) /\ is_float p (x mod 2 ^ s).
Proof.
  intros x Hx (m & e & He & Hm & ->).
  assert (P : 0 < 2 ^ e) by (apply pow_pos; exact He). assert (M0 : 0 <= m) by nia.
  destruct (Z.le_gt_cases s e) as [L|L].
  - rewrite (pow_split s e) by lia. replace (m * (2 ^ s * 2 ^ (e - s))) with (m * 2 ^ (e - s) * 2 ^ s) by ring.
    rewrite Z.div_mul, Z.mod_mul by (pose proof (pow_pos s); lia). split.
    + exists m, e. rewrite (pow_split s e) by lia. repeat split; try assumption. ring.
    + exists 0, 0. split; [lia|]. split; [apply pow_pos; lia|reflexivity].
  - rewrite (pow_split e s) by lia. assert (P2 : 0 < 2 ^ (s - e)) by (apply pow_pos; lia).
    replace (2 ^ e * 2 ^ (s - e)) with (2 ^ (s - e) * 2 ^ e) by ring.
    rewrite Z.div_mul_cancel_r by lia. rewrite Z.mul_mod_distr_r by lia. split.
    + exists (m / 2 ^ (s - e)), s. split; [lia|]. split.
      * rewrite Z.abs_eq by (apply Z.div_pos; lia). apply Z.le_lt_trans with m; [|lia].
        apply Z.div_le_upper_bound; [lia|]. nia.
      * rewrite (pow_split e s) by lia. ring.
    + exists (m mod 2 ^ (s - e)), e. split; [exact He|]. split; [|reflexivity].
      rewrite Z.abs_eq by (apply Z.mod_pos_bound; lia). apply Z.le_lt_trans with m; [|lia]. apply Z.mod_le; lia.
Qed.

(** Splitting off the integral part is exact. *)
Lemma split_exact : forall x, 0 <= x -> is_float p x -> fl_sub p x (fl_int p s (x / 2 ^ s)) = x mod 2 ^ s.
Proof.
  intros x Hx F. assert (P : 0 < 2 ^ s) by (apply pow_pos; lia).
  destruct (float_parts x Hx F) as [F1 F2]. unfold fl_int.
  assert (Q : 0 <= x / 2 ^ s) by (apply Z.div_pos; lia).
  rewrite fl_exact by (try exact F1; apply Z.mul_nonneg_nonneg; lia).
  pose proof (Z.div_mod x (2 ^ s) ltac:(lia)) as D. pose proof (Z.mod_pos_bound x (2 ^ s) P) as B.
  unfold fl_sub. set (a := x / 2 ^ s * 2 ^ s) in *.
  assert (E : x - a = x mod 2 ^ s) by (unfold a; clear - D; rewrite Z.mul_comm; lia).
  replace (x <? a) with false by lia. rewrite E. apply fl_exact; [lia|exact F2].
Qed.

(** Ten times a fraction never rounds up to ten. *)
Lemma below_ten : forall r, 0 <= r < 2 ^ s -> is_float p r -> 0 <= fl p (r * 10) 1 < 10 * 2 ^ s.
Proof.
  intros r Hr (m & e & He & Hm & E). split; [apply fl_range; lia|].
  assert (P : 0 < 2 ^ (s - p)) by (apply pow_pos; lia).
  assert (S : 2 ^ s = 2 ^ p * 2 ^ (s - p)) by (apply pow_split; lia).
  assert (R : r <= 2 ^ s - 2 ^ (s - p)).
  { destruct (Z.le_gt_cases (s - p) e) as [L|L].
    - destruct (Z.le_gt_cases s e) as [L2|L2].
      + assert (2 ^ s <= 2 ^ e) by (apply Z.pow_le_mono_r; lia). assert (m <= 0) by nia.
        assert (r <= 0) by nia. assert (2 ^ (s - p) <= 2 ^ s) by (apply Z.pow_le_mono_r; lia). lia.
      + assert (V : 2 ^ s = 2 ^ e * 2 ^ (s - e)) by (apply pow_split; lia).
        assert (G : 2 ^ (s - p) <= 2 ^ e) by (apply Z.pow_le_mono_r; lia).
        assert (G0 : 0 < 2 ^ e) by (apply pow_pos; lia).
        set (v := 2 ^ (s - e)) in *. set (w := 2 ^ e) in *. clearbody v w. clear - Hr E V G G0.
        assert (m < v) by nia. nia.
    - assert (E2 : 2 ^ (e + p) <= 2 ^ (s - 1)) by (apply Z.pow_le_mono_r; lia).
      assert (E3 : 2 ^ (s - p) <= 2 ^ (s - 1)) by (apply Z.pow_le_mono_r; lia).
      rewrite Z.pow_add_r in E2 by lia. pose proof (pow_pos e He).
      assert (E4 : 2 ^ s = 2 * 2 ^ (s - 1)) by (rewrite <- Z.pow_succ_r by lia; f_equal; lia).
      assert (r <= 2 ^ e * 2 ^ p) by nia. lia. }
  pose proof (fl_err (r * 10) 1 ltac:(lia) ltac:(lia)) as B. rewrite Z.div_1_r, Z.mul_1_l, Z.mul_1_r in B.
  assert (U : 2 ^ spacing p (r * 10) <= 16 * 2 ^ (s - p)).
  { change 16 with (2 ^ 4). rewrite <- Z.pow_add_r by lia. apply Z.pow_le_mono_r; [lia|]. unfold spacing.
    apply Z.max_lub; [lia|]. destruct (Z.eq_dec r 0) as [->|N]; [change (Z.log2 (0 * 10)) with 0; lia|].
    assert (Z.log2 (r * 10) < s + 4); [|lia]. apply Z.log2_lt_pow2; [lia|].
    rewrite Z.pow_add_r by lia. change (2 ^ 4) with 16. lia. }
  lia.
Qed.

Lemma pow10_pos : forall k, 0 < 10 ^ Z.of_nat k.
Proof. intros k. apply Z.pow_pos_nonneg; lia. Qed.

(** The decimals: exactly k digits, whose value is the fraction but for less than a unit and the
    errors of the multiplications. *)
Lemma fl_decimals_l : forall k iw r, iw = 16 \/ iw = 32 -> 0 <= r < 2 ^ s -> is_float p r ->
  exists t, fl_decimals p s k iw r = Some t /\ length t = k /\ Forall (is_digit 10) t /\
    let F := value 10 t in
    0 <= F < 10 ^ Z.of_nat k /\
    9 * 2 ^ p * (F * 2 ^ s - r * 10 ^ Z.of_nat k) <= 10 * 2 ^ s * (10 ^ Z.of_nat k - 1) /\
    9 * 2 ^ p * (r * 10 ^ Z.of_nat k - 2 ^ s - F * 2 ^ s) <= 10 * 2 ^ s * (10 ^ Z.of_nat k - 1).
Proof.
  assert (O : 0 < 2 ^ s) by (apply pow_pos; lia). assert (PP : 0 < 2 ^ p) by (apply pow_pos; lia).
  induction k as [|k IH]; intros iw r Hi Hr F.
  - exists []. cbn [fl_decimals length Z.of_nat]. split; [reflexivity|]. split; [reflexivity|]. split; [constructor|].
    cbv zeta. rewrite Z.pow_0_r. change (value 10 []) with 0.
    split; [lia|]. set (a := 2 ^ s) in *. set (b := 2 ^ p) in *. clearbody a b. split; nia.
  - cbn [fl_decimals]. pose proof (below_ten r Hr F) as T. set (t := fl p (r * 10) 1) in *.
    pose proof (fl_rel1 (r * 10) ltac:(lia)) as B. fold t in B.
    assert (TF : is_float p t) by (apply fl_float; lia).
    assert (Q : 0 <= t / 2 ^ s < 10).
    { split; [apply Z.div_pos; lia|]. apply Z.div_lt_upper_bound; lia. }
    assert (W : 10 < 2 ^ iw) by (destruct Hi as [-> | ->]; reflexivity).
    replace (2 ^ iw <=? t / 2 ^ s) with false by lia. rewrite u16_small by lia. rewrite one_digit by assumption.
    rewrite split_exact by (try exact TF; lia).
    pose proof (Z.mod_pos_bound t (2 ^ s) O) as R. pose proof (Z.div_mod t (2 ^ s) ltac:(lia)) as D.
    destruct (float_parts t ltac:(lia) TF) as [_ F2].
    destruct (IH iw (t mod 2 ^ s) Hi R F2) as (l & S1 & S2 & S3 & S4 & S5 & S6).
    rewrite S1. set (x := t / 2 ^ s) in *. exists (digit_char x :: l).
    split; [reflexivity|]. split; [cbn [length]; congruence|]. split.
    { constructor; [exists x; split; [lia|reflexivity]|exact S3]. }
    cbv zeta. rewrite value_cons, digit_value_char by lia. rewrite S2.
    rewrite Nat2Z.inj_succ, Z.pow_succ_r by lia. pose proof (pow10_pos k) as PT.
    set (T0 := 10 ^ Z.of_nat k) in *. set (f := value 10 l) in *. set (y := t mod 2 ^ s) in *.
    set (a := 2 ^ s) in *. set (b := 2 ^ p) in *. clearbody T0 f y a b x t. clear - O PP Hr T B Q R D S4 S5 S6 PT.
    split; [nia|].
    assert (B0 : b * (t - r * 10) <= 10 * a /\ b * (r * 10 - t) <= 10 * a).
    { clear - PP B Hr. assert (b * (t - r * 10) <= b * Z.abs (t - r * 10)) by (apply Z.mul_le_mono_nonneg_l; lia).
      assert (b * (r * 10 - t) <= b * Z.abs (t - r * 10)) by (apply Z.mul_le_mono_nonneg_l; lia). lia. }
    assert (B1 : b * (t - r * 10) * T0 <= 10 * a * T0) by (apply Z.mul_le_mono_nonneg_r; lia).
    assert (B2 : b * (r * 10 - t) * T0 <= 10 * a * T0) by (apply Z.mul_le_mono_nonneg_r; lia).
    assert (E1 : (x * T0 + f) * a - r * (10 * T0) = (f * a - y * T0) + (t - r * 10) * T0).
    { rewrite D at 1. ring. }
    split.
    + rewrite E1. replace (9 * b * (f * a - y * T0 + (t - r * 10) * T0)) with (9 * b * (f * a - y * T0) + 9 * (b * (t - r * 10) * T0)) by ring.
      replace (10 * a * (10 * T0 - 1)) with (10 * a * (T0 - 1) + 9 * (10 * a * T0)) by ring. lia.
    + replace (r * (10 * T0) - a - (x * T0 + f) * a) with ((y * T0 - a - f * a) + (r * 10 - t) * T0).
      2: { rewrite D at 1. ring. }
      replace (9 * b * (y * T0 - a - f * a + (r * 10 - t) * T0)) with (9 * b * (y * T0 - a - f * a) + 9 * (b * (r * 10 - t) * T0)) by ring.
      replace (10 * a * (10 * T0 - 1)) with (10 * a * (T0 - 1) + 9 * (10 * a * T0)) by ring. lia.
Qed.

(** The rounding constant. *)
Lemma rounding_snoc : forall k x, fl_rounding p (S k) x = fl p (fl_rounding p k x) 10.
Proof. induction k as [|k IH]; intros x; [reflexivity|]. cbn [fl_rounding] in *. apply IH. Qed.
Lemma fl_rounding_l : forall k,
  let R := fl_rounding p k (2 ^ s / 2) in
  let T := 10 ^ Z.of_nat k in
  0 <= 2 * R <= 2 ^ s /\ 9 * 2 ^ p * Z.abs (2 * T * R - 2 ^ s) <= (T - 1) * (2 ^ s + 10 * 2 ^ p).
Proof.
  assert (O : 0 < 2 ^ s) by (apply pow_pos; lia). assert (PP : 0 < 2 ^ p) by (apply pow_pos; lia).
  assert (E : 2 ^ s = 2 * (2 ^ s / 2)).
  { replace (2 ^ s) with (2 ^ (s - 1) * 2) by (rewrite Z.mul_comm, <- Z.pow_succ_r by lia; f_equal; lia).
    rewrite Z.div_mul by lia. ring. }
  induction k as [|k IH]; cbv zeta.
  - cbn [fl_rounding Z.of_nat]. rewrite Z.pow_0_r. set (h := 2 ^ s / 2) in *. clearbody h.
    split; [lia|]. replace (2 * 1 * h - 2 ^ s) with 0 by lia. cbn [Z.abs]. lia.
  - rewrite rounding_snoc. rewrite Nat2Z.inj_succ, Z.pow_succ_r by lia.
    cbv zeta in IH. destruct IH as [B I]. pose proof (pow10_pos k) as PT.
    set (R := fl_rounding p k (2 ^ s / 2)) in *. set (T := 10 ^ Z.of_nat k) in *.
    pose proof (fl_rel R 10 ltac:(lia) ltac:(lia)) as Q. pose proof (fl_range R 10 ltac:(lia) ltac:(lia)) as Q0.
    assert (B2 : 1 < 2 ^ p) by (change 1 with (2 ^ 0); apply Z.pow_lt_mono_r; lia).
    set (y := fl p R 10) in *. set (a := 2 ^ s) in *. set (b := 2 ^ p) in *. clearbody y a b R T.
    clear - O PP B I PT Q Q0 B2.
    assert (QQ : b * Z.abs (y * 10 - R) <= R + 5 * b) by (destruct Q as [Q|Q]; nia).
    assert (YR : y <= R).
    { destruct (Z.eq_dec R 0) as [->|N]; [destruct Q as [Q|Q]; nia|]. destruct Q as [Q|Q]; nia. }
    split; [lia|].
    assert (X : Z.abs (2 * (10 * T) * y - a) <= Z.abs (2 * T * R - a) + 2 * T * Z.abs (y * 10 - R)) by nia.
    assert (X2 : 9 * b * Z.abs (2 * (10 * T) * y - a) <= 9 * b * Z.abs (2 * T * R - a) + 18 * T * (b * Z.abs (y * 10 - R))) by nia.
    assert (X3 : 18 * T * (b * Z.abs (y * 10 - R)) <= 18 * T * (R + 5 * b)) by nia.
    assert (X4 : 18 * T * R <= 9 * T * a) by nia.
    replace ((10 * T - 1) * (a + 10 * b)) with ((T - 1) * (a + 10 * b) + 9 * T * a + 90 * T * b) by ring. lia.
Qed.

Lemma close_arith : forall a b T X R real r I F, 0 < b -> 32 * b <= a -> 1 <= T -> 0 <= X -> 0 <= 2 * R <= a ->
  real = a * I + r ->
  9 * b * (F * a - r * T) <= 10 * a * (T - 1) -> 9 * b * (r * T - a - F * a) <= 10 * a * (T - 1) ->
  9 * b * Z.abs (2 * T * R - a) <= (T - 1) * (a + 10 * b) -> b * Z.abs (real - (X + R)) <= X + R ->
  2 * b * Z.abs ((I * T + F) * a - X * T) <= b * a + 2 * T * (X + 2 * a).
Proof.
  intros a b T X R real r I F Hb Ha HT HX HR E U L C A.
  assert (A1 : b * (real - X - R) * T <= (X + R) * T /\ b * (X + R - real) * T <= (X + R) * T).
  { assert (b * (real - X - R) <= X + R /\ b * (X + R - real) <= X + R) as [? ?].
    { assert (b * (real - X - R) <= b * Z.abs (real - (X + R))) by (apply Z.mul_le_mono_nonneg_l; lia).
      assert (b * (X + R - real) <= b * Z.abs (real - (X + R))) by (apply Z.mul_le_mono_nonneg_l; lia). lia. }
    split; apply Z.mul_le_mono_nonneg_r; lia. }
  assert (C1 : 9 * b * (2 * T * R - a) <= (T - 1) * (a + 10 * b) /\ 9 * b * (a - 2 * T * R) <= (T - 1) * (a + 10 * b)).
  { assert (9 * b * (2 * T * R - a) <= 9 * b * Z.abs (2 * T * R - a)) by (apply Z.mul_le_mono_nonneg_l; lia).
    assert (9 * b * (a - 2 * T * R) <= 9 * b * Z.abs (2 * T * R - a)) by (apply Z.mul_le_mono_nonneg_l; lia). lia. }
  assert (TA : 32 * (b * T) <= a * T) by (clear - Ha HT; nia). assert (TR : 2 * (R * T) <= a * T) by (clear - HR HT; nia).
  assert (TX : 0 <= X * T) by (clear - HX HT; nia). assert (T0 : 0 < a * T) by (clear - Hb Ha HT; nia).
  assert (V : (I * T + F) * a - X * T = (F * a - r * T) + (real - X - R) * T + R * T) by (rewrite E; ring).
  rewrite V. set (g := F * a - r * T) in *.
  assert (L' : 9 * b * (- g - a) <= 10 * a * (T - 1)) by (unfold g; lia). clear L V. clearbody g.
  assert (G : 2 * b * (g + (real - X - R) * T + R * T) <= b * a + 2 * T * (X + 2 * a) /\
              2 * b * - (g + (real - X - R) * T + R * T) <= b * a + 2 * T * (X + 2 * a)).
  { replace (2 * b * (g + (real - X - R) * T + R * T)) with (2 * (b * g) + 2 * (b * (real - X - R) * T) + 2 * (b * (R * T))) by ring.
    replace (2 * b * - (g + (real - X - R) * T + R * T)) with (- (2 * (b * g)) + 2 * (b * (X + R - real) * T) - 2 * (b * (R * T))) by ring.
    replace (9 * b * (2 * T * R - a)) with (18 * (b * (R * T)) - 9 * (b * a)) in C1 by ring.
    replace (9 * b * (a - 2 * T * R)) with (9 * (b * a) - 18 * (b * (R * T))) in C1 by ring.
    replace ((T - 1) * (a + 10 * b)) with (a * T - a + 10 * (b * T) - 10 * b) in C1 by ring.
    replace (9 * b * g) with (9 * (b * g)) in U by ring.
    replace (9 * b * (- g - a)) with (- (9 * (b * g)) - 9 * (b * a)) in L' by ring.
    replace (10 * a * (T - 1)) with (10 * (a * T) - 10 * a) in * by ring.
    replace (2 * T * (X + 2 * a)) with (2 * (X * T) + 4 * (a * T)) by ring.
    replace ((X + R) * T) with (X * T + R * T) in A1 by ring.
    set (bg := b * g) in *. set (m1 := b * (real - X - R) * T) in *. set (m2 := b * (X + R - real) * T) in *.
    set (brt := b * (R * T)) in *. set (ba := b * a) in *. set (aT := a * T) in *. set (bT := b * T) in *.
    set (RT := R * T) in *. set (XT := X * T) in *. clearbody bg m1 m2 brt ba aT bT RT XT. clear - U L' C1 A1 TA TR TX T0 Hb Ha HR.
    lia. }
  destruct G as [G1 G2]. destruct (Z.abs_spec (g + (real - X - R) * T + R * T)) as [[_ ->]|[_ ->]]; assumption.
Qed.

(** For every number there is a decimal close to it that is written, unless it reaches 2^32. *)
Lemma write_real_any_l : forall iw neg sep k x, iw = 16 \/ iw = 32 -> 0 <= k < 256 ->
  exists v, close p s k x v /\
    (v < 4294967296 * 10 ^ k <-> fl p (Z.abs x + fl_rounding p (Z.to_nat k) (2 ^ s / 2)) 1 < 4294967296 * 2 ^ s) /\
    if v <? 4294967296 * 10 ^ k
    then exists t, fl_write_real p s iw neg sep x k = Some t /\ decimal_form neg sep k (x <? 0) v t
    else fl_write_real p s iw neg sep x k = None.
Proof.
  intros iw neg sep k x Hi Hk. unfold fl_write_real. cbv zeta.
  assert (O : 0 < 2 ^ s) by (apply pow_pos; lia). assert (PP : 0 < 2 ^ p) by (apply pow_pos; lia).
  assert (OP : 32 * 2 ^ p <= 2 ^ s).
  { change 32 with (2 ^ 5). rewrite <- Z.pow_add_r by lia. apply Z.pow_le_mono_r; lia. }
  replace (if x <? 0 then - x else x) with (Z.abs x) by (destruct (x <? 0) eqn:E; lia).
  pose proof (fl_rounding_l (Z.to_nat k)) as H. cbv zeta in H. rewrite Z2Nat.id in H by lia. destruct H as [HR HC].
  assert (PT : 0 < 10 ^ k) by (apply Z.pow_pos_nonneg; lia).
  set (R := fl_rounding p (Z.to_nat k) (2 ^ s / 2)) in *.
  pose proof (fl_rel1 (Z.abs x + R) ltac:(lia)) as HA.
  assert (RF : is_float p (fl p (Z.abs x + R) 1)) by (apply fl_float; lia).
  assert (R0 : 0 <= fl p (Z.abs x + R) 1) by (apply fl_range; lia).
  set (real := fl p (Z.abs x + R) 1) in *.
  rewrite split_exact by assumption.
  pose proof (Z.mod_pos_bound real (2 ^ s) O) as RM. pose proof (Z.div_mod real (2 ^ s) ltac:(lia)) as DM.
  destruct (float_parts real R0 RF) as [_ F2].
  destruct (fl_decimals_l (Z.to_nat k) iw (real mod 2 ^ s) Hi RM F2) as (fp & S1 & S2 & S3 & S4 & S5 & S6).
  rewrite Z2Nat.id in S4, S5, S6 by lia.
  assert (I0 : 0 <= real / 2 ^ s) by (apply Z.div_pos; lia).
  assert (IV : real / 2 ^ s < 4294967296 <-> real < 4294967296 * 2 ^ s).
  { split; intros H; [|apply Z.div_lt_upper_bound; lia].
    destruct (Z.lt_ge_cases real (4294967296 * 2 ^ s)) as [|G]; [assumption|].
    assert (4294967296 <= real / 2 ^ s) by (apply Z.div_le_lower_bound; lia). lia. }
  set (v := real / 2 ^ s * 10 ^ k + value 10 fp).
  assert (VV : v < 4294967296 * 10 ^ k <-> real / 2 ^ s < 4294967296).
  { unfold v. set (q := real / 2 ^ s) in *. set (f := value 10 fp) in *. set (T := 10 ^ k) in *. clearbody q f T.
    clear - S4 PT. split; intros H; nia. }
  exists v. split; [|split].
  - unfold close. rewrite Z.pow_add_r by lia. change (2 ^ 1) with 2. rewrite (Z.mul_comm (2 ^ p) 2).
    apply (close_arith (2 ^ s) (2 ^ p) (10 ^ k) (Z.abs x) R real (real mod 2 ^ s)); try assumption; lia.
  - rewrite VV. exact IV.
  - destruct (v <? 4294967296 * 10 ^ k) eqn:EV; [apply Z.ltb_lt in EV|apply Z.ltb_ge in EV].
    + apply VV in EV. replace (4294967296 <=? real / 2 ^ s) with false by lia.
      pose proof (write_internal_l 32 21 (real / 2 ^ s) 10 ltac:(lia) ltac:(lia) ltac:(lia) ltac:(lia)) as W.
      replace (real / 2 ^ s <? eff_base 10 ^ (21 - 1)) with true in W by (pose proof (fit10_32 (real / 2 ^ s) ltac:(lia)); lia).
      destruct W as (ip & W1 & W2). unfold write_long. rewrite W1.
      exists ((if x <? 0 then [neg] else []) ++ ip ++ (if k =? 0 then [] else sep :: fp)). split.
      * rewrite S1. destruct (k >? 0) eqn:E; [replace (k =? 0) with false by lia; reflexivity|].
        replace (k =? 0) with true by lia. rewrite app_nil_r. reflexivity.
      * exists ip, fp. unfold v. rewrite Z.add_comm, Z.mod_add by lia. rewrite (Z.div_add _ _ (10 ^ k)) by lia.
        rewrite Z.div_small, Z.mod_small by exact S4. rewrite Z.add_0_l.
        split; [exact W2|]. split; [|reflexivity]. split; [lia|]. split; [exact S3|reflexivity].
    + assert (4294967296 <= real / 2 ^ s) by (destruct (Z.lt_ge_cases (real / 2 ^ s) 4294967296) as [L|G]; [apply VV in L; lia|exact G]).
      replace (4294967296 <=? real / 2 ^ s) with true by lia. reflexivity.
Qed.
(** The sum with the rounding constant stays below 2^32. *)
Lemma sum_below_24 : forall k x, Z.abs x <= 4294967040 * 2 ^ s ->
  fl p (Z.abs x + fl_rounding p k (2 ^ s / 2)) 1 < 4294967296 * 2 ^ s.
Proof.
  intros k x Hx. assert (O : 0 < 2 ^ s) by (apply pow_pos; lia).
  pose proof (fl_rounding_l k) as H. cbv zeta in H. destruct H as [HR _].
  set (R := fl_rounding p k (2 ^ s / 2)) in *.
  pose proof (fl_err (Z.abs x + R) 1 ltac:(lia) ltac:(lia)) as B. rewrite Z.div_1_r, Z.mul_1_l, Z.mul_1_r in B.
  assert (LG : Z.log2 (Z.abs x + R) < 32 + s).
  { destruct (Z.eq_dec (Z.abs x + R) 0) as [->|N0]; [change (Z.log2 0) with 0; lia|].
    apply Z.log2_lt_pow2; [lia|]. rewrite Z.pow_add_r by lia. change (2 ^ 32) with 4294967296. lia. }
  assert (SP : 2 ^ spacing p (Z.abs x + R) <= 2 ^ (8 + s)) by (apply Z.pow_le_mono_r; unfold spacing; lia).
  rewrite Z.pow_add_r in SP by lia. change (2 ^ 8) with 256 in SP. lia.
Qed.
Lemma sum_below_33 : forall k x, 33 <= p -> Z.abs x <= 4294967295 * 2 ^ s ->
  fl p (Z.abs x + fl_rounding p k (2 ^ s / 2)) 1 < 4294967296 * 2 ^ s.
Proof.
  intros k x H33 Hx. assert (O : 0 < 2 ^ s) by (apply pow_pos; lia).
  pose proof (fl_rounding_l k) as H. cbv zeta in H. destruct H as [HR _].
  set (R := fl_rounding p k (2 ^ s / 2)) in *.
  pose proof (fl_err (Z.abs x + R) 1 ltac:(lia) ltac:(lia)) as B. rewrite Z.div_1_r, Z.mul_1_l, Z.mul_1_r in B.
  assert (LG : Z.log2 (Z.abs x + R) < 32 + s).
  { destruct (Z.eq_dec (Z.abs x + R) 0) as [->|N0]; [change (Z.log2 0) with 0; lia|].
    apply Z.log2_lt_pow2; [lia|]. rewrite Z.pow_add_r by lia. change (2 ^ 32) with 4294967296. lia. }
  assert (SP : 2 ^ spacing p (Z.abs x + R) <= 2 ^ (s - 1)) by (apply Z.pow_le_mono_r; unfold spacing; lia).
  assert (HS : 2 ^ s = 2 * 2 ^ (s - 1)) by (rewrite <- Z.pow_succ_r by lia; f_equal; lia). lia.
Qed.
Lemma write_real_fl_l : forall iw neg sep k x, iw = 16 \/ iw = 32 -> 0 <= k < 256 -> is_float p x ->
  Z.abs x <= 4294967040 * 2 ^ s ->
  exists v t, fl_write_real p s iw neg sep x k = Some t /\ decimal_form neg sep k (x <? 0) v t /\ close p s k x v.
Proof.
  intros iw neg sep k x Hi Hk Hf Hx. destruct (write_real_any_l iw neg sep k x Hi Hk) as (v & C & B & W).
  rewrite (proj2 (Z.ltb_lt _ _) (proj2 B (sum_below_24 (Z.to_nat k) x Hx))) in W.
  destruct W as (t & W1 & W2). exists v, t. split; [exact W1|]. split; assumption.
Qed.

(** From 2^32 on the conversion to uint32_t is undefined. *)
Lemma write_real_large_l : forall iw neg sep k x, 0 <= k < 256 -> 4294967296 * 2 ^ s <= Z.abs x ->
  fl_write_real p s iw neg sep x k = None.
Proof.
  intros iw neg sep k x Hk Hx. unfold fl_write_real. cbv zeta.
  assert (O : 0 < 2 ^ s) by (apply pow_pos; lia).
  replace (if x <? 0 then - x else x) with (Z.abs x) by (destruct (x <? 0) eqn:E; lia).
  pose proof (fl_rounding_l (Z.to_nat k)) as H. cbv zeta in H. destruct H as [HR _].
  set (R := fl_rounding p (Z.to_nat k) (2 ^ s / 2)) in *.
  assert (B : 4294967296 * 2 ^ s <= fl p (Z.abs x + R) 1).
  { unfold fl. rewrite Z.div_1_r, Z.mul_1_l. set (n := Z.abs x + R). set (e := spacing p n).
    change 4294967296 with (2 ^ 32) in *. rewrite <- Z.pow_add_r in * by lia.
    assert (N : 2 ^ (32 + s) <= n) by (unfold n; lia). assert (N0 : 0 < n) by (pose proof (pow_pos (32 + s)); lia).
    pose proof (Z.log2_spec n N0) as [L1 _].
    assert (L2 : 32 + s <= Z.log2 n) by (apply Z.log2_le_pow2; lia).
    assert (E : 0 <= e <= Z.log2 n) by (unfold e, spacing; lia).
    pose proof (rne_low n (2 ^ e)) as [Q _]. assert (P : 0 < 2 ^ e) by (apply pow_pos; lia).
    assert (Q2 : 2 ^ (Z.log2 n - e) <= n / 2 ^ e).
    { apply Z.div_le_lower_bound; [exact P|]. rewrite <- pow_split by lia. exact L1. }
    assert (Q3 : 2 ^ Z.log2 n = 2 ^ e * 2 ^ (Z.log2 n - e)) by (apply pow_split; lia).
    assert (Q4 : 2 ^ (32 + s) <= 2 ^ Z.log2 n) by (apply Z.pow_le_mono_r; lia).
    assert (2 ^ e * 2 ^ (Z.log2 n - e) <= 2 ^ e * rne n (2 ^ e)) by (apply Z.mul_le_mono_nonneg_l; lia). lia. }
  assert (4294967296 <= fl p (Z.abs x + R) 1 / 2 ^ s) by (apply Z.div_le_lower_bound; lia).
  replace (4294967296 <=? fl p (Z.abs x + R) 1 / 2 ^ s) with true by lia. reflexivity.
Qed.

(** A decimal that is nearer to the number than half a unit minus the error is the one written. *)
Lemma close_nearest_l : forall k x v v0, 0 <= k -> close p s k x v ->
  2 ^ (p + 1) * Z.abs (v0 * 2 ^ s - Z.abs x * 10 ^ k) + 2 * 10 ^ k * (Z.abs x + 2 * 2 ^ s) < 2 ^ p * 2 ^ s ->
  v = v0.
Proof.
  intros k x v v0 Hk C H. unfold close in C.
  assert (O : 0 < 2 ^ s) by (apply pow_pos; lia). assert (PP : 0 < 2 ^ p) by (apply pow_pos; lia).
  rewrite Z.pow_add_r in * by lia. change (2 ^ 1) with 2 in *.
  set (a := 2 ^ s) in *. set (b := 2 ^ p) in *. set (y := Z.abs x * 10 ^ k) in *. set (m := 2 * 10 ^ k * (Z.abs x + 2 * a)) in *.
  clearbody a b y m. clear - O PP C H.
  assert (T : b * 2 * Z.abs ((v - v0) * a) < 2 * (b * a)).
  { assert (Z.abs ((v - v0) * a) <= Z.abs (v * a - y) + Z.abs (v0 * a - y)) by lia.
    assert (b * 2 * Z.abs ((v - v0) * a) <= b * 2 * (Z.abs (v * a - y) + Z.abs (v0 * a - y))) by (apply Z.mul_le_mono_nonneg_l; lia).
    lia. }
  assert (T2 : Z.abs ((v - v0) * a) < a) by nia.
  rewrite Z.abs_mul, (Z.abs_eq a) in T2 by lia. assert (Z.abs (v - v0) < 1) by nia. lia.
Qed.
Lemma close_integer_l : forall k n v, 0 <= k -> 0 <= n -> 2 * (n + 2) * 10 ^ k < 2 ^ p ->
  close p s k (n * 2 ^ s) v -> v = n * 10 ^ k.
Proof.
  intros k n v Hk Hn H C. apply (close_nearest_l k (n * 2 ^ s) v (n * 10 ^ k) Hk C).
  assert (O : 0 < 2 ^ s) by (apply pow_pos; lia). rewrite Z.abs_mul, (Z.abs_eq n), (Z.abs_eq (2 ^ s)) by lia.
  replace (n * 10 ^ k * 2 ^ s - n * 2 ^ s * 10 ^ k) with 0 by ring. change (Z.abs 0) with 0. rewrite Z.mul_0_r, Z.add_0_l.
  replace (2 * 10 ^ k * (n * 2 ^ s + 2 * 2 ^ s)) with (2 * (n + 2) * 10 ^ k * 2 ^ s) by ring.
  apply Z.mul_lt_mono_pos_r; assumption.
Qed.
Lemma write_real_whole_l : forall iw neg sep k n, iw = 16 \/ iw = 32 -> 0 <= k < 256 -> 0 <= n ->
  2 * (n + 2) * 10 ^ k < 2 ^ p -> n <= 4294967040 ->
  exists t, fl_write_real p s iw neg sep (n * 2 ^ s) k = Some t /\ decimal_form neg sep k false (n * 10 ^ k) t.
Proof.
  intros iw neg sep k n Hi Hk Hn H Hb. assert (O : 0 < 2 ^ s) by (apply pow_pos; lia).
  assert (PT : 0 < 10 ^ k) by (apply Z.pow_pos_nonneg; lia).
  assert (N : n < 2 ^ p) by (clear - Hn H PT; nia).
  assert (F : is_float p (n * 2 ^ s)) by (exists n, s; split; [lia|split; [lia|reflexivity]]).
  assert (X : Z.abs (n * 2 ^ s) <= 4294967040 * 2 ^ s).
  { rewrite Z.abs_eq by (clear - Hn O; nia). apply Z.mul_le_mono_nonneg_r; lia. }
  destruct (write_real_fl_l iw neg sep k (n * 2 ^ s) Hi Hk F X) as (w & t & E & D & C).
  rewrite (close_integer_l k n w (proj1 Hk) Hn H C) in D.
  replace (n * 2 ^ s <? 0) with false in D by (clear - Hn O; nia). exists t. split; assumption.
Qed.
End P.
