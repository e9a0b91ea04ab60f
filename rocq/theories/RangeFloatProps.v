(** Properties of Range, ValueContainer and Math over floating point types. *)
Require Import ZArith List Bool Floats.SpecFloat.
Import ListNotations.
From Verif Require Import FloatSpec PidFloatModel PidFloatSpec RangeFloatModel RangeFloatSpec RangeFloatProofs.
Open Scope Z_scope.

(** C91.  IsInRange accepts the values between the ends in either order, and nothing when an end or
    the value is NaN.  Normalize never changes that, and orders the ends unless one is NaN. *)
Theorem frange_membership : forall p x, 24 <= p -> 128 <= x -> p < x -> forall r, fvalid_range p x r ->
  (forall v, valid p x v -> (fin_range r v = true <-> fbetween p x (fr_begin r) (fr_end r) v)) /\
  (forall v, fin_range (fnormalize r) v = fin_range r v) /\
  (fis_normalized r = true <-> le_f p x (fr_begin r) (fr_end r)) /\
  (fis_normalized (fnormalize r) = true <-> fr_begin r <> S754_nan /\ fr_end r <> S754_nan) /\
  (fnormalize r = r \/ (fnormalize r = mkFRange (fr_end r) (fr_begin r) /\ gt_f p x (fr_begin r) (fr_end r))).
Proof. intros p x Hp Hx Hpx. exact (frange_l p x Hp). Qed.
Print Assumptions frange_membership.

(** C91.  ClipValue on a normalised range: values inside stay the same data, others become the end
    they are beyond. *)
Theorem frange_clip : forall p x, 24 <= p -> 128 <= x -> p < x -> forall r v,
  fvalid_range p x r -> le_f p x (fr_begin r) (fr_end r) -> valid p x v -> v <> S754_nan ->
  (fin_range r v = true -> fclip r v = v) /\
  (gt_f p x v (fr_end r) -> fclip r v = fr_end r) /\
  (gt_f p x (fr_begin r) v -> fclip r v = fr_begin r) /\
  fin_range r (fclip r v) = true /\
  fclip r (fclip r v) = fclip r v.
Proof. intros p x Hp Hx Hpx. exact (fclip_l p x Hp). Qed.
Print Assumptions frange_clip.

(** C91, finding: ClipValue lets NaN pass, so its result can lie outside every range; with a NaN as
    Begin nothing limits a value from below. *)
Theorem frange_clip_refuted : forall b e,
  fclip (mkFRange b e) S754_nan = S754_nan /\ fin_range (mkFRange b e) (fclip (mkFRange b e) S754_nan) = false /\
  fclip (mkFRange S754_nan e) (S754_infinity true) = S754_infinity true /\
  fclip (mkFRange b S754_nan) (S754_infinity false) = S754_infinity false.
Proof.
  intros b e. assert (E : fclip (mkFRange b e) S754_nan = S754_nan).
  { destruct b as [|[]| |], e as [|[]| |]; reflexivity. }
  split; [exact E|]. rewrite E. split.
  - unfold fin_range. cbn [fr_begin fr_end]. destruct (f_lt e b); destruct b as [|[]| |], e as [|[]| |]; reflexivity.
  - split; [destruct e as [|[]| |]; reflexivity|destruct b as [|[]| |]; reflexivity].
Qed.
Print Assumptions frange_clip_refuted.

(** C91.  After any history the container accepts the set last selected. *)
Theorem fvalue_container_set : forall p x, 24 <= p -> 128 <= x -> p < x -> forall ops v,
  Forall (fvalid_op p x) ops -> valid p x v -> fnorm_ok false ops = true ->
  exists s r, fvc_run fvc_new ops = Some s /\ fvc_in s v = Some r /\
    (r = true <-> fold_left (fvc_sel p x) ops (fun _ => False) v).
Proof. intros p x Hp Hx Hpx. exact (fvc_l p x Hp). Qed.
Print Assumptions fvalue_container_set.

(** C91, finding: a container set to NaN does not accept the value it was set to. *)
Theorem fvalue_container_nan_refuted : forall s v, fvc_step s (FVSingle S754_nan) = Some v -> fvc_in v S754_nan = Some false.
Proof. intros s v [= <-]. reflexivity. Qed.
Print Assumptions fvalue_container_nan_refuted.

(** C91.  Abs is exact for every number. *)
Theorem fabs_value : forall p x, 24 <= p -> 128 <= x -> p < x -> forall v,
  (number p x v -> number p x (fmath_abs v) /\ fval p x (fmath_abs v) = Z.abs (fval p x v)) /\
  (forall s, v = S754_infinity s -> fmath_abs v = S754_infinity false) /\
  (v = S754_nan -> fmath_abs v = S754_nan) /\
  (fin_range (mkFRange f0 (S754_infinity false)) v = true -> fmath_abs v = v).
Proof. intros p x Hp Hx Hpx. exact (fabs_l p x Hp). Qed.
Print Assumptions fabs_value.

(** C91, finding: the sign of -0 stays, and a division shows it: 1 / Abs(-0) is minus infinity. *)
Theorem fabs_zero_refuted : forall p x m e,
  fmath_abs (S754_zero true) = S754_zero true /\
  SFdiv p x (S754_finite false m e) (fmath_abs (S754_zero true)) = S754_infinity true.
Proof. intros. split; reflexivity. Qed.
Print Assumptions fabs_zero_refuted.

(** Non-vacuity: binary32; 1, 2 and 4, a reversed range, -0 in [0, 1]. *)
Example frange_example :
  let one := S754_finite false 8388608 (-23) in let two := S754_finite false 8388608 (-22) in
  let four := S754_finite false 8388608 (-21) in let r := mkFRange four one in
  fvalid_range 24 128 r /\ fin_range r two = true /\ fin_range r (SFopp two) = false /\ fin_range r S754_nan = false /\
  fis_normalized r = false /\ fis_normalized (fnormalize r) = true /\
  fclip (fnormalize r) (S754_infinity false) = four /\ fclip (fnormalize r) (SFopp one) = one /\
  fclip (mkFRange f0 one) (S754_zero true) = S754_zero true /\ fmath_abs (SFopp two) = two.
Proof. lazy. repeat split; reflexivity. Qed.
Example fvalue_container_example :
  let one := S754_finite false 8388608 (-23) in let two := S754_finite false 8388608 (-22) in
  let four := S754_finite false 8388608 (-21) in
  let ops := [FVAny; FVRange four one; FVNormalize; FVNone; FVNormalize; FVSingle two] in
  fnorm_ok false ops = true /\
  match fvc_run fvc_new (firstn 3 ops) with Some s => fvc_in s two = Some true /\ fvc_in s f0 = Some false /\ fvc_b s = Some one | None => False end /\
  match fvc_run fvc_new ops with Some s => fvc_in s one = Some false /\ fvc_in s two = Some true | None => False end.
Proof. lazy. repeat split; reflexivity. Qed.
