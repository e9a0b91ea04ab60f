(** The PID terms as exact arithmetic on the values of floating point inputs.  Values are integers in
    units of the smallest positive number 2^-s of the format (FloatSpec.v), 1 is U = 2^s; products of
    two values are in units of 1/U^2. *)
Require Import ZArith List Bool Floats.SpecFloat.
Import ListNotations.
From Verif Require Import RealModel FloatSpec PidFloatModel RangeModel PidModel PidSpec.
Open Scope Z_scope.

(** The order of all floating point data but NaN. *)
Definition le_f (p x : Z) (a b : spec_float) : Prop :=
  match a, b with
  | S754_nan, _ | _, S754_nan => False
  | S754_infinity true, _ | _, S754_infinity false => True
  | S754_infinity false, _ | _, S754_infinity true => False
  | _, _ => fval p x a <= fval p x b
  end.
Definition valid (p x : Z) (f : spec_float) : Prop := valid_binary p x f = true.
(** Inputs of the type T: any data, also infinities and NaN; the filter returns such data. *)
Definition fvalid_in (p x : Z) (i : fpid_in) : Prop :=
  valid p x (f_set i) /\ valid p x (f_feedback i) /\ valid p x (f_p i) /\ valid p x (f_i i) /\ valid p x (f_d i) /\
  0 <= f_dt i < 65536 /\ forall e dt, valid p x e -> valid p x (f_filter i e dt).
Definition ok_range (p x : Z) (r : frange) : Prop :=
  valid p x (fr_begin r) /\ valid p x (fr_end r) /\ le_f p x (fr_begin r) (fr_end r).
Definition in_frange (p x : Z) (r : frange) (v : spec_float) : Prop := le_f p x (fr_begin r) v /\ le_f p x v (fr_end r).

(** U, the value 1. *)
Definition U (p x : Z) : Z := 2 ^ scale p x.
(** The error as T holds it, and 0 in the dead band. *)
Definition fdiff (p x : Z) (i : fpid_in) : Z := rnd p (fval p x (f_set i) - fval p x (f_feedback i)) 1.
Definition ferr (p x L : Z) (i : fpid_in) : Z := if Z.abs (fdiff p x i) <=? L then 0 else fdiff p x i.
(** The data the error is held in. *)
Definition ferr_data (p x L : Z) (i : fpid_in) : spec_float :=
  if Z.abs (fdiff p x i) <=? L then f0 else SFsub p x (f_set i) (f_feedback i).
Definition ffiltered (p x L : Z) (i : fpid_in) : Z := fval p x (f_filter i (ferr_data p x L i) (f_dt i)).
Definition flimit (b e v : Z) : Z := Z.max b (Z.min e v).

(** The integral, exactly, in units of 1/U^2: rectangles error * time * gain added up, limited to the
    range, forgotten in the dead band. *)
Definition fintegral_step (p x b e L : Z) (acc : Z) (i : fpid_in) : Z :=
  let acc := if Z.abs (fdiff p x i) <=? L then 0 else acc in
  if fval p x (f_i i) =? 0 then acc
  else flimit (b * U p x) (e * U p x) (acc + ferr p x L i * f_dt i * fval p x (f_i i)).
Definition fintegral (p x b e L acc : Z) (ins : list fpid_in) : Z := fold_left (fintegral_step p x b e L) ins acc.
Definition flast (p x L last : Z) (ins : list fpid_in) : Z :=
  match rev ins with [] => last | i :: _ => ffiltered p x L i end.
(** The exact output of a call after the calls [before], in units of 1/(U^2 * dt). *)
Definition fout (p x b e L acc last : Z) (before : list fpid_in) (i : fpid_in) : Z :=
  let u := U p x * f_dt i in
  flimit (b * u) (e * u)
    (ferr p x L i * fval p x (f_p i) * f_dt i
     + fintegral p x b e L acc (before ++ [i]) * f_dt i
     + (ffiltered p x L i - flast p x L last before) * fval p x (f_d i)).

(** Inputs and ranges of moderate size, in values: 2^30 for set point, feedback and gains, 2^60 for the
    range, a time of at least 1. *)
Definition upto (p x k : Z) (f : spec_float) : Prop := number p x f /\ Z.abs (fval p x f) <= 2 ^ k * U p x.
Definition fmoderate (p x : Z) (i : fpid_in) : Prop :=
  upto p x 30 (f_set i) /\ upto p x 30 (f_feedback i) /\ upto p x 30 (f_p i) /\ upto p x 30 (f_i i) /\ upto p x 30 (f_d i) /\
  1 <= f_dt i < 65536 /\ forall e dt, upto p x 32 e -> upto p x 32 (f_filter i e dt).
Definition frange_ok (p x : Z) (r : frange) : Prop :=
  upto p x 60 (fr_begin r) /\ upto p x 60 (fr_end r) /\ fval p x (fr_begin r) <= 0 <= fval p x (fr_end r).
(** Bounds on the terms: [K] on each of them, [F] on the filtered error. *)
Definition sized (p x L K F : Z) (i : fpid_in) : Prop :=
  Z.abs (ferr p x L i * fval p x (f_p i)) <= K * U p x /\
  Z.abs (ferr p x L i * f_dt i * fval p x (f_i i)) <= K * U p x /\
  Z.abs (ffiltered p x L i) <= F /\ 2 * F * Z.abs (fval p x (f_d i)) <= K * U p x * f_dt i.

(** The accuracy after n calls, in units of 2^-p. *)
Definition bound (p M K n : Z) : Z := n * (M + 6 * K + 2 ^ p).

(** Inputs that are whole numbers: the data [f] holds z; the floating point input [fi] and the
    integer input [i] agree. *)
Definition holds (p x : Z) (f : spec_float) (z : Z) : Prop := number p x f /\ fval p x f = z * U p x.
Definition same_in (p x : Z) (fi : fpid_in) (i : pid_in) : Prop :=
  holds p x (f_set fi) (i_set i) /\ holds p x (f_feedback fi) (i_feedback i) /\ holds p x (f_p fi) (i_p i) /\
  holds p x (f_i fi) (i_i i) /\ holds p x (f_d fi) (i_d i) /\ f_dt fi = i_dt i /\
  forall f z dt, holds p x f z -> holds p x (f_filter fi f dt) (i_filter i z dt).
(** All terms are whole and at most 2^22; [last]: the filtered error of the call before. *)
Fixpoint whole (largest last : Z) (ins : list pid_in) : Prop :=
  match ins with
  | [] => True
  | i :: rest =>
      let n := 2 ^ 22 in let e := err largest i in
      Z.abs (raw_error i) <= n /\ Z.abs (e * i_dt i) <= n /\ Z.abs (e * i_dt i * i_i i) <= n /\ Z.abs (i_p i * e) <= n /\
      Z.abs (filtered largest i - last) <= n /\ Z.abs (i_d i * (filtered largest i - last)) <= n /\
      (i_dt i | i_d i * (filtered largest i - last)) /\ whole largest (filtered largest i) rest
  end.
