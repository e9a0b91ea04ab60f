(** Binary floating point numbers as integers.  The numbers of a format with [p] bits whose
    infinities have the exponent [x] are the [spec_float] of Coq's library (binary32: p = 24,
    x = 128; binary64: p = 53, x = 1024), here related to the exact arithmetic of RealModel.v. *)
Require Import ZArith Floats.SpecFloat.
From Verif Require Import RealModel.
Open Scope Z_scope.

(** The smallest positive number is 2 to the power of minus this. *)
Definition scale (p x : Z) : Z := - emin p x.
(** Finite numbers, and their values in units of the smallest positive number. *)
Definition fin (f : spec_float) : Prop := match f with S754_zero _ | S754_finite _ _ _ => True | _ => False end.
Definition fval (p x : Z) (f : spec_float) : Z :=
  match f with S754_finite s m e => cond_Zopp s (Zpos m * 2 ^ (e - emin p x)) | _ => 0 end.
Definition number (p x : Z) (f : spec_float) : Prop := fin f /\ valid_binary p x f = true.
(** The number nearest to z/d, for any sign of z. *)
Definition rnd (p z d : Z) : Z := Z.sgn z * fl p (Z.abs z) d.
(** The first magnitude that is too large. *)
Definition huge (p x : Z) : Z := 2 ^ (x - emin p x).
(** [f] is the number v, or the infinity of its sign when it is too large. *)
Definition gives (p x v : Z) (f : spec_float) : Prop :=
  if Z.abs v <? huge p x then number p x f /\ fval p x f = v else f = S754_infinity (v <? 0).
