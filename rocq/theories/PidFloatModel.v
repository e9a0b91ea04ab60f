(** PID.h and Range::ClipValue (Range.h 94-104) for T = float or double.  The arithmetic is IEEE 754
    binary arithmetic (Coq's [spec_float]) of any format: [p] bits, infinities at exponent [x].
    uint16_t and int operands are converted to T.  Nothing is undefined: a division by zero gives an
    infinity or NaN. *)
Require Import ZArith List Bool Floats.SpecFloat.
Import ListNotations.
Open Scope Z_scope.

Definition f0 : spec_float := S754_zero false.
(** C++ comparisons; all are false with NaN, except !=. *)
Definition f_le (a b : spec_float) : bool := SFleb a b.
Definition f_lt (a b : spec_float) : bool := SFltb a b.
Definition f_eq (a b : spec_float) : bool := SFeqb a b.

(** Range.h 43-52, 94-104. *)
Record frange := mkFRange { fr_begin : spec_float; fr_end : spec_float }.
Definition fclip (r : frange) (v : spec_float) : spec_float :=
  let v := if f_lt (fr_end r) v then fr_end r else v in
  if f_lt v (fr_begin r) then fr_begin r else v.

(** PID.h 83-84. *)
Record fpid := mkFPid { f_acc : spec_float; f_last : spec_float }.
Record fpid_in := mkFIn { f_set : spec_float; f_feedback : spec_float; f_dt : Z;
                          f_p : spec_float; f_i : spec_float; f_d : spec_float;
                          f_filter : spec_float -> Z -> spec_float }.

Section Format.
Variables p x : Z.
(** Conversion of an integer. *)
Definition f_int (n : Z) : spec_float := binary_normalize p x n 0 false.

(** 86-99. *)
Definition fcalc_error (largest : spec_float) (s : fpid) (i : fpid_in) : fpid * spec_float :=
  let error := SFsub p x (f_set i) (f_feedback i) in
  if (f_le error largest && f_le f0 error) || (f_le (SFopp largest) error && f_le error f0)
  then (mkFPid f0 (f_last s), f0) else (s, error).
(** 101-106. *)
Definition fcalc_p (error bias : spec_float) : spec_float := if f_eq bias f0 then f0 else SFmul p x error bias.
(** 108-118. *)
Definition fcalc_i (r : frange) (s : fpid) (error : spec_float) (dt : Z) (bias : spec_float) : fpid * spec_float :=
  if negb (f_eq bias f0) then
    let acc := SFadd p x (f_acc s) (SFmul p x (SFmul p x error (f_int dt)) bias) in
    (mkFPid (fclip r acc) (f_last s), fclip r acc)
  else (s, f_acc s).
(** 120-135. *)
Definition fcalc_d (s : fpid) (error : spec_float) (dt : Z) (bias : spec_float) (filter : spec_float -> Z -> spec_float)
  : fpid * spec_float :=
  let error := filter error dt in
  let value := if negb (f_eq bias f0)
               then SFdiv p x (SFmul p x (SFsub p x error (f_last s)) bias) (f_int dt) else f0 in
  (mkFPid (f_acc s) error, value).
(** 69-80. *)
Definition fprocess (r : frange) (largest : spec_float) (s : fpid) (i : fpid_in) : fpid * spec_float :=
  let '(s, error) := fcalc_error largest s i in
  let pt := fcalc_p error (f_p i) in
  let '(s, it) := fcalc_i r s error (f_dt i) (f_i i) in
  let '(s, d) := fcalc_d s error (f_dt i) (f_d i) (f_filter i) in
  (s, fclip r (SFadd p x (SFadd p x pt it) d)).

Fixpoint fpid_run (r : frange) (largest : spec_float) (s : fpid) (ins : list fpid_in) : fpid * list spec_float :=
  match ins with
  | [] => (s, [])
  | i :: rest => let '(s1, v) := fprocess r largest s i in
                 let '(s2, vs) := fpid_run r largest s1 rest in (s2, v :: vs)
  end.
End Format.
