(** The PID terms as mathematics. *)
Require Import ZArith List Bool.
Import ListNotations.
From Verif Require Import RangeModel PidModel.
Open Scope Z_scope.

Definition raw_error (i : pid_in) : Z := i_set i - i_feedback i.
(** Inside the dead band the error counts as zero. *)
Definition dead (largest : Z) (i : pid_in) : Prop := Z.abs (raw_error i) <= largest.
Definition err (largest : Z) (i : pid_in) : Z := if Z.abs (raw_error i) <=? largest then 0 else raw_error i.
(** Limiting to a range b <= e. *)
Definition limit (r : range) (v : Z) : Z := Z.max (r_begin r) (Z.min (r_end r) v).

(** The integral after a history: rectangles error * time * gain added up, limited after every step
    with a gain, forgotten in the dead band. *)
Definition integral_step (r : range) (largest : Z) (acc : Z) (i : pid_in) : Z :=
  let acc := if Z.abs (raw_error i) <=? largest then 0 else acc in
  if i_i i =? 0 then acc else limit r (acc + err largest i * i_dt i * i_i i).
Definition integral (r : range) (largest acc : Z) (ins : list pid_in) : Z := fold_left (integral_step r largest) ins acc.
(** The filtered error before a call: that of the call before it. *)
Definition filtered (largest : Z) (i : pid_in) : Z := i_filter i (err largest i) (i_dt i).
Definition last_filtered (largest last : Z) (ins : list pid_in) : Z :=
  match rev ins with [] => last | i :: _ => filtered largest i end.
(** Division rounding towards zero. *)
Definition div0 (a b : Z) : Z := Z.sgn a * (Z.abs a / b).
(** The output of a call after the calls [before]. *)
Definition pid_output (r : range) (largest acc last : Z) (before : list pid_in) (i : pid_in) : Z :=
  let p := i_p i * err largest i in
  let ii := integral r largest acc (before ++ [i]) in
  let d := if i_d i =? 0 then 0
           else div0 (i_d i * (filtered largest i - last_filtered largest last before)) (i_dt i) in
  limit r (p + ii + d).

(** Inputs of moderate size: the arithmetic of a 32 bit T does not overflow on them. *)
Definition moderate (i : pid_in) : Prop :=
  Z.abs (i_set i) <= 2000 /\ Z.abs (i_feedback i) <= 2000 /\ 1 <= i_dt i <= 1000 /\
  Z.abs (i_p i) <= 500 /\ Z.abs (i_i i) <= 500 /\ Z.abs (i_d i) <= 500 /\
  forall e dt, Z.abs e <= 4000 -> Z.abs (i_filter i e dt) <= 4000.

(** What T = int with 16 bits needs at a call after the calls [before]: error, proportional term, the
    new integral before it is limited, and the sums fit, and the derivative does not fall. *)
Definition int16 (v : Z) : Prop := -32768 <= v <= 32767.
Definition fits_int (r : range) (largest acc last : Z) (before : list pid_in) (i : pid_in) : Prop :=
  let p := i_p i * err largest i in
  let start := if Z.abs (raw_error i) <=? largest then 0 else integral r largest acc before in
  let ii := integral r largest acc (before ++ [i]) in
  let diff := filtered largest i - last_filtered largest last before in
  let d := if i_d i =? 0 then 0 else div0 (i_d i * diff) (i_dt i) in
  int16 (raw_error i) /\ int16 p /\ (i_i i <> 0 -> int16 (start + err largest i * i_dt i * i_i i)) /\
  int16 (p + ii) /\ int16 (p + ii + d) /\
  (i_d i <> 0 -> 1 <= i_dt i /\ int16 diff /\ 0 <= i_d i * diff <= 32767).

(** What T = long needs at a call after the calls [before]: every intermediate result fits in 32 bits,
    and there is time between the calls if the derivative has a gain. *)
Definition int32 (v : Z) : Prop := -2147483648 <= v <= 2147483647.
Definition fits_long (r : range) (largest acc last : Z) (before : list pid_in) (i : pid_in) : Prop :=
  let e := err largest i in
  let p := i_p i * e in
  let start := if Z.abs (raw_error i) <=? largest then 0 else integral r largest acc before in
  let ii := integral r largest acc (before ++ [i]) in
  let diff := filtered largest i - last_filtered largest last before in
  let d := if i_d i =? 0 then 0 else div0 (i_d i * diff) (i_dt i) in
  int32 (raw_error i) /\ int32 p /\
  (i_i i <> 0 -> int32 (e * i_dt i) /\ int32 (e * i_dt i * i_i i) /\ int32 (start + e * i_dt i * i_i i)) /\
  (i_d i <> 0 -> 1 <= i_dt i /\ int32 diff /\ int32 (i_d i * diff)) /\
  int32 (p + ii) /\ int32 (p + ii + d).
