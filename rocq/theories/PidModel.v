(** PID.h: translated code for T = long (32 bit) and T = int (16 bit, where deltaTime being uint16_t
    makes the arithmetic unsigned).  An int of 32 bits is the case of long; floating point T is in
    PidFloatModel.v.  [None] is undefined
    behaviour: signed overflow or division by zero. *)
Require Import ZArith List Bool.
Import ListNotations.
From Verif Require Import Base RangeModel.
Open Scope Z_scope.

Inductive ty := TInt | TLong.
Definition t_max (t : ty) : Z := match t with TInt => 32768 | TLong => 2147483648 end.
(** The value if it is representable in T. *)
Definition chk (t : ty) (v : Z) : option Z := if (- t_max t <=? v) && (v <? t_max t) then Some v else None.
Definition bind {A B : Type} (o : option A) (f : A -> option B) : option B :=
  match o with Some a => f a | None => None end.

(** 83-84.  There is no constructor: the initial values are arbitrary. *)
Record pid := mkPid { p_acc : Z; p_last : Z }.

(** What the base class and the caller supply at one call of Process; [i_filter] is LowPassFilter at
    that call. *)
Record pid_in := mkIn { i_set : Z; i_feedback : Z; i_dt : Z; i_p : Z; i_i : Z; i_d : Z; i_filter : Z -> Z -> Z }.

(** 86-99. *)
Definition calc_error (t : ty) (largest : Z) (s : pid) (i : pid_in) : option (pid * Z) :=
  bind (chk t (i_set i - i_feedback i)) (fun error =>
  if ((error <=? largest) && (error >=? 0)) || ((error >=? - largest) && (error <=? 0))
  then Some (mkPid 0 (p_last s), 0) else Some (s, error)).
(** 101-106. *)
Definition calc_p (t : ty) (error bias : Z) : option Z := if bias =? 0 then Some 0 else chk t (error * bias).
(** 108-118. *)
Definition calc_i (t : ty) (r : range) (s : pid) (error dt bias : Z) : option (pid * Z) :=
  if bias =? 0 then Some (s, p_acc s)
  else
    bind (match t with
          | TLong => bind (chk t (error * dt)) (fun a => bind (chk t (a * bias)) (fun b => chk t (p_acc s + b)))
          | TInt => Some (s16 (u16 (u16 (p_acc s) + u16 (u16 (u16 error * dt) * u16 bias))))
          end)
    (fun acc => Some (mkPid (clip r acc) (p_last s), clip r acc)).
(** 120-135. *)
Definition calc_d (t : ty) (s : pid) (error dt bias : Z) (filter : Z -> Z -> Z) : option (pid * Z) :=
  let error := filter error dt in
  bind (if bias =? 0 then Some 0
        else bind (chk t (error - p_last s)) (fun diff => bind (chk t (diff * bias)) (fun num =>
             if dt =? 0 then None
             else match t with
                  | TLong => Some (Z.quot num dt)
                  | TInt => Some (s16 (u16 num / dt))
                  end)))
  (fun value => Some (mkPid (p_acc s) error, value)).
(** 69-80. *)
Definition process (t : ty) (r : range) (largest : Z) (s : pid) (i : pid_in) : option (pid * Z) :=
  bind (calc_error t largest s i) (fun '(s, error) =>
  bind (calc_p t error (i_p i)) (fun p =>
  bind (calc_i t r s error (i_dt i) (i_i i)) (fun '(s, ii) =>
  bind (calc_d t s error (i_dt i) (i_d i) (i_filter i)) (fun '(s, d) =>
  bind (chk t (p + ii)) (fun pi =>
  bind (chk t (pi + d)) (fun value => Some (s, clip r value))))))).

Fixpoint pid_run (t : ty) (r : range) (largest : Z) (s : pid) (ins : list pid_in) : option (pid * list Z) :=
  match ins with
  | [] => Some (s, [])
  | i :: rest => bind (process t r largest s i) (fun '(s1, v) =>
                 bind (pid_run t r largest s1 rest) (fun '(s2, vs) => Some (s2, v :: vs)))
  end.
