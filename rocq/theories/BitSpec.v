(** Specification of bit containers: a vector of [w] booleans. *)
Require Import ZArith List Bool.
Import ListNotations.
From Verif Require Import BitModel.
Open Scope Z_scope.

Definition bits := Z -> bool.
Definition put (f : bits) (i : Z) (v : bool) : bits := fun j => if j =? i then v else f j.

(** Bits [0..w) of an integer. *)
Definition same_bits (w x : Z) (f : bits) : Prop := forall j, 0 <= j < w -> Z.testbit x j = f j.

Definition bv_step (w : Z) (f : bits) (o : ba_op) : bits * bool :=
  let ok i := i <? w in
  match o with
  | BPut i v => (if ok i then put f i v else f, ok i)
  | BSet i => (if ok i then put f i true else f, ok i)
  | BReset i => (if ok i then put f i false else f, ok i)
  | BIsTrue i => (f, ok i && f i)
  | BIsFalse i => (f, ok i && negb (f i))
  | BSetAll x => (Z.testbit x, true)
  | BResetAll => (fun _ => false, true)
  end.
Fixpoint bv_run (w : Z) (f : bits) (ops : list ba_op) : bits * list bool :=
  match ops with
  | [] => (f, [])
  | o :: rest => let '(f1, r) := bv_step w f o in
                 let '(f2, rs) := bv_run w f1 rest in (f2, r :: rs)
  end.

(** Arguments the C++ types allow: an index is a uint8_t, a whole value fits T. *)
Definition ba_op_ok (w : Z) (o : ba_op) : Prop :=
  match o with
  | BPut i _ | BSet i | BReset i | BIsTrue i | BIsFalse i => 0 <= i <= 255
  | BSetAll x => 0 <= x < 2 ^ w
  | BResetAll => True
  end.

(** [t] is a value of the [w]-bit type T, signed or unsigned. *)
Definition in_type (sg : bool) (w t : Z) : Prop :=
  if sg then - 2 ^ (w - 1) <= t < 2 ^ (w - 1) else 0 <= t < 2 ^ w.

(** Bit [i] exists in a [w]-bit operand and [1 << i], computed in an [iw]-bit int, is defined and,
    converted to T, has that single bit.  For w <= iw this is just 0 <= i < w. *)
Definition mask_ok (iw w i : Z) : Prop := 0 <= i < w /\ i < iw /\ (i < iw - 1 \/ w <= iw).

