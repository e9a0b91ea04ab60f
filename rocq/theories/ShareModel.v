(** CollectionRef.h over FixedArrayRef.h, FixedArray.h or FixedString.h when several objects use the same memory.
    Object [k] is a CollectionRef and its array, the array at [v_off] of a buffer of [N] items.  Items are of one byte
    where Clear of the array is used (FixedArrayRef.h 67-70). *)
Require Import ZArith List Bool.
Import ListNotations.
From Verif Require Import Base ArrayModel.
Open Scope Z_scope.

(** [v_items] is MaxItems of the array, [v_cap] its getCapacity: the same, but for FixedString<n> they are n + 1
    and (uint8_t)n (FixedString.h 33-34, 62-65). *)
Record view := mkView { v_off : Z; v_items : Z; v_cap : Z }.
Record share (T : Type) := mkShare { h_mem : Z -> T; h_count : nat -> Z }.
Arguments mkShare {T}.
Arguments h_mem {T}.
Arguments h_count {T}.

Inductive share_op (T : Type) :=
| HAdd (k : nat) (v : T)             (* CollectionRef.h 115-122 *)
| HPut (k : nat) (i : Z) (v : T)     (* CollectionRef.h 129-134 [SetAt] *)
| HReset (k : nat)                   (* CollectionRef.h 139-142 [Clear] *)
| HSet (k : nat) (i : Z) (v : T)     (* FixedArrayRef.h 57-62 [SetAt] *)
| HClear (k : nat).                  (* FixedArrayRef.h 67-70 [Clear] *)
Arguments HAdd {T}.
Arguments HPut {T}.
Arguments HReset {T}.
Arguments HSet {T}.
Arguments HClear {T}.

Section Share.
Context {T : Type}.
Variables (dflt zero : T) (N : Z) (vw : nat -> view).

(** FixedArrayRef.h 57-62. *)
Definition h_set (k : nat) (m : Z -> T) (i : Z) (v : T) : option (Z -> T) :=
  if negb (arr_valid (v_items (vw k)) i) then Some m
  else if inb (v_off (vw k) + i) N then Some (upd m (v_off (vw k) + i) v) else None.
(** memset of [n] bytes from [i]. *)
Fixpoint h_wipe (m : Z -> T) (i : Z) (n : nat) : option (Z -> T) :=
  match n with
  | O => Some m
  | S p => if inb i N then h_wipe (upd m i zero) (i + 1) p else None
  end.
(** CollectionRef.h 68-71. *)
Definition h_valid (s : share T) (k : nat) (i : Z) : bool := (i >=? 0) && (i <? h_count s k).
(** CollectionRef.h 78-83, ArrayRef.h 71-76. *)
Definition h_get (s : share T) (k : nat) (i : Z) : option T :=
  if negb (h_valid s k i) then Some dflt
  else if negb (arr_valid (v_items (vw k)) i) then Some dflt
  else if inb (v_off (vw k) + i) N then Some (h_mem s (v_off (vw k) + i)) else None.
Definition set_count (f : nat -> Z) (k : nat) (c : Z) : nat -> Z := fun j => if Nat.eqb j k then c else f j.
Definition with_mem (s : share T) (o : option (Z -> T)) : option (share T) :=
  match o with Some m => Some (mkShare m (h_count s)) | None => None end.
Definition h_step (s : share T) (o : share_op T) : option (share T) :=
  match o with
  | HAdd k v =>
      if h_count s k <? v_cap (vw k) then
        match h_set k (h_mem s) (s16 (h_count s k)) v with
        | Some m => Some (mkShare m (set_count (h_count s) k (u16 (h_count s k + 1))))
        | None => None
        end
      else Some s
  | HPut k i v => if negb (h_valid s k i) then Some s else with_mem s (h_set k (h_mem s) i v)
  | HReset k => Some (mkShare (h_mem s) (set_count (h_count s) k 0))
  | HSet k i v => with_mem s (h_set k (h_mem s) i v)
  | HClear k => with_mem s (h_wipe (h_mem s) (v_off (vw k)) (Z.to_nat (v_items (vw k))))
  end.
Fixpoint h_run (s : share T) (ops : list (share_op T)) : option (share T) :=
  match ops with
  | [] => Some s
  | o :: rest => match h_step s o with Some s' => h_run s' rest | None => None end
  end.
(** CollectionRef.h 44-46. *)
Definition h_new (m : Z -> T) : share T := mkShare m (fun _ => 0).
End Share.

(** A FixedString<n> at the start of the buffer. *)
Definition string_view (n : Z) : view := mkView 0 (n + 1) (fs_capacity n).
