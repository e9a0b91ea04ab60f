(** Iterator.h: translated code.
    The container is seen through IsValidIndex (0 <= i < n), getCount (n) and GetAt; this is
    what Array, FixedArray, Collection and StaticArray provide for n <= 32767 items.
    [_index + 1] and [_index - 1] are computed in [int] (16 bits on AVR); overflow is [None]. *)
Require Import ZArith List Bool.
Import ListNotations.
From Verif Require Import Base.
Open Scope Z_scope.

(** Signed 16-bit arithmetic result, undefined on overflow. *)
Definition int16_ck (x : Z) : option Z :=
  if (-32768 <=? x) && (x <=? 32767) then Some x else None.

Section It.
Variable n : Z.   (* number of items in the container *)

Definition it_valid (i : Z) : bool := (i >=? 0) && (i <? n).

(** Iterator.h 64-73 [MoveNext]. *)
Definition it_next (idx : Z) : option (Z * bool) :=
  match int16_ck (idx + 1) with
  | None => None
  | Some j => if it_valid j then Some (j, true) else Some (idx, false)
  end.

(** Iterator.h 78-87 [MoveBack]. *)
Definition it_back (idx : Z) : option (Z * bool) :=
  match int16_ck (idx - 1) with
  | None => None
  | Some j => if it_valid j then Some (j, true) else Some (idx, false)
  end.

(** Iterator.h 50-52, 109-112 constructor and [Reset]. *)
Definition it_reset : Z := -1.
(** Iterator.h 136-139 [ResetToEnd]: uint16_t converted to int16_t. *)
Definition it_reset_end : Z := s16 n.

(** Iterator.h 125-130 [getCurrent]. *)
Definition it_current {T} (dflt : T) (get : Z -> T) (idx : Z) : T :=
  if negb (it_valid idx) then dflt else get idx.

(** Iterator.h 93-104 [MoveTo]; [found] is the container's IndexOf, converted to int16_t. *)
Definition it_move_to (found : Z) (idx : Z) : Z * bool :=
  if found >=? 0 then (found, true) else (idx, false).

(** Iterator.h 165-174 [WrapAroundIterator::MoveNext]. *)
Definition wrap_next (idx : Z) : option (Z * bool) :=
  match it_next idx with
  | None => None
  | Some (j, true) => Some (j, true)
  | Some (_, false) =>
      match it_next it_reset with
      | None => None
      | Some (j, _) => Some (j, true)
      end
  end.

(** Iterator.h 180-189 [WrapAroundIterator::MoveBack]. *)
Definition wrap_back (idx : Z) : option (Z * bool) :=
  match it_back idx with
  | None => None
  | Some (j, true) => Some (j, true)
  | Some (_, false) =>
      match it_back it_reset_end with
      | None => None
      | Some (j, _) => Some (j, true)
      end
  end.

(** The loop users write: while (it.MoveNext()) visit(it.getCurrent()).
    [None]: undefined behaviour, or still moving after [fuel] rounds. *)
Fixpoint it_visit {T} (move : Z -> option (Z * bool)) (dflt : T) (get : Z -> T) (idx : Z) (fuel : nat)
  : option (list T) :=
  match fuel with
  | O => None
  | S k => match move idx with
           | None => None
           | Some (_, false) => Some []
           | Some (j, true) =>
               match it_visit move dflt get j k with
               | None => None
               | Some r => Some (it_current dflt get j :: r)
               end
           end
  end.

Inductive it_op := INext | IBack | IReset | IResetEnd.
Definition it_step (idx : Z) (o : it_op) : option (Z * bool) :=
  match o with
  | INext => it_next idx
  | IBack => it_back idx
  | IReset => Some (it_reset, true)
  | IResetEnd => Some (it_reset_end, true)
  end.
Fixpoint it_run (idx : Z) (ops : list it_op) : option Z :=
  match ops with
  | [] => Some idx
  | o :: rest => match it_step idx o with Some (j, _) => it_run j rest | None => None end
  end.

(** [k] moves in a row, collecting the items at the positions reached. *)
Fixpoint it_moves {T} (move : Z -> option (Z * bool)) (dflt : T) (get : Z -> T) (idx : Z) (k : nat)
  : option (Z * list T) :=
  match k with
  | O => Some (idx, [])
  | S k' => match move idx with
            | None => None
            | Some (j, _) => match it_moves move dflt get j k' with
                             | None => None
                             | Some (p, r) => Some (p, it_current dflt get j :: r)
                             end
            end
  end.
End It.
