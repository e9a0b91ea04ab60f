(** Specification of a bounded queue, independent of cursors and wrap-around. *)
Require Import ZArith List Bool.
Import ListNotations.
From Verif Require Import Base RingModel.
Open Scope Z_scope.

Section Spec.
Context {T : Type}.
Variable capacity : Z.

(** The queue as a list, oldest item first.  Reading an empty queue is not allowed. *)
Definition q_call (q : list T) (o : ring_op T) : option (list T * ring_res T) :=
  match o with
  | RWrite v =>
      if Z.of_nat (length q) <? capacity then Some (q ++ [v], ResWrite true)
      else Some (q, ResWrite false)
  | RRead => match q with [] => None | x :: q' => Some (q', ResRead x) end
  | RClear => Some ([], ResUnit)
  end.

Fixpoint q_run (q : list T) (ops : list (ring_op T)) : option (list T * list (ring_res T * Z)) :=
  match ops with
  | [] => Some (q, [])
  | o :: rest =>
      match q_call q o with
      | None => None
      | Some (q', x) =>
          match q_run q' rest with
          | None => None
          | Some (q'', xs) => Some (q'', (x, Z.of_nat (length q')) :: xs)
          end
      end
  end.

(** A stream: reading an empty queue answers -1 and changes nothing. *)
Definition stream_call (toZ : T -> Z) (q : list T) (o : ring_op T)
  : list T * (ring_res T + Z) :=
  match o with
  | RWrite v =>
      if Z.of_nat (length q) <? capacity then (q ++ [v], inl (ResWrite true))
      else (q, inl (ResWrite false))
  | RRead => match q with [] => ([], inr (-1)) | x :: q' => (q', inr (toZ x)) end
  | RClear => ([], inl ResUnit)
  end.

Fixpoint stream_run (toZ : T -> Z) (q : list T) (ops : list (ring_op T))
  : list T * list (ring_res T + Z) :=
  match ops with
  | [] => (q, [])
  | o :: rest =>
      let '(q', x) := stream_call toZ q o in
      let '(q'', xs) := stream_run toZ q' rest in
      (q'', x :: xs)
  end.
End Spec.

(** The items accepted by the Writes of a history. *)
Fixpoint stored {T : Type} (ops : list (ring_op T)) (outs : list (ring_res T * Z)) : list T :=
  match ops, outs with
  | RWrite v :: ops, (ResWrite true, _) :: outs => v :: stored ops outs
  | _ :: ops, _ :: outs => stored ops outs
  | _, _ => []
  end.
(** The cells of the buffer in order. *)
Definition cells_of {T : Type} (size : Z) (m : Z -> T) : list T := map (fun k => m (Z.of_nat k)) (seq 0 (Z.to_nat size)).
