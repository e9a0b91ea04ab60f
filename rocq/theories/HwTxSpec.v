(** C96, C97. *)
Require Import ZArith List Bool.
Import ListNotations.
From Verif Require Import Base RingModel StreamModel HwTxModel.
Open Scope Z_scope.

(** Characters taken and not yet sent completely, oldest first. *)
Definition outstanding (u : utx) : list Z :=
  (match x_shift u with Some c => [c] | None => [] end) ++ (match x_udr u with Some c => [c] | None => [] end).

(** What getIsComplete remembers: something was sent, and then there was nothing left to send, since the
    last transmit complete interrupt; [n]: the number of characters outstanding. *)
Fixpoint ran_dry (n : nat) (before : bool) (evs : list xev) : bool :=
  match evs with
  | [] => before
  | XWrite _ :: rest => ran_dry (if Nat.eqb n 2 then 2 else S n) before rest
  | XTry _ :: rest => ran_dry (if Nat.eqb n 2 then 2 else S n) before rest
  | XFlush :: rest => ran_dry (if Nat.eqb n 2 then 1 else n) before rest
  | XTick :: rest => ran_dry (Nat.pred n) (before || Nat.eqb n 1) rest
  | XComplete :: rest => ran_dry n false rest
  end.

(** Reading [n] items from a ring buffer. *)
Fixpoint drain (Size : Z) (n : nat) (r : ring Z) : option (list Z) :=
  match n with
  | O => Some []
  | S k => match ring_read Size r with
           | Some (r', v) => option_map (cons v) (drain Size k r')
           | None => None
           end
  end.
