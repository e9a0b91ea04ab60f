(** Serial3WireOutput.h: translated code.  The output is the sequence of pin writes. *)
Require Import ZArith List Bool.
Import ListNotations.
From Verif Require Import Base BitModel.
Open Scope Z_scope.

Inductive pin := PData | PClock | PLatch.
Definition event : Type := pin * bool.

(** 78-91. *)
Definition pulse (p : pin) : list event := [(p, true); (p, false)].

Section S.
Variables (iw w : Z).
(** One iteration of either loop (49-51, 66-68). *)
Definition shift_bit (b i : Z) : option (list event) :=
  match ba_true iw w b i with
  | Some v => Some ((PData, v) :: pulse PClock)
  | None => None
  end.
(** 47-52: [n] iterations remain; [i] is a uint8_t below getMaxBits() <= 64. *)
Fixpoint rev_loop (b i : Z) (n : nat) : option (list event) :=
  match n with
  | O => Some []
  | S k => match shift_bit b i, rev_loop b (i + 1) k with
           | Some e, Some es => Some (e ++ es)
           | _, _ => None
           end
  end.
(** 44-55 [WriteReverse]. *)
Definition write_reverse (b : Z) : option (list event) :=
  match rev_loop b 0 (Z.to_nat w) with
  | Some es => Some (es ++ pulse PLatch)
  | None => None
  end.

(** 61-72 [Write]: the first [n] steps of the loop; [i] is a uint8_t, so i >= 0 always holds and
    i-- takes 0 to 255.  The flag tells whether the loop was left (and the latch pulsed). *)
Fixpoint fwd_loop (b i : Z) (n : nat) : option (list event * bool) :=
  if i >=? 0
  then match n with
       | O => Some ([], false)
       | S k => match shift_bit b i, fwd_loop b (u8 (i - 1)) k with
                | Some e, Some (es, d) => Some (e ++ es, d)
                | _, _ => None
                end
       end
  else Some (pulse PLatch, true).
Definition write_forward (b : Z) (n : nat) : option (list event * bool) := fwd_loop b (u8 (w - 1)) n.
End S.
