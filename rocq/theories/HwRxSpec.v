(** C95: what the hardware buffer does, without buffer or shift register. *)
Require Import ZArith List Bool.
Import ListNotations.
From Verif Require Import Base RingModel StreamModel HwRxModel.
Open Scope Z_scope.

(** Between calls of UsartInputStream::Read [q] is all that getLength counts and RingBuffer::Read would answer. *)
Definition in_ring (Size : Z) (s : rxs) (q : list Z) : Prop := r_pc s = RIdle ->
  ring_length Size (r_ring s) = Z.of_nat (length q) /\
  exists r' answers, ring_run Size (r_ring s) (repeat RRead (length q)) = Some (r', answers) /\ map fst answers = map ResRead q.

(** The characters sent over the line. *)
Fixpoint chars (busy : bool) (evs : list uev) : list Z :=
  match evs with
  | [] => []
  | UStart :: rest => chars true rest
  | UStop d :: rest => if busy then d :: chars false rest else chars false rest
  | UTake :: rest => chars busy rest
  end.

(** How often a start bit comes while three characters are unread: each costs a character. *)
Fixpoint losses (unread : nat) (busy : bool) (evs : list uev) : nat :=
  match evs with
  | [] => 0%nat
  | UStart :: rest => if busy then losses unread true rest
                      else if Nat.eqb unread 3 then S (losses 2 true rest) else losses unread true rest
  | UStop _ :: rest => losses (if busy then S unread else unread) false rest
  | UTake :: rest => losses (Nat.pred unread) busy rest
  end.

(** What is still to be read from UDR. *)
Definition unread (u : uart) : list (Z * bool) :=
  u_fifo u ++ match u_shift u with Some c => [c] | None => [] end.

(** Characters with their fate ([true]: kept); a kept one carries the flag iff the one right before
    it was lost. *)
Fixpoint deliver (lost : bool) (o : list (Z * bool)) : list (Z * bool) :=
  match o with
  | [] => []
  | (d, true) :: rest => (d, lost) :: deliver false rest
  | (d, false) :: rest => deliver true rest
  end.

Fixpoint arrive (ds : list Z) : list uev :=
  match ds with [] => [] | d :: rest => UStart :: UStop d :: arrive rest end.

(** What UsartInputStream accepts of the characters read from UDR: the unflagged ones. *)
Definition fine (l : list (Z * bool)) : list Z := map fst (filter (fun c => negb (snd c)) l).

(** The line and the handler, as the hardware sees a schedule. *)
Section View.
Variable Size : Z.
Fixpoint wire (p : port) (evs : list pev) : list uev :=
  match evs with
  | [] => []
  | e :: rest =>
      (match e with
       | PStart => [UStart]
       | PStop d => [UStop d]
       | PIsr => if r_ien (p_rx p) then [UTake] else []
       | PRead | PStep => []
       end) ++ match port_step Size p e with Some p' => wire p' rest | None => [] end
  end.
End View.

Inductive sub {T} : list T -> list T -> Prop :=
| sub_nil : sub [] []
| sub_skip : forall x a b, sub a b -> sub a (x :: b)
| sub_take : forall x a b, sub a b -> sub (x :: a) (x :: b).

(** Timed traffic.  [paced B]: time does not run backwards and a character takes at least [B] from its
    start bit to its end. *)
Fixpoint paced (B now : Z) (start : option Z) (evs : list (Z * uev)) : bool :=
  match evs with
  | [] => true
  | (t, e) :: rest =>
      (now <=? t) &&
      match e with
      | UStart => paced B t (match start with Some s => Some s | None => Some t end) rest
      | UStop _ => match start with Some s => (s + B <=? t) | None => true end && paced B t None rest
      | UTake => paced B t start rest
      end
  end.

(** [served L]: no character waits as long as [L] to be read; [q] are the times at which the unread
    ones were complete. *)
Fixpoint served (L : Z) (q : list Z) (busy : bool) (evs : list (Z * uev)) : bool :=
  match evs with
  | [] => true
  | (t, e) :: rest =>
      forallb (fun c => t <? c + L) q &&
      match e with
      | UStart => served L q true rest
      | UStop _ => served L (if busy then q ++ [t] else q) false rest
      | UTake => served L (tl q) busy rest
      end
  end.
