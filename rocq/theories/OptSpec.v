(** When the streams are right, whatever the order the compiler chose. *)
Require Import ZArith List Bool.
Import ListNotations.
From Verif Require Import Base RingModel StreamSpec TearModel TearSpec OptModel.
Open Scope Z_scope.

Definition before {A} (a b : A) (l : list A) : Prop := exists x y z, l = x ++ a :: y ++ b :: z.
(** The high byte of an address in the buffer is always the same. *)
Definition one_page (B Size : Z) : Prop := B / 256 = (B + Size - 1) / 256.
Definition placed (whole : bool) (B Size : Z) : Prop := whole = true \/ one_page B Size.
(** The store that moves the cursor: in a buffer within a page the other byte does not change. *)
Definition wcur (whole : bool) : wstep := if whole then WAll else WLo.
Definition wstep_eqb (a b : wstep) : bool :=
  match a, b with WItem, WItem | WAll, WAll | WLo, WLo | WHi, WHi | WOn, WOn => true | _, _ => false end.
(** The byte of a Write that has moved the cursor and not returned yet. *)
Definition o_pending (whole : bool) (pc : opc) : list Z :=
  match pc with ORun v true _ todo => if existsb (wstep_eqb (wcur whole)) todo then [] else [v] | _ => [] end.
(** Bytes sent are the first of those accepted; the others, at most Size - 1, are in the buffer. *)
Definition o_fifo (whole : bool) (Size : Z) (s : otx) (rest : list Z) : Prop :=
  accepted (o_done s) ++ o_pending whole (o_pc s) = o_sent s ++ rest /\ Z.of_nat (length rest) <= Size - 1 /\
  ring_length Size (o_ring s) = Z.of_nat (length rest).
(** Bytes stored by the handler are, in order, those delivered by Read, the one of a Read in progress, and the rest
    in the buffer; an answer that is no byte is -1. *)
Definition q_fifo (Size : Z) (s : orx) (rest : list Z) : Prop :=
  exists p, q_acc s = delivered (q_got s) ++ p ++ rest /\ (length p <= 1)%nat /\ (q_pc s = QIdle -> p = []) /\
  Z.of_nat (length rest) <= Size - 1 /\ ring_length Size (q_ring s) = Z.of_nat (length rest) /\
  Forall (fun v => v = -1 \/ 0 <= v < 256) (q_got s).
(** No further call is made. *)
Definition no_start (e : oev) : Prop := match e with OStart _ => False | _ => True end.
Definition no_read (e : qev) : Prop := match e with QStart => False | _ => True end.
(** An undisturbed Read. *)
Definition q_read : list qev := QStart :: repeat QStep 8.
