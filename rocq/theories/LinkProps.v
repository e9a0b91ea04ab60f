(** C67.  MIDI messages over a serial line with interrupts at both ends. *)
Require Import ZArith List Bool Lia.
Import ListNotations.
From Verif Require Import Base RingModel StreamModel MidiModel MidiSpec LinkModel LinkSpec LinkProofs.
Open Scope Z_scope.

(** In every schedule in which no handler runs twice inside a wrap-around window: nothing is
    accessed out of bounds; while no byte is refused or damaged the receiver has reported the first
    of the messages written, in order; and all of them when nothing is under way. *)
Theorem midi_link : forall SizeT SizeR on mT mR evs, 1 <= SizeT <= 65535 -> 1 <= SizeR <= 65535 ->
  l_polite SizeT SizeR (l_start on mT mR) false false evs = true ->
  let ops := written SizeT SizeR (l_start on mT mR) evs in
  exists l, l_run SizeT SizeR (l_start on mT mR) evs = Some l /\
    (Forall w_valid ops -> lossless l ->
       (exists rest, map w_seen ops = reports l ++ rest) /\
       (quiet SizeT SizeR l -> reports l = map w_seen ops)).
Proof. exact midi_link_l. Qed.
Print Assumptions midi_link.

(** Nothing gets stuck: with the receive interrupt on, once a Write has returned, handler runs,
    arrivals and calls of Read are enough for every message to be reported. *)
Theorem midi_link_arrives : forall SizeT SizeR mT mR evs l, 1 <= SizeT <= 65535 -> 2 <= SizeR <= 65535 ->
  l_polite SizeT SizeR (l_start true mT mR) false false evs = true ->
  let ops := written SizeT SizeR (l_start true mT mR) evs in
  l_run SizeT SizeR (l_start true mT mR) evs = Some l -> Forall w_valid ops -> lossless l -> y_idle (l_y l) = true ->
  exists more l', Forall no_write more /\ l_polite SizeT SizeR (l_start true mT mR) false false (evs ++ more) = true /\
    l_run SizeT SizeR (l_start true mT mR) (evs ++ more) = Some l' /\ lossless l' /\ quiet SizeT SizeR l' /\
    reports l' = map w_seen ops.
Proof. exact midi_arrives_l. Qed.
Print Assumptions midi_link_arrives.

(** Finding: MidiReader::Read asks getLength first and calls the Read that turns the interrupt on only
    when something has arrived.  Unless the application turns it on, nothing is ever received. *)
Theorem midi_link_deaf_refuted : forall SizeT SizeR mT mR evs l,
  l_run SizeT SizeR (l_start false mT mR) evs = Some l ->
  reports l = [] /\ r_got (x_rx (l_x l)) = [] /\ l_taken l = 0%nat /\ r_ien (x_rx (l_x l)) = false.
Proof. exact midi_deaf_l. Qed.
Print Assumptions midi_link_deaf_refuted.

(** Finding: MidiWriter ignores that the transmit buffer is full.  Two notes are written, the last byte
    of the first is lost, and the receiver reports a note nobody wrote. *)
Theorem midi_link_overflow_refuted : exists evs l,
  let s := l_start true (fun _ => 0) (fun _ => 0) in
  l_polite 3 16 s false false evs = true /\ l_run 3 16 s evs = Some l /\ quiet 3 16 l /\
  map w_seen (written 3 16 s evs) = [RMsg 144 60 100; RMsg 144 61 101] /\ reports l = [RMsg 144 60 61].
Proof. exact midi_overflow_l. Qed.
Print Assumptions midi_link_overflow_refuted.

(** A schedule with handler runs between the accesses of both main loops. *)
Example midi_link_example :
  let s := l_start true (fun _ => 0) (fun _ => 0) in
  match l_run 4 3 s link_evs with
  | Some l => l_polite 4 3 s false false link_evs = true /\ lossless l /\ quiet 4 3 l /\
      map w_seen (written 4 3 s link_evs) = [RMsg 144 60 100; ROne 248] /\ reports l = [RMsg 144 60 100; ROne 248]
  | None => False
  end.
Proof. lazy. repeat (split || constructor). Qed.
