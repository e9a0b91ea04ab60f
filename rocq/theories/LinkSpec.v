(** What is asked of a schedule and of a run of the serial MIDI link. *)
Require Import ZArith List Bool.
Import ListNotations.
From Verif Require Import Base RingModel StreamModel MidiModel MidiSpec LinkModel.
Open Scope Z_scope.

(** As [tx_polite] and [rx_polite] (StreamModel.v), on both sides: no handler runs twice inside one
    wrap-around window of the main loop.  [ps], [pr]: a handler already ran in the current window. *)
Definition sends_isr (l : link) (e : levent) : bool :=
  match e with LSendIsr => t_ien (y_tx (l_y l)) | _ => false end.
Definition takes_isr (l : link) (e : levent) : bool :=
  match e with LTakeIsr _ => match on_line l with Some _ => true | None => false end | _ => false end.
Section P.
Variable SizeT SizeR : Z.
Definition win_t (l : link) : bool := tx_in_window SizeT (y_tx (l_y l)).
Definition win_r (l : link) : bool := rx_in_window SizeR (x_rx (l_x l)).
Fixpoint l_polite (l : link) (ps pr : bool) (evs : list levent) : bool :=
  match evs with
  | [] => true
  | e :: rest =>
      if (win_t l && sends_isr l e && ps) || (win_r l && takes_isr l e && pr) then false
      else match l_step SizeT SizeR l e with
           | None => true
           | Some l' => l_polite l' (win_t l' && win_t l && (ps || sends_isr l e))
                                    (win_r l' && win_r l && (pr || takes_isr l e)) rest
           end
  end.

(** The messages given to MidiWriter: a call while another is in progress is not one. *)
Fixpoint written (l : link) (evs : list levent) : list w_op :=
  match evs with
  | [] => []
  | e :: rest =>
      let here := match e with LWrite o => if y_idle (l_y l) then [o] else [] | _ => [] end in
      match l_step SizeT SizeR l e with
      | Some l' => here ++ written l' rest
      | None => here
      end
  end.
End P.

(** No byte was refused by the transmit buffer, damaged on the line or refused by the receive buffer. *)
Definition lossless (l : link) : Prop :=
  Forall (fun d => snd d = true) (t_done (y_tx (l_y l))) /\
  r_acc (x_rx (l_x l)) = firstn (l_taken l) (t_sent (y_tx (l_y l))).

(** Nothing is under way: no call, nothing buffered, nothing on the line. *)
Definition quiet (SizeT SizeR : Z) (l : link) : Prop :=
  y_idle (l_y l) = true /\ ring_length SizeT (t_ring (y_tx (l_y l))) = 0 /\
  l_taken l = length (t_sent (y_tx (l_y l))) /\
  x_pc (l_x l) = MIdle /\ ring_length SizeR (r_ring (x_rx (l_x l))) = 0.

(** Events that go on with what has begun. *)
Definition no_write (e : levent) : Prop := match e with LWrite _ => False | _ => True end.

Definition reports (l : link) : list report := map seen (x_notes (l_x l)).

(** A schedule used as an example: a note and a clock byte, handlers and main loops interleaved. *)
Definition link_evs : list levent :=
  [LWrite (WMessage (mkMsg 144 0 60 100))] ++ repeat LSend 5 ++ [LSendIsr; LSend; LSend; LRead; LTakeIsr true; LTake; LSend; LTake]
  ++ [LTake; LSend; LTake; LSendIsr; LSend; LTakeIsr true; LTake; LTake; LTake; LTake; LRead] ++ repeat LSend 9
  ++ [LTake; LTake; LTake; LTake; LTake; LTake; LSendIsr; LTakeIsr true; LTake; LRead] ++ repeat LTake 7
  ++ [LWrite (WType 248)] ++ repeat LSend 7 ++ [LSendIsr; LTakeIsr true; LRead] ++ repeat LTake 7 ++ [LSendIsr; LTakeIsr true; LRead] ++ repeat LTake 7.
