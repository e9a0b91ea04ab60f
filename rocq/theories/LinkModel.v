(** MIDI between two processors: MidiWriter over UsartOutputStream at one end of a serial line,
    MidiReader over UsartInputStream at the other.
    As in StreamModel.v an interrupt handler runs to completion and may preempt the main loop
    between any two accesses of the main loop to the shared buffer. *)
Require Import ZArith List Bool.
Import ListNotations.
From Verif Require Import Base RingModel StreamModel MidiModel.
Open Scope Z_scope.

(** ** The sender
    [y_todo]: the bytes the current MidiWriter::Write has still to pass to BaseT::Write. *)
Record sender := mkSender { y_tx : txs; y_run : Z; y_todo : list Z }.

Definition y_idle (y : sender) : bool :=
  match t_pc (y_tx y), y_todo y with TIdle, [] => true | _, _ => false end.

(** MidiWriter.h 48-88 and 93-96: the running status after the call and the bytes in order. *)
Definition write_op (run : Z) (o : w_op) : Z * list Z :=
  match o with WMessage m => write_msg run m | WType t => (run, write_type t) end.

(** The application calls MidiWriter::Write; ignored while a call is in progress. *)
Definition y_call (y : sender) (o : w_op) : sender :=
  if y_idle y then let (run, out) := write_op (y_run y) o in mkSender (y_tx y) run out else y.

Section Sender.
Variable Size : Z.
(** One micro step of the main loop: the next call of BaseT::Write begins (MidiWriter.h 60, 77, 82,
    86, 95) or the current one goes on. *)
Definition y_main (y : sender) : option sender :=
  match t_pc (y_tx y), y_todo y with
  | TIdle, [] => Some y
  | TIdle, b :: rest =>
      match tx_step Size (y_tx y) (TxStart b) with
      | Some t => Some (mkSender t (y_run y) rest)
      | None => None
      end
  | _, _ =>
      match tx_step Size (y_tx y) TxStep with
      | Some t => Some (mkSender t (y_run y) (y_todo y))
      | None => None
      end
  end.
Definition y_isr (y : sender) : option sender :=
  match tx_step Size (y_tx y) TxIsr with
  | Some t => Some (mkSender t (y_run y) (y_todo y))
  | None => None
  end.
End Sender.

(** ** The receiver
    Where the main loop is inside MidiReader::Read (MidiReader.h 53-68). *)
Inductive mpc :=
| MIdle
| MCmp             (* line 55: getLength, about to evaluate RingBuffer.h 103 *)
| MSub (ge : bool) (* about to evaluate RingBuffer.h 105 (ge) or 108, and MidiReader.h 57 *)
| MRead.           (* line 59: inside BaseT::Read *)

(** [x_notes]: the notifications so far. *)
Record receiver := mkReceiver { x_rx : rxs; x_pc : mpc; x_reader : reader; x_notes : list note }.

(** The application calls MidiReader::Read; ignored while a call is in progress. *)
Definition x_call (x : receiver) : receiver :=
  match x_pc x with
  | MIdle => mkReceiver (x_rx x) MCmp (x_reader x) (x_notes x)
  | _ => x
  end.

Section Receiver.
Variable Size : Z.
(** MidiReader.h 59-65: BaseT::Read has answered [v]. *)
Definition x_answer (x : receiver) (r : rxs) (v : Z) : receiver :=
  if v =? -1 then mkReceiver r MIdle (x_reader x) (x_notes x)
  else let '(rd, ns, _) := dispatch (x_reader x) (u8 v) in mkReceiver r MIdle rd (x_notes x ++ ns).

Definition x_main (x : receiver) : option receiver :=
  let r := r_ring (x_rx x) in
  match x_pc x with
  | MIdle => Some x
  | MCmp => Some (mkReceiver (x_rx x) (MSub (rb_wr r >=? rb_rd r)) (x_reader x) (x_notes x))
  | MSub ge =>
      let len := if ge then u16 (rb_wr r - rb_rd r) else u16 (Size - (rb_rd r - rb_wr r)) in
      if len >? 0
      then match rx_step Size (x_rx x) RxStart with
           | Some r => Some (mkReceiver r MRead (x_reader x) (x_notes x))
           | None => None
           end
      else Some (mkReceiver (x_rx x) MIdle (x_reader x) (x_notes x))
  | MRead =>
      match rx_step Size (x_rx x) RxStep with
      | Some r =>
          match r_pc r with
          | RIdle => Some (x_answer x r (last (r_got r) (-1)))
          | _ => Some (mkReceiver r MRead (x_reader x) (x_notes x))
          end
      | None => None
      end
  end.
Definition x_isr (x : receiver) (d : Z) (ok : bool) : option receiver :=
  match rx_step Size (x_rx x) (RxIsr d ok) with
  | Some r => Some (mkReceiver r (x_pc x) (x_reader x) (x_notes x))
  | None => None
  end.
End Receiver.

(** ** The line
    [l_taken]: how many of the bytes sent the receiving handler has taken.  A byte waits until the
    receive interrupt is on (real hardware holds three and then drops, see HwRxModel.v). *)
Record link := mkLink { l_y : sender; l_x : receiver; l_taken : nat }.
Inductive levent :=
| LWrite (o : w_op)  (* MidiWriter::Write is called *)
| LSend              (* the sender's main loop goes on *)
| LSendIsr           (* the sender's handler runs *)
| LRead              (* MidiReader::Read is called *)
| LTake              (* the receiver's main loop goes on *)
| LTakeIsr (ok : bool). (* a byte arrives, undamaged if [ok] *)

(** The byte that can arrive now. *)
Definition on_line (l : link) : option Z :=
  if r_ien (x_rx (l_x l)) then nth_error (t_sent (y_tx (l_y l))) (l_taken l) else None.

Section Link.
Variable SizeT SizeR : Z.
Definition l_step (l : link) (e : levent) : option link :=
  match e with
  | LWrite o => Some (mkLink (y_call (l_y l) o) (l_x l) (l_taken l))
  | LSend => match y_main SizeT (l_y l) with Some y => Some (mkLink y (l_x l) (l_taken l)) | None => None end
  | LSendIsr => match y_isr SizeT (l_y l) with Some y => Some (mkLink y (l_x l) (l_taken l)) | None => None end
  | LRead => Some (mkLink (l_y l) (x_call (l_x l)) (l_taken l))
  | LTake => match x_main SizeR (l_x l) with Some x => Some (mkLink (l_y l) x (l_taken l)) | None => None end
  | LTakeIsr ok =>
      match on_line l with
      | Some d => match x_isr SizeR (l_x l) d ok with
                  | Some x => Some (mkLink (l_y l) x (S (l_taken l)))
                  | None => None
                  end
      | None => Some l
      end
  end.
Fixpoint l_run (l : link) (evs : list levent) : option link :=
  match evs with
  | [] => Some l
  | e :: rest => match l_step l e with Some l' => l_run l' rest | None => None end
  end.
End Link.

(** At the start; [on]: has the application turned the receive interrupt on? *)
Definition l_start (on : bool) (mT mR : Z -> Z) : link :=
  mkLink (mkSender (tx_init mT) 0 [])
         (mkReceiver (mkRx (mkRing mR 0 0) on RIdle [] []) MIdle r_init []) 0.
