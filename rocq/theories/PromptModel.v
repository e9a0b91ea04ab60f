(** C105: when the interrupt handlers of the streams (AVR/UsartInputStream.h 81-88, AVR/UsartOutputStream.h 74-86) get
    their turn, as the ATmega data sheet has it ("Reset and Interrupt Handling"): with interrupts on, a handler that is
    due runs before the program goes on, except that the program executes one more instruction after the return from a
    handler; the same is allowed here after the instruction that enables the interrupt.  A step of the program is at
    least one instruction.  The events are those of [HwRxModel] and [HwTxModel]. *)
Require Import ZArith List Bool.
Import ListNotations.
From Verif Require Import Base RingModel StreamModel HwRxModel HwTxModel.
Open Scope Z_scope.

(** ** Receiver: the handler is due when [port_ready]; [step] is [port_step Size], or [nport_step Size] of [NoiseModel] *)
Section Receiver.
Variable step : port -> pev -> option port.
Definition rx_goes_on (e : pev) : bool := match e with PRead | PStep => true | _ => false end.
(** [just]: the program may go on once although the handler is due. *)
Definition rx_just (p p' : port) (just : bool) (e : pev) : bool :=
  match e with
  | PRead | PStep => negb (r_ien (p_rx p)) && r_ien (p_rx p')
  | PIsr => just || port_ready p
  | _ => just
  end.
Fixpoint rx_prompt (p : port) (just : bool) (evs : list pev) : bool :=
  match evs with
  | [] => true
  | e :: rest =>
      if rx_goes_on e && port_ready p && negb just then false
      else match step p e with
           | None => true
           | Some p' => rx_prompt p' (rx_just p p' just e) rest
           end
  end.
(** At most one character is completed during each call of Read; [seen]: one has been. *)
Definition rx_reading (p : port) : bool := match r_pc (p_rx p) with RIdle => false | _ => true end.
Definition rx_completes (p : port) (e : pev) : bool :=
  match e, u_line (p_uart p) with PStop _, Some _ => true | _, _ => false end.
Fixpoint rx_quick (p : port) (seen : bool) (evs : list pev) : bool :=
  match evs with
  | [] => true
  | e :: rest =>
      if rx_reading p && rx_completes p e && seen then false
      else match step p e with
           | None => true
           | Some p' => rx_quick p' (rx_reading p' && rx_reading p && (seen || rx_completes p e)) rest
           end
  end.
(** The same with times: no call of Read lasts as long as [L]; [since]: the start of the call. *)
Fixpoint rx_brief (L : Z) (p : port) (since : Z) (evs : list (Z * pev)) : bool :=
  match evs with
  | [] => true
  | (t, e) :: rest =>
      if rx_reading p && (since + L <=? t) then false
      else match step p e with
           | None => true
           | Some p' => rx_brief L p' (if rx_reading p then since else t) rest
           end
  end.

(** Times that do not run backwards. *)
Fixpoint in_order (now : Z) (evs : list (Z * pev)) : bool :=
  match evs with
  | [] => true
  | (t, _) :: rest => (now <=? t) && in_order t rest
  end.

End Receiver.

(** ** Transmitter *)
Section Transmitter.
Variable Size : Z.
Definition tx_due (p : xport) : bool := t_ien (y_tx p) && accept_data (y_utx p).
Definition tx_goes_on (e : yev) : bool := match e with YWrite _ | YStep => true | _ => false end.
Definition tx_just (p p' : xport) (just : bool) (e : yev) : bool :=
  match e with
  | YWrite _ | YStep => negb (t_ien (y_tx p)) && t_ien (y_tx p')
  | YIsr => just || tx_due p
  | YTick => just
  end.
Fixpoint tx_prompt (p : xport) (just : bool) (evs : list yev) : bool :=
  match evs with
  | [] => true
  | e :: rest =>
      if tx_goes_on e && tx_due p && negb just then false
      else match xport_step Size p e with
           | None => true
           | Some p' => tx_prompt p' (tx_just p p' just e) rest
           end
  end.
(** At most one character is sent completely during each call of Write. *)
Definition tx_writing (p : xport) : bool := match t_pc (y_tx p) with TIdle => false | _ => true end.
Definition tx_completes (p : xport) (e : yev) : bool :=
  match e, x_shift (y_utx p) with YTick, Some _ => true | _, _ => false end.
Fixpoint tx_quick (p : xport) (seen : bool) (evs : list yev) : bool :=
  match evs with
  | [] => true
  | e :: rest =>
      if tx_writing p && tx_completes p e && seen then false
      else match xport_step Size p e with
           | None => true
           | Some p' => tx_quick p' (tx_writing p' && tx_writing p && (seen || tx_completes p e)) rest
           end
  end.
End Transmitter.
