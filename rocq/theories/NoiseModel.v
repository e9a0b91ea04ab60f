(** C102: UsartInputStream (AVR/UsartInputStream.h) and UsartReceive (AVR/UsartReceive.h) on a line that may carry
    anything: the sampling receiver of [WireModel] in front of the receive buffer of [HwRxModel], with the frame error
    and parity error flags that [HwRxModel] and [WireLinkModel] leave out.  Characters of 5 to 8 bits. *)
Require Import ZArith List Bool.
Import ListNotations.
From Verif Require Import Base AvrModel AvrSpec WireModel WireSpec RingModel StreamModel HwRxModel HwRxSpec WireLinkModel.
Open Scope Z_scope.

(** A place of the receive buffer holds the character and its flags FE0 and UPE0 (the data sheet: they belong to the
    character that the next reading of UDR hands out), here as one number in the buffer of [HwRxModel]. *)
Definition word (c : Z * bool * bool) : Z := let '(d, fe, pe) := c in d mod 256 + 256 * Z.b2z fe + 512 * Z.b2z pe.
(** UCSRA while this is the next character (RXC0 = 7, FE0 = 4, DOR0 = 3, UPE0 = 2), and UDR. *)
Definition status (x : Z * bool) : Z :=
  128 + 16 * Z.b2z (Z.testbit (fst x) 8) + 8 * Z.b2z (snd x) + 4 * Z.b2z (Z.testbit (fst x) 9).
Definition udr (x : Z * bool) : Z := fst x mod 256.
(** The characters as [AvrModel.try_read] and [AvrModel.read1] find them. *)
Definition queue (u : uart) : rx := map (fun x => (status x, 0, udr x)) (u_fifo u).

(** UsartInputStream.h 81-88 [OnIsCompleteInterrupt]: stored iff getResult is Success. *)
Definition stores (x : Z * bool) : bool := match rx_result (status x) with RSuccess => true | _ => false end.

Section Port.
Variable Size : Z.
(** As [port_step], with all flags; [PStop] brings a word. *)
Definition nport_step (p : port) (e : pev) : option port :=
  match e with
  | PIsr =>
      if r_ien (p_rx p) then
        match uart_take (p_uart p) with
        | (u', Some x) =>
            match rx_step Size (p_rx p) (RxIsr (read_internal 0 (udr x)) (stores x)) with
            | Some s => Some (mkPort u' s (p_taken p ++ [x]))
            | None => None
            end
        | (_, None) => Some p
        end
      else Some p
  | _ => port_step Size p e
  end.
Fixpoint nport_run (p : port) (evs : list pev) : option port :=
  match evs with
  | [] => Some p
  | e :: rest => match nport_step p e with Some p' => nport_run p' rest | None => None end
  end.
(** At most one handler run while Read has its cursor past the end, as in [port_polite]. *)
Fixpoint nport_polite (p : port) (seen : bool) (evs : list pev) : bool :=
  match evs with
  | [] => true
  | e :: rest =>
      let isr := match e with PIsr => port_ready p | _ => false end in
      if rx_in_window Size (p_rx p) && isr && seen then false
      else match nport_step p e with
           | None => true
           | Some p' => nport_polite p' (rx_in_window Size (p_rx p') && rx_in_window Size (p_rx p) && (seen || isr)) rest
           end
  end.
End Port.

Section Line.
Variables (samples middle last : nat) (n : nat) (par : parity).
(** As [line_step], for every line. *)
Definition nline_step (r : rcv) (x : bool) : rcv * list pev :=
  let (r', out) := rcv_step samples middle last r x in
  (r', match out with
       | [] => match r' with WBusy xs => if Nat.eqb (length xs) (middle + 1) then [PStart] else [] | WIdle _ => [] end
       | f :: _ => [PStop (word (decode n par f))]
       end).
(** [sched]: the software after each sample. *)
Fixpoint nline_events (f : Z -> bool) (r : rcv) (i : Z) (sched : list (list pev)) : list (Z * pev) :=
  match sched with
  | [] => []
  | sw :: rest => let (r', hw) := nline_step r (f i) in map (fun e => (i, e)) (hw ++ sw) ++ nline_events f r' (i + 1) rest
  end.
End Line.

(** What a receiver with these registers makes of a line, sample by sample: the characters with their errors, and the
    events for the software. *)
Definition listen (m2 : regs) (id2 : Z) (f : Z -> bool) (m : nat) : option (list (Z * bool * bool)) :=
  match hw_frame m2 id2 with
  | Some (n2, p2, _) =>
      let d := hw_divider m2 id2 in
      Some (map (decode (Z.to_nat n2) p2)
             (snd (rcv_run (speed_samples d) (speed_middle d) (last_bit (Z.to_nat n2) p2) f (WIdle true) 0 m)))
  | None => None
  end.
Definition listening (m2 : regs) (id2 : Z) (f : Z -> bool) (sched : list (list pev)) : option (list (Z * pev)) :=
  match hw_frame m2 id2 with
  | Some (n2, p2, _) =>
      let d := hw_divider m2 id2 in
      Some (nline_events (speed_samples d) (speed_middle d) (last_bit (Z.to_nat n2) p2) (Z.to_nat n2) p2 f (WIdle true) 0 sched)
  | None => None
  end.
