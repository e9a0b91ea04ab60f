(** C95: the receive side of the AVR USART hardware, below UsartReceive (AVR/UsartReceive.h) and
    UsartInputStream (AVR/UsartInputStream.h).

    The hardware follows the ATmega data sheet, section "Data Reception - The USART Receiver": a
    receive buffer of two characters, and the receive shift register, which keeps a third one until
    the buffer has room.  When a start bit is detected while the shift register still holds a
    character, that character is lost; the data overrun flag (DOR) is then set for the next character
    that is received.  The status flags belong to the character that the next reading of UDR hands
    out.  Frame and parity errors are in AvrModel and not here; 8 data bits. *)
Require Import ZArith List Bool.
Import ListNotations.
From Verif Require Import Base RingModel StreamModel.
Open Scope Z_scope.

(** [u_fifo]: the buffer, oldest first, each with its DOR flag; [u_shift]: a complete character in the
    shift register; [u_line]: a character is coming in, [Some true] when its start bit cost one. *)
Record uart := mkUart { u_fifo : list (Z * bool); u_shift : option (Z * bool); u_line : option bool }.

Definition uart_init : uart := mkUart [] None None.

(** The shift register empties into the buffer as soon as there is room. *)
Definition uart_settle (f : list (Z * bool)) (sh : option (Z * bool)) (line : option bool) : uart :=
  match sh with
  | Some c => if Nat.ltb (length f) 2 then mkUart (f ++ [c]) None line else mkUart f sh line
  | None => mkUart f None line
  end.

(** A start bit, the end of a character, and a reading of UDR. *)
Inductive uev := UStart | UStop (d : Z) | UTake.

(** A start bit in the middle of a character is none; nor is an end without a start. *)
Definition uart_start (u : uart) : uart :=
  match u_line u with
  | Some _ => u
  | None => match u_shift u with
            | Some _ => mkUart (u_fifo u) None (Some true)
            | None => mkUart (u_fifo u) None (Some false)
            end
  end.

Definition uart_stop (u : uart) (d : Z) : uart :=
  match u_line u with
  | Some over => uart_settle (u_fifo u) (Some (d, over)) None
  | None => u
  end.

(** RXC0 is [u_fifo u <> []].  AVR/UsartReceive.h 192-204 [getResult] (the DOR branch), then 210-225
    [ReadInternal]: the flag and the character. *)
Definition uart_take (u : uart) : uart * option (Z * bool) :=
  match u_fifo u with
  | c :: f => (uart_settle f (u_shift u) (u_line u), Some c)
  | [] => (u, None)
  end.

Definition uart_step (u : uart) (e : uev) : uart * list (Z * bool) :=
  match e with
  | UStart => (uart_start u, [])
  | UStop d => (uart_stop u d, [])
  | UTake => match uart_take u with
             | (u', Some c) => (u', [c])
             | (u', None) => (u', [])
             end
  end.

Fixpoint uart_run (u : uart) (evs : list uev) : uart * list (Z * bool) :=
  match evs with
  | [] => (u, [])
  | e :: rest => let (u1, a) := uart_step u e in let (u2, b) := uart_run u1 rest in (u2, a ++ b)
  end.

(** AVR/UsartReceive.h 145-157 [TryRead]: the answer, outData and the result. *)
Inductive hwresult := HNotReady | HDataOverRun | HSuccess.
Definition hw_try_read (u : uart) : uart * (bool * Z * hwresult) :=
  match uart_take u with
  | (u', Some (d, over)) => (u', (true, d, if over then HDataOverRun else HSuccess))
  | (u', None) => (u', (false, 0, HNotReady))
  end.

(** ** UsartInputStream on top of it *)

Record port := mkPort { p_uart : uart; p_rx : rxs; p_taken : list (Z * bool) }.

Definition port_init (m : Z -> Z) : port := mkPort uart_init (rx_init m) [].

(** Start bit, end of a character, the receive handler gets its turn, main calls Read, main steps. *)
Inductive pev := PStart | PStop (d : Z) | PIsr | PRead | PStep.

Section Port.
Variable Size : Z.

(** The handler runs when its interrupt is on and RXC0 is set: AVR/UsartInputStream.h 81-88. *)
Definition port_step (p : port) (e : pev) : option port :=
  match e with
  | PStart => Some (mkPort (uart_start (p_uart p)) (p_rx p) (p_taken p))
  | PStop d => Some (mkPort (uart_stop (p_uart p) d) (p_rx p) (p_taken p))
  | PIsr =>
      if r_ien (p_rx p) then
        match uart_take (p_uart p) with
        | (u', Some (d, over)) =>
            match rx_step Size (p_rx p) (RxIsr d (negb over)) with
            | Some s => Some (mkPort u' s (p_taken p ++ [(d, over)]))
            | None => None
            end
        | (_, None) => Some p
        end
      else Some p
  | PRead => match rx_step Size (p_rx p) RxStart with
             | Some s => Some (mkPort (p_uart p) s (p_taken p))
             | None => None
             end
  | PStep => match rx_step Size (p_rx p) RxStep with
             | Some s => Some (mkPort (p_uart p) s (p_taken p))
             | None => None
             end
  end.

Fixpoint port_run (p : port) (evs : list pev) : option port :=
  match evs with
  | [] => Some p
  | e :: rest => match port_step p e with Some p' => port_run p' rest | None => None end
  end.

(** The handler is due: its interrupt is on and RXC0 is set. *)
Definition port_ready (p : port) : bool :=
  r_ien (p_rx p) && match u_fifo (p_uart p) with [] => false | _ => true end.

(** At most one handler run while Read has its cursor past the end, as in [rx_polite]. *)
Fixpoint port_polite (p : port) (seen : bool) (evs : list pev) : bool :=
  match evs with
  | [] => true
  | e :: rest =>
      let isr := match e with PIsr => port_ready p | _ => false end in
      if rx_in_window Size (p_rx p) && isr && seen then false
      else match port_step p e with
           | None => true
           | Some p' => port_polite p' (rx_in_window Size (p_rx p') && rx_in_window Size (p_rx p) && (seen || isr)) rest
           end
  end.
End Port.
