(** C96: the transmit side of the AVR USART below UsartTransmit (AVR/UsartTransmit.h) and
    UsartOutputStream (AVR/UsartOutputStream.h).
    C97: emptying the streams while their interrupt is on.

    The hardware follows the ATmega data sheet, sections "Data Transmission" and "UCSRnA": the data
    register UDR, from which a character moves to the shift register as soon as this is free; UDRE is
    set while UDR is empty; a write to UDR while UDRE is clear is ignored; TXC is set when a
    character has been shifted out and UDR is empty, and is cleared only by the transmit complete
    interrupt or by writing a one to it, which UsartTransmit never does.  8 data bits; the
    transmitter is enabled. *)
Require Import ZArith List Bool.
Import ListNotations.
From Verif Require Import Base RingModel StreamModel.
Open Scope Z_scope.

(** [x_line]: the characters that have been sent completely. *)
Record utx := mkUtx { x_udr : option Z; x_shift : option Z; x_txc : bool; x_line : list Z }.

Definition utx_init : utx := mkUtx None None false [].

(** AVR/UsartTransmit.h 196-204 [WriteInternal]. *)
Definition utx_put (u : utx) (data : Z) : utx :=
  match x_udr u with
  | Some _ => u
  | None => match x_shift u with
            | None => mkUtx None (Some (u8 data)) (x_txc u) (x_line u)
            | Some _ => mkUtx (Some (u8 data)) (x_shift u) (x_txc u) (x_line u)
            end
  end.

(** The last bit of a character is out. *)
Definition utx_tick (u : utx) : utx :=
  match x_shift u with
  | None => u
  | Some c => match x_udr u with
              | Some d => mkUtx None (Some d) (x_txc u) (x_line u ++ [c])
              | None => mkUtx None None true (x_line u ++ [c])
              end
  end.

(** 86-89 [getAcceptData], 68-71 [getIsComplete]. *)
Definition accept_data (u : utx) : bool := match x_udr u with None => true | Some _ => false end.
Definition is_complete (u : utx) : bool := x_txc u.

(** 94-97 [WaitAcceptData]: until UDRE is set, for which the character in the shift register must be
    out.  138-142 [Flush]. *)
Definition wait_accept (u : utx) : utx := if accept_data u then u else utx_tick u.
Definition utx_flush (u : utx) : utx := wait_accept u.

(** 147-152 [Write], 160-171 [TryWrite]. *)
Definition utx_write (u : utx) (data : Z) : utx := utx_put (wait_accept u) data.
Definition utx_try_write (u : utx) (data : Z) : utx * bool :=
  if negb (accept_data u) then (u, false) else (utx_put u data, true).

Fixpoint utx_ticks (n : nat) (u : utx) : utx :=
  match n with O => u | S k => utx_ticks k (utx_tick u) end.

(** Calls, the end of a character, and the transmit complete interrupt (if a program has one). *)
Inductive xev := XWrite (d : Z) | XTry (d : Z) | XFlush | XTick | XComplete.

(** The state and the characters taken. *)
Definition utx_step (u : utx) (e : xev) : utx * list Z :=
  match e with
  | XWrite d => (utx_write u d, [d])
  | XTry d => let (u', b) := utx_try_write u d in (u', if b then [d] else [])
  | XFlush => (utx_flush u, [])
  | XTick => (utx_tick u, [])
  | XComplete => (if x_txc u then mkUtx (x_udr u) (x_shift u) false (x_line u) else u, [])
  end.

Fixpoint utx_run (u : utx) (evs : list xev) : utx * list Z :=
  match evs with
  | [] => (u, [])
  | e :: rest => let (u1, a) := utx_step u e in let (u2, b) := utx_run u1 rest in (u2, a ++ b)
  end.

(** ** UsartOutputStream on top of it *)

Record xport := mkXport { y_utx : utx; y_tx : txs }.
Definition xport_init (m : Z -> Z) : xport := mkXport utx_init (tx_init m).

(** Main calls Write, main steps, the handler gets its turn, the end of a character. *)
Inductive yev := YWrite (v : Z) | YStep | YIsr | YTick.

Section Port.
Variable Size : Z.

(** The handler (AVR/UsartOutputStream.h 74-86) runs when its interrupt is on and UDRE is set; what it
    hands to WriteInternal is what [tx_isr] appends to [t_sent]. *)
Definition xport_step (p : xport) (e : yev) : option xport :=
  match e with
  | YWrite v => match tx_step Size (y_tx p) (TxStart v) with Some s => Some (mkXport (y_utx p) s) | None => None end
  | YStep => match tx_step Size (y_tx p) TxStep with Some s => Some (mkXport (y_utx p) s) | None => None end
  | YIsr =>
      if t_ien (y_tx p) && accept_data (y_utx p) then
        match tx_step Size (y_tx p) TxIsr with
        | Some s => Some (mkXport (fold_left utx_put (skipn (length (t_sent (y_tx p))) (t_sent s)) (y_utx p)) s)
        | None => None
        end
      else Some p
  | YTick => Some (mkXport (utx_tick (y_utx p)) (y_tx p))
  end.

Fixpoint xport_run (p : xport) (evs : list yev) : option xport :=
  match evs with
  | [] => Some p
  | e :: rest => match xport_step p e with Some p' => xport_run p' rest | None => None end
  end.

(** At most one handler run while Write has its cursor past the end, as in [tx_polite]. *)
Fixpoint xport_polite (p : xport) (seen : bool) (evs : list yev) : bool :=
  match evs with
  | [] => true
  | e :: rest =>
      let isr := match e with YIsr => t_ien (y_tx p) && accept_data (y_utx p) | _ => false end in
      if tx_in_window Size (y_tx p) && isr && seen then false
      else match xport_step p e with
           | None => true
           | Some p' => xport_polite p' (tx_in_window Size (y_tx p') && tx_in_window Size (y_tx p) && (seen || isr)) rest
           end
  end.

(** ** C97 *)

(** RingBuffer.h 52 and 53; setEnableAcceptDataInterrupt(false) (AVR/UsartTransmit.h 187). *)
Definition clear_wr (r : ring Z) : ring Z := mkRing (rb_mem r) 0 (rb_rd r).
Definition clear_rd (r : ring Z) : ring Z := mkRing (rb_mem r) (rb_wr r) 0.

Fixpoint tx_isrs (n : nat) (s : txs) : option txs :=
  match n with
  | O => Some s
  | S k => match tx_isr Size s with Some s' => tx_isrs k s' | None => None end
  end.
Definition with_ring (s : txs) (r : ring Z) : txs := mkTx r (t_ien s) (t_pc s) (t_sent s) (t_done s).

(** UsartOutputStream::Flush (AVR/UsartOutputStream.h 54-58), with [i] runs of the handler before the
    first store of Clear, [j] between the two and [l] after.  BaseT::Flush on line 57 only waits, see
    [utx_flush]. *)
Definition tx_flush (i j l : nat) (s : txs) : option txs :=
  match tx_isrs i s with
  | Some s1 => match tx_isrs j (with_ring s1 (clear_wr (t_ring s1))) with
               | Some s2 => tx_isrs l (with_ring s2 (clear_rd (t_ring s2)))
               | None => None
               end
  | None => None
  end.

(** Close (99-103): Clear, and then the interrupt is turned off. *)
Definition tx_close (i j l : nat) (s : txs) : option txs :=
  match tx_flush i j l s with
  | Some s' => Some (mkTx (t_ring s') false (t_pc s') (t_sent s') (t_done s'))
  | None => None
  end.

(** UsartInputStream::Clear (AVR/UsartInputStream.h 56-60) after its BaseT::Flush, and Close (101-105): the
    characters [ds] arrive between the two stores. *)
Fixpoint rx_isrs (ds : list Z) (s : rxs) : option rxs :=
  match ds with
  | [] => Some s
  | d :: rest => match rx_isr Size s d true with Some s' => rx_isrs rest s' | None => None end
  end.
Definition rx_with_ring (s : rxs) (r : ring Z) : rxs := mkRx r (r_ien s) (r_pc s) (r_got s) (r_acc s).
Definition rx_clear (ds : list Z) (s : rxs) : option rxs :=
  match rx_isrs ds (rx_with_ring s (clear_wr (r_ring s))) with
  | Some s1 => Some (rx_with_ring s1 (clear_rd (r_ring s1)))
  | None => None
  end.
End Port.
