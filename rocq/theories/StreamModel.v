(** AVR/UsartOutputStream.h and AVR/UsartInputStream.h: the ring buffer shared between the main
    loop and an interrupt handler.
    The handler runs to completion (interrupts are off inside a handler); it may preempt the
    main loop between any two accesses of the main loop to the shared members.  The main loop's
    call is therefore split into micro steps, one per access, in source order.
    Simplifications: a pointer sized load or store is one access (a 16-bit pointer is two bytes
    on AVR; TearModel.v splits them); the compiler keeps source order (the members are not
    volatile); the data register and the enable bit are the only hardware state. *)
Require Import ZArith List Bool.
Import ListNotations.
From Verif Require Import Base RingModel.
Open Scope Z_scope.

(** ** Transmit: main loop writes, UDRE interrupt reads *)

(** Where the main loop is inside UsartOutputStream::Write (AVR/UsartOutputStream.h 64-68),
    with RingBuffer::Write (RingBuffer.h 61-79) inlined. *)
Inductive txpc :=
| TIdle
| TCheck (v : Z)   (* about to evaluate RingBuffer.h 64-68 *)
| TStore (v : Z)   (* about to execute line 70 *)
| TInc (v : Z)     (* about to execute line 71 *)
| TWrap (v : Z)    (* about to execute lines 73-76 *)
| TEnable.         (* about to execute UsartOutputStream.h 67 *)

(** [t_sent]: bytes handed to the data register (AVR/UsartTransmit.h 203).
    [t_done]: for each finished RingBuffer::Write the value and its result. *)
Record txs := mkTx { t_ring : ring Z; t_ien : bool; t_pc : txpc; t_sent : list Z;
                     t_done : list (Z * bool) }.

Inductive txev := TxStart (v : Z) | TxStep | TxIsr.

Section Tx.
Variable Size : Z.

(** AVR/UsartOutputStream.h 74-86 [OnAcceptDataInterrupt]; fires only while enabled. *)
Definition tx_isr (s : txs) : option txs :=
  if t_ien s then
    if negb (ring_length Size (t_ring s) =? 0) then
      match ring_read Size (t_ring s) with
      | Some (r, v) => Some (mkTx r (t_ien s) (t_pc s) (t_sent s ++ [u8 v]) (t_done s))
      | None => None
      end
    else Some (mkTx (t_ring s) false (t_pc s) (t_sent s) (t_done s))
  else Some s.

(** One micro step of the main loop. *)
Definition tx_main (s : txs) : option txs :=
  let r := t_ring s in
  match t_pc s with
  | TIdle => Some s
  | TCheck v =>
      if (if rb_wr r + 1 >=? Size then 0 =? rb_rd r else rb_wr r + 1 =? rb_rd r)
      then Some (mkTx r (t_ien s) TEnable (t_sent s) (t_done s ++ [(v, false)]))
      else Some (mkTx r (t_ien s) (TStore v) (t_sent s) (t_done s))
  | TStore v =>
      if inb (rb_wr r) Size
      then Some (mkTx (mkRing (upd (rb_mem r) (rb_wr r) v) (rb_wr r) (rb_rd r))
                      (t_ien s) (TInc v) (t_sent s) (t_done s))
      else None
  | TInc v => Some (mkTx (mkRing (rb_mem r) (rb_wr r + 1) (rb_rd r))
                         (t_ien s) (TWrap v) (t_sent s) (t_done s))
  | TWrap v => Some (mkTx (mkRing (rb_mem r) (if rb_wr r >=? Size then 0 else rb_wr r) (rb_rd r))
                          (t_ien s) TEnable (t_sent s) (t_done s ++ [(v, true)]))
  | TEnable => Some (mkTx r true TIdle (t_sent s) (t_done s))
  end.

(** [TxStart v]: the application calls Write(v) (parameter is uint8_t); ignored while busy. *)
Definition tx_step (s : txs) (e : txev) : option txs :=
  match e with
  | TxStart v =>
      match t_pc s with
      | TIdle => Some (mkTx (t_ring s) (t_ien s) (TCheck (u8 v)) (t_sent s) (t_done s))
      | _ => Some s
      end
  | TxStep => tx_main s
  | TxIsr => tx_isr s
  end.

Fixpoint tx_run (s : txs) (evs : list txev) : option txs :=
  match evs with
  | [] => Some s
  | e :: rest => match tx_step s e with Some s' => tx_run s' rest | None => None end
  end.

Definition tx_init (m : Z -> Z) : txs := mkTx (mkRing m 0 0) false TIdle [] [].

(** The write cursor is past the end and not yet wrapped. *)
Definition tx_in_window (s : txs) : bool :=
  match t_pc s with TWrap _ => rb_wr (t_ring s) >=? Size | _ => false end.

(** Does the schedule keep to at most one handler run inside each such window?
    [seen]: a handler already ran in the current window. *)
Fixpoint tx_polite (s : txs) (seen : bool) (evs : list txev) : bool :=
  match evs with
  | [] => true
  | e :: rest =>
      let isr := match e with TxIsr => t_ien s | _ => false end in
      if tx_in_window s && isr && seen then false
      else match tx_step s e with
           | None => true
           | Some s' => tx_polite s' (tx_in_window s' && tx_in_window s && (seen || isr)) rest
           end
  end.
End Tx.

(** ** Receive: RX interrupt writes, main loop reads *)

(** Where the main loop is inside UsartInputStream::Read (AVR/UsartInputStream.h 67-76), with
    RingBuffer::getLength (101-109) and Read (85-96) inlined. *)
Inductive rxpc :=
| RIdle
| RCmp             (* about to evaluate RingBuffer.h 103 *)
| RSub (ge : bool) (* about to evaluate line 105 (ge) or 108, and UsartInputStream.h 69 *)
| RLoad            (* about to execute RingBuffer.h 87 *)
| RInc (v : Z)     (* about to execute line 88 *)
| RWrap (v : Z)    (* about to execute lines 90-93 *)
| REnable.         (* about to execute UsartInputStream.h 74-75 *)

(** [r_got]: results of finished Read calls. [r_acc]: bytes the handler stored successfully. *)
Record rxs := mkRx { r_ring : ring Z; r_ien : bool; r_pc : rxpc; r_got : list Z; r_acc : list Z }.

(** [RxIsr data ok]: a character arrives; [ok] iff getResult() is Success. *)
Inductive rxev := RxStart | RxStep | RxIsr (data : Z) (ok : bool).

Section Rx.
Variable Size : Z.

(** AVR/UsartInputStream.h 81-88 [OnIsCompleteInterrupt]; T = uint8_t. *)
Definition rx_isr (s : rxs) (data : Z) (ok : bool) : option rxs :=
  if r_ien s && ok then
    match ring_write Size (r_ring s) (u8 data) with
    | Some (r, b) => Some (mkRx r (r_ien s) (r_pc s) (r_got s)
                               (if b then r_acc s ++ [u8 data] else r_acc s))
    | None => None
    end
  else Some s.

Definition rx_main (s : rxs) : option rxs :=
  let r := r_ring s in
  match r_pc s with
  | RIdle => Some s
  | RCmp => Some (mkRx r (r_ien s) (RSub (rb_wr r >=? rb_rd r)) (r_got s) (r_acc s))
  | RSub ge =>
      let len := if ge then u16 (rb_wr r - rb_rd r) else u16 (Size - (rb_rd r - rb_wr r)) in
      Some (mkRx r (r_ien s) (if len >? 0 then RLoad else REnable) (r_got s) (r_acc s))
  | RLoad =>
      if inb (rb_rd r) Size
      then Some (mkRx r (r_ien s) (RInc (rb_mem r (rb_rd r))) (r_got s) (r_acc s))
      else None
  | RInc v => Some (mkRx (mkRing (rb_mem r) (rb_wr r) (rb_rd r + 1))
                         (r_ien s) (RWrap v) (r_got s) (r_acc s))
  | RWrap v => Some (mkRx (mkRing (rb_mem r) (rb_wr r) (if rb_rd r >=? Size then 0 else rb_rd r))
                          (r_ien s) RIdle (r_got s ++ [s16 v]) (r_acc s))
  | REnable => Some (mkRx r true RIdle (r_got s ++ [-1]) (r_acc s))
  end.

Definition rx_step (s : rxs) (e : rxev) : option rxs :=
  match e with
  | RxStart => match r_pc s with
               | RIdle => Some (mkRx (r_ring s) (r_ien s) RCmp (r_got s) (r_acc s))
               | _ => Some s
               end
  | RxStep => rx_main s
  | RxIsr d ok => rx_isr s d ok
  end.

Fixpoint rx_run (s : rxs) (evs : list rxev) : option rxs :=
  match evs with
  | [] => Some s
  | e :: rest => match rx_step s e with Some s' => rx_run s' rest | None => None end
  end.

Definition rx_init (m : Z -> Z) : rxs := mkRx (mkRing m 0 0) false RIdle [] [].

Definition rx_in_window (s : rxs) : bool :=
  match r_pc s with RWrap _ => rb_rd (r_ring s) >=? Size | _ => false end.

Fixpoint rx_polite (s : rxs) (seen : bool) (evs : list rxev) : bool :=
  match evs with
  | [] => true
  | e :: rest =>
      let isr := match e with RxIsr _ _ => true | _ => false end in
      if rx_in_window s && isr && seen then false
      else match rx_step s e with
           | None => true
           | Some s' => rx_polite s' (rx_in_window s' && rx_in_window s && (seen || isr)) rest
           end
  end.
End Rx.

(** RingBuffer::getLength (RingBuffer.h 101-109) preempted between the comparison on line 103
    (state [a]) and the subtraction on line 105 or 108 (state [b]). *)
Definition split_length {T} (Size : Z) (a b : ring T) : Z :=
  if rb_wr a >=? rb_rd a then u16 (rb_wr b - rb_rd b)
  else u16 (Size - (rb_rd b - rb_wr b)).
