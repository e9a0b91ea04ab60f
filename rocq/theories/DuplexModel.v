(** AVR/UsartInputStream.h and AVR/UsartOutputStream.h on one USART: both directions share the register UCSRB,
    with the enable bits of both interrupts.  The main program makes calls of Write, Read and the switches of
    AVR/UsartTransmit.h and AVR/UsartReceive.h one after the other; each of them changes UCSRB by Bit::Set
    (Bit.h 54-67), that is load, store with the bit clear, load, store with the bit set.  Both handlers may run
    between any two of these steps; the ring buffers are as in StreamModel.v.
    Simplification: as in StreamModel.v; in Open, Close and Flush the streams are at rest. *)
Require Import ZArith List Bool.
Import ListNotations.
From Verif Require Import Base RingModel StreamModel AvrModel.
Open Scope Z_scope.

(** Where the main program is inside Bit::Set; [x] has been loaded. *)
Inductive setst := SNone | SGot1 (x : Z) | SClr | SGot2 (x : Z).
(** The fields [t_ien] and [r_ien] of the streams are not used: UCSRB says it.  [d_oth]: the switch the main
    program is in, bit and value. *)
Record dxs := mkD { d_tx : txs; d_rx : rxs; d_b : Z; d_set : setst; d_oth : option (Z * bool) }.
Definition txof (d : dxs) : txs := let s := d_tx d in mkTx (t_ring s) (r_is (d_b d) 5) (t_pc s) (t_sent s) (t_done s).
Definition rxof (d : dxs) : rxs := let s := d_rx d in mkRx (r_ring s) (r_is (d_b d) 7) (r_pc s) (r_got s) (r_acc s).
Definition put_tx (d : dxs) (s : txs) : dxs := mkD s (d_rx d) (d_b d) (d_set d) (d_oth d).
Definition put_rx (d : dxs) (s : rxs) : dxs := mkD (d_tx d) s (d_b d) (d_set d) (d_oth d).
Definition put_b (d : dxs) (b : Z) (st : setst) : dxs := mkD (d_tx d) (d_rx d) b st (d_oth d).
Definition d_init (mt mr : Z -> Z) (b : Z) : dxs := mkD (tx_init mt) (rx_init mr) b SNone None.

Inductive dev :=
| DWrite (v : Z)               (* the program calls Write; ignored inside a call, as the next two *)
| DRead                        (* Read *)
| DSet (k : Z) (v : bool)      (* setEnable, setEnableIsCompleteInterrupt of the transmitter *)
| DStep                        (* the next step of the call *)
| DUdre                        (* OnAcceptDataInterrupt *)
| DRxc (data : Z) (ok : bool). (* OnIsCompleteInterrupt *)

Section Duplex.
Variables St Sr : Z.   (* the sizes of the buffers *)
Definition at_rest (d : dxs) : bool :=
  match t_pc (d_tx d), r_pc (d_rx d), d_oth d with TIdle, RIdle, None => true | _, _, _ => false end.
(** One step of Bit<k>::Set(UCSRB, v); the answer tells whether it was the last one. *)
Definition set_step (d : dxs) (k : Z) (v : bool) : dxs * bool :=
  match d_set d with
  | SNone => (put_b d (d_b d) (SGot1 (d_b d)), false)
  | SGot1 x => if v then (put_b d (r_clr x k) SClr, false) else (put_b d (r_clr x k) SNone, true)
  | SClr => (put_b d (d_b d) (SGot2 (d_b d)), false)
  | SGot2 x => (put_b d (r_or x k) SNone, true)
  end.
Definition d_main (d : dxs) : option dxs :=
  match t_pc (d_tx d) with
  | TEnable => let (d, last) := set_step d 5 true in
               if last then option_map (put_tx d) (tx_main St (txof d)) else Some d
  | TIdle =>
      match r_pc (d_rx d) with
      | REnable => let (d, last) := set_step d 7 true in
                   if last then option_map (put_rx d) (rx_main Sr (rxof d)) else Some d
      | RIdle =>
          match d_oth d with
          | Some (k, v) => let (d, last) := set_step d k v in
                           Some (if last then mkD (d_tx d) (d_rx d) (d_b d) (d_set d) None else d)
          | None => Some d
          end
      | _ => option_map (put_rx d) (rx_main Sr (rxof d))
      end
  | _ => option_map (put_tx d) (tx_main St (txof d))
  end.
(** UsartOutputStream.h 74-86 with UsartTransmit.h 196-204: the handler also sets TXB8 where characters have nine
    bits, and switches its interrupt off when there is nothing to send. *)
Definition d_udre (d : dxs) : option dxs :=
  if r_is (d_b d) 5 then
    match tx_isr St (txof d) with
    | Some s => Some (mkD s (d_rx d)
        (if t_ien s then fst (write_internal (d_b d) (last (t_sent s) 0)) else r_put (d_b d) 5 false) (d_set d) (d_oth d))
    | None => None
    end
  else Some d.
Definition d_step (d : dxs) (e : dev) : option dxs :=
  match e with
  | DWrite v => if at_rest d then option_map (put_tx d) (tx_step St (txof d) (TxStart v)) else Some d
  | DRead => if at_rest d then option_map (put_rx d) (rx_step Sr (rxof d) RxStart) else Some d
  | DSet k v => Some (if at_rest d then mkD (d_tx d) (d_rx d) (d_b d) (d_set d) (Some (k, v)) else d)
  | DStep => d_main d
  | DUdre => d_udre d
  | DRxc data ok => option_map (put_rx d) (rx_isr Sr (rxof d) data ok)
  end.
Fixpoint d_run (d : dxs) (evs : list dev) : option dxs :=
  match evs with [] => Some d | e :: r => match d_step d e with Some d => d_run d r | None => None end end.

(** At most one run of a handler inside each wrap-around window, as in StreamModel.v. *)
Fixpoint d_polite (d : dxs) (st sr : bool) (evs : list dev) : bool :=
  match evs with
  | [] => true
  | e :: r =>
      let it := match e with DUdre => r_is (d_b d) 5 | _ => false end in
      let ir := match e with DRxc _ _ => true | _ => false end in
      if (tx_in_window St (d_tx d) && it && st) || (rx_in_window Sr (d_rx d) && ir && sr) then false
      else match d_step d e with
           | None => true
           | Some d' => d_polite d' (tx_in_window St (d_tx d') && tx_in_window St (d_tx d) && (st || it))
                                    (rx_in_window Sr (d_rx d') && rx_in_window Sr (d_rx d) && (sr || ir)) r
           end
  end.
End Duplex.
