(** C96: the transmit hardware below UsartTransmit and UsartOutputStream.  C97: emptying the streams. *)
Require Import ZArith List Bool Lia.
Import ListNotations.
From Verif Require Import Base RingModel StreamModel StreamSpec HwTxModel HwTxSpec HwTxProofs.
Open Scope Z_scope.

(** C96.  Whatever is called when: the characters taken by Write and TryWrite go out in order, each once;
    at most two are outstanding. *)
Theorem hw_tx_order : forall evs u taken, utx_run utx_init evs = (u, taken) ->
  x_line u ++ outstanding u = map u8 taken /\ (length (outstanding u) <= 2)%nat.
Proof. exact hw_tx_order_l. Qed.
Print Assumptions hw_tx_order.

(** TryWrite answers false exactly when two are outstanding, and then does nothing. *)
Theorem hw_tx_try : forall evs u taken d, utx_run utx_init evs = (u, taken) ->
  (snd (utx_try_write u d) = false <-> length (outstanding u) = 2%nat) /\
  (snd (utx_try_write u d) = false -> fst (utx_try_write u d) = u).
Proof. exact hw_tx_try_l. Qed.
Print Assumptions hw_tx_try.

(** Flush returns with at most one character outstanding, at once if there is no more... *)
Theorem hw_tx_flush : forall evs u taken, utx_run utx_init evs = (u, taken) ->
  (length (outstanding (utx_flush u)) <= 1)%nat /\
  ((length (outstanding u) <= 1)%nat -> utx_flush u = u).
Proof. exact hw_tx_flush_l. Qed.
Print Assumptions hw_tx_flush.

(** ... so not "until all data has been transmitted": whatever was written last has not been. *)
Theorem hw_tx_flush_refuted : forall d, let u := utx_flush (fst (utx_run utx_init [XWrite d])) in
  x_line u = [] /\ outstanding u = [u8 d].
Proof. intros d. split; reflexivity. Qed.
Print Assumptions hw_tx_flush_refuted.

(** getIsComplete answers true exactly if since the last transmit complete interrupt (or ever, without
    one) the transmitter has sent a character and then had nothing to send. *)
Theorem hw_tx_complete : forall evs u taken, utx_run utx_init evs = (u, taken) -> is_complete u = ran_dry 0 false evs.
Proof. exact hw_tx_complete_l. Qed.
Print Assumptions hw_tx_complete.

(** Without that interrupt it answers true for good, also while later characters are on their way. *)
Theorem hw_tx_complete_sticks : forall evs u u' taken, ~ In XComplete evs -> is_complete u = true ->
  utx_run u evs = (u', taken) -> is_complete u' = true.
Proof. exact hw_tx_sticks_l. Qed.
Print Assumptions hw_tx_complete_sticks.

Theorem hw_tx_complete_refuted : exists evs, let u := fst (utx_run utx_init evs) in
  ~ In XComplete evs /\ is_complete u = true /\ outstanding u = [2; 3].
Proof.
  exists [XWrite 1; XTick; XWrite 2; XWrite 3]. split; [|split; reflexivity].
  intros [H|[H|[H|[H|[]]]]]; discriminate.
Qed.
Print Assumptions hw_tx_complete_refuted.

(** And WaitIsComplete does not return if nothing has been written yet. *)
Theorem hw_tx_wait_refuted : forall n, is_complete (utx_ticks n utx_init) = false.
Proof. exact hw_tx_never_l. Qed.
Print Assumptions hw_tx_wait_refuted.

(** UsartOutputStream, whatever the schedule of calls, steps, handler runs and ends of characters (at
    most one handler run while Write has its cursor past the end): no access outside the buffer; what
    the buffer accepted is, in order, what is on the line, up to two characters in the hardware and
    those queued. *)
Theorem hw_tx_stream : forall Size m evs, 1 <= Size <= 65535 -> xport_polite Size (xport_init m) false evs = true ->
  exists p queued, xport_run Size (xport_init m) evs = Some p /\
    accepted (t_done (y_tx p)) ++ (match t_pc (y_tx p) with TWrap v => [v] | _ => [] end) =
      x_line (y_utx p) ++ outstanding (y_utx p) ++ queued /\
    (length (outstanding (y_utx p)) <= 2)%nat /\ Z.of_nat (length queued) <= Size - 1.
Proof. exact (fun Size m evs HS => hw_tx_stream_l Size HS m evs). Qed.
Print Assumptions hw_tx_stream.

(** Between calls the handler and the hardware alone bring everything accepted to the line, and the
    interrupt is then off. *)
Theorem hw_tx_stream_drains : forall Size m evs p, 1 <= Size <= 65535 -> xport_polite Size (xport_init m) false evs = true ->
  xport_run Size (xport_init m) evs = Some p -> t_pc (y_tx p) = TIdle ->
  exists more p', xport_run Size p more = Some p' /\ t_done (y_tx p') = t_done (y_tx p) /\
    Forall (fun e => e = YIsr \/ e = YTick) more /\
    x_line (y_utx p') = accepted (t_done (y_tx p)) /\ outstanding (y_utx p') = [] /\ t_ien (y_tx p') = false.
Proof. exact (fun Size m evs p HS => hw_tx_drains_l Size HS m evs p). Qed.
Print Assumptions hw_tx_stream_drains.

(** C97.  Flush (and Close) of UsartOutputStream between calls of Write, with the handler running [i]
    times before Clear stores its first cursor, [j] times between the stores and [l] times after: as
    long as [i + j] are no more than are queued, what has been sent is a prefix of what was accepted,
    and the buffer is empty; after Close the handler does nothing. *)
Theorem tx_flush_clean : forall Size m evs s i j l, 1 <= Size <= 65535 ->
  tx_polite Size (tx_init m) false evs = true -> tx_run Size (tx_init m) evs = Some s ->
  t_pc s = TIdle -> Z.of_nat i + Z.of_nat j <= ring_length Size (t_ring s) ->
  exists s' n, tx_flush Size i j l s = Some s' /\ (i <= n <= i + j)%nat /\
    t_sent s' = firstn (length (t_sent s) + n) (accepted (t_done s)) /\ ring_length Size (t_ring s') = 0 /\
    t_pc s' = TIdle /\ exists c, tx_close Size i j l s = Some c /\ t_sent c = t_sent s' /\ ring_length Size (t_ring c) = 0 /\
    forall k, tx_isrs Size k c = Some c.
Proof. exact (fun Size m evs s i j l HS => tx_flush_clean_l Size HS m evs s i j l). Qed.
Print Assumptions tx_flush_clean.

(** Otherwise a byte is sent that nobody wrote: if the buffer has run empty, its interrupt is still on
    and the handler runs once between the stores, it sends what the next cell of the buffer holds from
    before. *)
Theorem tx_flush_stale : forall Size m evs s, 1 <= Size <= 65535 ->
  tx_polite Size (tx_init m) false evs = true -> tx_run Size (tx_init m) evs = Some s ->
  t_pc s = TIdle -> t_ien s = true -> rb_wr (t_ring s) <> 0 ->
  exists s', tx_flush Size (Z.to_nat (ring_length Size (t_ring s))) 1 0 s = Some s' /\
    t_sent s' = accepted (t_done s) ++ [u8 (rb_mem (t_ring s) (rb_wr (t_ring s)))] /\
    exists c, tx_close Size (Z.to_nat (ring_length Size (t_ring s))) 1 0 s = Some c /\ t_sent c = t_sent s'.
Proof. exact (fun Size m evs s HS => tx_flush_stale_l Size HS m evs s). Qed.
Print Assumptions tx_flush_stale.

(** One byte written and sent, then Flush: an uninitialised byte follows. *)
Theorem tx_flush_refuted : forall m, exists evs s s',
  tx_polite 8 (tx_init m) false evs = true /\ tx_run 8 (tx_init m) evs = Some s /\ t_pc s = TIdle /\
  ring_length 8 (t_ring s) = 0 /\ tx_flush 8 0 1 0 s = Some s' /\ t_sent s' = [7; u8 (m 1)].
Proof.
  intros m. set (s := mkTx (mkRing (upd m 0 7) 1 1) true TIdle [7] [(7, true)]).
  assert (P : tx_polite 8 (tx_init m) false (TxStart 7 :: repeat TxStep 5 ++ [TxIsr]) = true) by (vm_compute; reflexivity).
  assert (R : tx_run 8 (tx_init m) (TxStart 7 :: repeat TxStep 5 ++ [TxIsr]) = Some s) by (vm_compute; reflexivity).
  destruct (tx_flush_stale_l 8 ltac:(lia) m _ s P R eq_refl eq_refl ltac:(discriminate)) as (s' & F & E & _).
  exists (TxStart 7 :: repeat TxStep 5 ++ [TxIsr]), s, s'. split; [exact P|]. split; [exact R|]. split; [reflexivity|]. split; [reflexivity|].
  split; [exact F|exact E].
Qed.
Print Assumptions tx_flush_refuted.

(** Clear of UsartInputStream between calls of Read (after its BaseT::Flush, see C64) while characters
    arrive between the two stores: afterwards the buffer holds the first of these, as many as fit below
    the old read cursor, and nothing else. *)
Theorem rx_clear_keeps : forall Size m evs s ds, 1 <= Size <= 65535 ->
  rx_polite Size (rx_init m) false evs = true -> rx_run Size (rx_init m) evs = Some s ->
  r_pc s = RIdle -> r_ien s = true ->
  exists s', rx_clear Size ds s = Some s' /\
    let kept := firstn (Z.to_nat (if rb_rd (r_ring s) =? 0 then Size - 1 else rb_rd (r_ring s) - 1)) (map u8 ds) in
    ring_length Size (r_ring s') = Z.of_nat (length kept) /\ drain Size (length kept) (r_ring s') = Some kept.
Proof. exact (fun Size m evs s ds HS => rx_clear_l Size HS m evs s ds). Qed.
Print Assumptions rx_clear_keeps.

Definition hw_send : list xev := [XWrite 65; XTry 66; XTry 67; XTick; XTry 68; XFlush; XTick; XTick].
Example hw_send_example :
  utx_run utx_init hw_send = (mkUtx None None true [65; 66; 68], [65; 66; 68]) /\ ran_dry 0 false hw_send = true.
Proof. split; reflexivity. Qed.

Definition hw_stream : list yev :=
  YWrite 65 :: repeat YStep 5 ++ [YIsr] ++ YWrite 66 :: repeat YStep 5 ++ [YIsr; YIsr] ++ YWrite 67 :: repeat YStep 5 ++ [YIsr; YTick; YIsr].
Example hw_stream_example :
  xport_polite 8 (xport_init (fun _ => 0)) false hw_stream = true /\
  option_map (fun p => (x_line (y_utx p), outstanding (y_utx p))) (xport_run 8 (xport_init (fun _ => 0)) hw_stream) = Some ([65], [66; 67]).
Proof. split; reflexivity. Qed.

(** Three queued, one goes out while Flush is at work, the others are dropped. *)
Definition flush_history : list txev :=
  (TxStart 1 :: repeat TxStep 5) ++ [TxIsr] ++ (TxStart 2 :: repeat TxStep 5) ++ (TxStart 3 :: repeat TxStep 5) ++ (TxStart 4 :: repeat TxStep 5).
Example flush_example :
  tx_polite 8 (tx_init (fun _ => 0)) false flush_history = true /\
  option_map (fun s => option_map t_sent (tx_flush 8 0 1 2 s)) (tx_run 8 (tx_init (fun _ => 0)) flush_history) = Some (Some [1; 2]).
Proof. split; reflexivity. Qed.

(** A character that arrives during Clear is lost when exactly one has been read before. *)
Definition clear_history : list rxev :=
  (RxStart :: repeat RxStep 6) ++ [RxIsr 5 true] ++ (RxStart :: repeat RxStep 6) ++ [RxIsr 6 true].
Example clear_example :
  rx_polite 8 (rx_init (fun _ => 0)) false clear_history = true /\
  option_map (fun s => option_map (fun s' => ring_length 8 (r_ring s')) (rx_clear 8 [9] s)) (rx_run 8 (rx_init (fun _ => 0)) clear_history) = Some (Some 0).
Proof. split; reflexivity. Qed.
