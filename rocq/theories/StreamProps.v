(** Properties of the interrupt driven streams. *)
Require Import ZArith List Bool.
Import ListNotations.
From Verif Require Import Base RingModel StreamModel StreamSpec StreamProofs StreamMore.
Open Scope Z_scope.

(** C04/C55, transmit.  For every schedule that runs the handler at most once inside each
    wrap-around window: no access is out of bounds; the bytes sent so far are a prefix of the
    bytes accepted (counting the Write in progress once its item is visible); at most Size-1 are
    in flight; between Writes the reported length is exact and the interrupt is on whenever
    something is queued. *)
Theorem tx_stream_fifo : forall Size m evs,
  1 <= Size <= 65535 ->
  tx_polite Size (tx_init m) false evs = true ->
  exists s, tx_run Size (tx_init m) evs = Some s /\
    (exists rest, accepted (t_done s) ++ (match t_pc s with TWrap v => [v] | _ => [] end)
                  = t_sent s ++ rest /\ Z.of_nat (length rest) <= Size - 1 /\
       (t_pc s = TIdle -> ring_length Size (t_ring s) = Z.of_nat (length rest) /\
                          (rest <> [] -> t_ien s = true))).
Proof. exact (fun Size m evs HS => tx_fifo_l Size HS m evs). Qed.
Print Assumptions tx_stream_fifo.

(** C55, progress.  From any such idle state the handler alone, run often enough, sends every
    accepted byte and then switches its interrupt off. *)
Theorem tx_stream_drains : forall Size m evs s,
  1 <= Size <= 65535 ->
  tx_polite Size (tx_init m) false evs = true ->
  tx_run Size (tx_init m) evs = Some s -> t_pc s = TIdle ->
  exists n s', tx_run Size (tx_init m) (evs ++ repeat TxIsr n) = Some s' /\
    t_sent s' = accepted (t_done s) /\ t_done s' = t_done s /\ t_ien s' = false.
Proof. exact (fun Size m evs s HS => tx_drains_l Size HS m evs s). Qed.
Print Assumptions tx_stream_drains.

(** C04, receive.  Mirror image: the bytes the handler stored are, in order, those returned by
    Read, the one being returned, and those still queued. *)
Theorem rx_stream_fifo : forall Size m evs,
  1 <= Size <= 65535 ->
  rx_polite Size (rx_init m) false evs = true ->
  exists s, rx_run Size (rx_init m) evs = Some s /\
    exists rest, r_acc s = filter (fun v => 0 <=? v) (r_got s)
                           ++ (match r_pc s with RWrap v => [v] | _ => [] end) ++ rest /\
      Z.of_nat (length rest) <= Size - 1 /\
      (r_pc s = RIdle -> ring_length Size (r_ring s) = Z.of_nat (length rest)).
Proof. exact (fun Size m evs HS => rx_fifo_l Size HS m evs). Qed.
Print Assumptions rx_stream_fifo.

(** C04, receive: although getLength reads the cursors twice, Read answers -1 exactly when, at
    the second reading, nothing is queued. *)
Theorem rx_stream_no_false_empty : forall Size m evs s ge,
  1 <= Size <= 65535 ->
  rx_polite Size (rx_init m) false evs = true ->
  rx_run Size (rx_init m) evs = Some s -> r_pc s = RSub ge ->
  exists s', rx_step Size s RxStep = Some s' /\
    (r_pc s' = REnable <-> r_acc s = filter (fun v => 0 <=? v) (r_got s)) /\
    (r_pc s' = RLoad \/ r_pc s' = REnable).
Proof. exact (fun Size m evs s ge HS => rx_no_false_empty_l Size HS m evs s ge). Qed.
Print Assumptions rx_stream_no_false_empty.

(** C04, receive, any schedule: the first Read answers -1; the receive interrupt is on exactly from then on,
    and before it nothing is stored. *)
Theorem rx_stream_first_read : forall Size m evs s, rx_run Size (rx_init m) evs = Some s ->
  (r_ien s = true <-> r_got s <> []) /\ (forall v rest, r_got s = v :: rest -> v = -1) /\ (r_ien s = false -> r_acc s = []).
Proof. exact rx_first_l. Qed.
Print Assumptions rx_stream_first_read.

(** C04, which Writes are accepted.  The values of the finished calls and the call in progress are those the calls
    were made with, in order; a Write is refused exactly if at its test Size-1 bytes are accepted but not yet sent. *)
Theorem tx_stream_calls : forall Size m evs s, tx_run Size (tx_init m) evs = Some s ->
  offered s = map u8 (tx_calls Size (tx_init m) evs).
Proof. exact (fun Size m evs s => calls_run Size evs (tx_init m) s). Qed.
Print Assumptions tx_stream_calls.
Theorem tx_stream_accepts : forall Size m evs s v, 1 <= Size <= 65535 ->
  tx_polite Size (tx_init m) false evs = true -> tx_run Size (tx_init m) evs = Some s -> t_pc s = TCheck v ->
  exists s', tx_step Size s TxStep = Some s' /\
    (if Z.of_nat (length (accepted (t_done s))) - Z.of_nat (length (t_sent s)) <? Size - 1
     then t_pc s' = TStore v /\ t_done s' = t_done s else t_pc s' = TEnable /\ t_done s' = t_done s ++ [(v, false)]).
Proof. exact (fun Size m evs s v HS => accept_l Size HS m evs s v). Qed.
Print Assumptions tx_stream_accepts.

(** C04, which characters are stored: exactly those received without error, with the interrupt on, while fewer than
    Size-1 are waiting; of a character the low byte. *)
Theorem rx_stream_stores : forall Size m evs s v ok, 1 <= Size <= 65535 ->
  rx_polite Size (rx_init m) false (evs ++ [RxIsr v ok]) = true -> rx_run Size (rx_init m) evs = Some s ->
  exists s', rx_step Size s (RxIsr v ok) = Some s' /\ r_got s' = r_got s /\ r_pc s' = r_pc s /\ r_ien s' = r_ien s /\
    r_acc s' = r_acc s ++ (if r_ien s && ok && (rx_waiting s <? Size - 1) then [u8 v] else []).
Proof. exact (fun Size m evs s v ok HS => store_l Size HS m evs s v ok). Qed.
Print Assumptions rx_stream_stores.

(** Finding: without the schedule restriction both directions fail.  Transmit: byte 10 is sent
    twice although it was written once, and the buffer ends up claiming one more byte. *)
Theorem tx_stream_any_schedule_refuted :
  exists Size m evs s, tx_run Size (tx_init m) evs = Some s /\ t_pc s = TIdle /\
    accepted (t_done s) = [10; 20] /\ t_sent s = [10; 20; 10] /\ ring_length Size (t_ring s) = 1.
Proof. exact tx_unrestricted_l. Qed.
Print Assumptions tx_stream_any_schedule_refuted.

(** Receive: the handler stored six bytes, three were delivered, and the buffer claims to be
    empty: bytes 4, 5 and 6 are lost. *)
Theorem rx_stream_any_schedule_refuted :
  exists Size m evs s, rx_run Size (rx_init m) evs = Some s /\ r_pc s = RIdle /\
    r_acc s = [1; 2; 3; 4; 5; 6] /\ r_got s = [-1; 1; 2; 3] /\ ring_length Size (r_ring s) = 0.
Proof. exact rx_unrestricted_l. Qed.
Print Assumptions rx_stream_any_schedule_refuted.

(** getLength preempted is exact for the moment of the subtraction unless the comparison has changed meanwhile;
    then it is off by Size, modulo 2^16. *)
Theorem length_preempted : forall (T : Type) Size (a b : ring T), 0 <= rb_wr b < Size -> 0 <= rb_rd b < Size -> Size <= 65535 ->
  split_length Size a b =
    if Bool.eqb (rb_wr a >=? rb_rd a) (rb_wr b >=? rb_rd b) then ring_length Size b
    else (ring_length Size b + (if rb_wr a >=? rb_rd a then - Size else Size)) mod 65536.
Proof. exact split_exact. Qed.
Print Assumptions length_preempted.
(** Finding: getLength preempted by one guarded Read can report more than Size items. *)
Theorem length_preempted_refuted :
  exists (a b : ring Z) v, ring_length 16 a = 3 /\ ring_read 16 a = Some (b, v) /\
    ring_length 16 b = 2 /\ split_length 16 a b = 18.
Proof. exact split_length_l. Qed.
Print Assumptions length_preempted_refuted.

(** Non-vacuity: a polite schedule with a handler run inside the wrap window and between all
    other accesses. *)
Example tx_polite_example :
  let evs := tx_write 10 ++ [TxStart 20; TxIsr; TxStep; TxStep; TxStep; TxIsr; TxStep; TxStep]
             ++ tx_write 30 ++ [TxStart 40; TxStep; TxStep; TxIsr; TxStep; TxStep; TxStep] in
  tx_polite 2 (tx_init (fun _ => 0)) false evs = true /\
  option_map (fun s => (t_sent s, t_done s)) (tx_run 2 (tx_init (fun _ => 0)) evs)
  = Some ([10; 20; 30], [(10, true); (20, true); (30, true); (40, false)]).
Proof. vm_compute. auto. Qed.

(** A polite receive schedule with one character arriving inside the wrap window. *)
Example rx_polite_example :
  let evs := [RxStart; RxStep; RxStep; RxStep] ++ [RxIsr 1 true; RxIsr 2 true; RxIsr 9 true]
    ++ rx_read_evs ++ rx_read_evs ++ [RxIsr 3 true; RxIsr 7 false; RxIsr 4 true]
    ++ [RxStart; RxStep; RxStep; RxStep; RxStep] ++ [RxIsr 261 true] ++ [RxStep]
    ++ rx_read_evs ++ rx_read_evs in
  rx_polite 3 (rx_init (fun _ => 0)) false evs = true /\
  option_map (fun s => (r_acc s, r_got s, r_pc s)) (rx_run 3 (rx_init (fun _ => 0)) evs)
  = Some ([1; 2; 3; 4; 5], [-1; 1; 2; 3; 4; 5], RIdle).
Proof. vm_compute. auto. Qed.
