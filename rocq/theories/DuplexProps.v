(** C109: both streams on one USART, whose enable bits are in one register. *)
Require Import ZArith List Bool.
Import ListNotations.
From Verif Require Import Base RingModel StreamModel StreamSpec AvrModel AvrSpec DuplexModel DuplexSpec DuplexProofs.
Open Scope Z_scope.

(** C109.  A program that makes calls of Write, Read and the switches in any order, with both handlers between any two
    steps (at most one run in each wrap-around window): nothing is out of bounds, both directions are first in first
    out, the transmit interrupt is on whenever something is queued and no Write is in progress, the receive interrupt is
    on between Reads exactly from the first Read on, and no other bit of UCSRB but TXB8 changes that is not switched. *)
Theorem duplex_streams : forall St Sr mt mr b evs, 1 <= St <= 65535 -> 1 <= Sr <= 65535 -> byte b -> Z.testbit b 7 = false ->
  Forall switch evs -> d_polite St Sr (d_init mt mr b) false false evs = true ->
  exists d, d_run St Sr (d_init mt mr b) evs = Some d /\ (exists qt, tx_good St d qt) /\ (exists qr, rx_good Sr d qr) /\
    (forall i, 1 <= i < 8 -> i <> 5 -> i <> 7 -> Forall (unswitched i) evs -> Z.testbit (d_b d) i = Z.testbit b i).
Proof. exact (fun St Sr mt mr b evs HT HR => dx_good_l St Sr HT HR mt mr b evs). Qed.
Print Assumptions duplex_streams.

(** C109, progress.  Outside Write, even inside Read or a switch, at most [St] runs of the handler send all that was accepted and switch
    the interrupt off; the receiving stream is as before. *)
Theorem duplex_drains : forall St Sr mt mr b evs d, 1 <= St <= 65535 -> 1 <= Sr <= 65535 -> byte b -> Z.testbit b 7 = false ->
  Forall switch evs -> d_polite St Sr (d_init mt mr b) false false evs = true ->
  d_run St Sr (d_init mt mr b) evs = Some d -> t_pc (d_tx d) = TIdle ->
  exists n d', Z.of_nat n <= St /\ d_run St Sr (d_init mt mr b) (evs ++ repeat DUdre n) = Some d' /\
    t_sent (d_tx d') = accepted (t_done (d_tx d)) /\ Z.testbit (d_b d') 5 = false /\ t_done (d_tx d') = t_done (d_tx d) /\ d_rx d' = d_rx d.
Proof. exact (fun St Sr mt mr b evs d HT HR => dx_drain_l St Sr HT HR mt mr b evs d). Qed.
Print Assumptions duplex_drains.

(** C109, what goes in.  The finished calls of Write and the call in progress have the values the calls were made with, in
    order; a Write is refused exactly if at its test St-1 bytes are accepted but not yet sent; a character is stored exactly if it is
    received without error, the interrupt is on, and fewer than Sr-1 are waiting. *)
Theorem duplex_calls : forall St Sr mt mr b evs d, d_run St Sr (d_init mt mr b) evs = Some d ->
  offered (d_tx d) = map u8 (d_calls St Sr (d_init mt mr b) evs).
Proof. exact (fun St Sr mt mr b evs d => dcalls_run St Sr evs (d_init mt mr b) d). Qed.
Print Assumptions duplex_calls.
Theorem duplex_accepts : forall St Sr mt mr b evs d v, 1 <= St <= 65535 -> 1 <= Sr <= 65535 -> byte b -> Z.testbit b 7 = false ->
  Forall switch evs -> d_polite St Sr (d_init mt mr b) false false evs = true ->
  d_run St Sr (d_init mt mr b) evs = Some d -> t_pc (d_tx d) = TCheck v ->
  exists d', d_step St Sr d DStep = Some d' /\
    (if Z.of_nat (length (accepted (t_done (d_tx d)))) - Z.of_nat (length (t_sent (d_tx d))) <? St - 1
     then t_pc (d_tx d') = TStore v /\ t_done (d_tx d') = t_done (d_tx d) else t_pc (d_tx d') = TEnable /\ t_done (d_tx d') = t_done (d_tx d) ++ [(v, false)]).
Proof. exact (fun St Sr mt mr b evs d v HT HR => dx_accept_l St Sr HT HR mt mr b evs d v). Qed.
Print Assumptions duplex_accepts.
Theorem duplex_stores : forall St Sr mt mr b evs d v ok, 1 <= St <= 65535 -> 1 <= Sr <= 65535 -> byte b -> Z.testbit b 7 = false ->
  Forall switch evs -> d_polite St Sr (d_init mt mr b) false false (evs ++ [DRxc v ok]) = true ->
  d_run St Sr (d_init mt mr b) evs = Some d ->
  exists d', d_step St Sr d (DRxc v ok) = Some d' /\ d_tx d' = d_tx d /\ d_b d' = d_b d /\ r_got (d_rx d') = r_got (d_rx d) /\
    r_acc (d_rx d') = r_acc (d_rx d) ++ (if Z.testbit (d_b d) 7 && ok && (rx_waiting (d_rx d) <? Sr - 1) then [u8 v] else []).
Proof. exact (fun St Sr mt mr b evs d v ok HT HR => dx_store_l St Sr HT HR mt mr b evs d v ok). Qed.
Print Assumptions duplex_stores.

(** C109, the switches.  A switch made between calls has its effect when it is finished, whatever the handlers did meanwhile. *)
Theorem duplex_switch : forall St Sr mt mr b evs k v evs' d d', 1 <= St <= 65535 -> 1 <= Sr <= 65535 -> byte b -> Z.testbit b 7 = false ->
  Forall switch evs -> k = 3 \/ k = 4 \/ k = 6 ->
  d_polite St Sr (d_init mt mr b) false false (evs ++ DSet k v :: evs') = true ->
  d_run St Sr (d_init mt mr b) evs = Some d -> at_rest d = true -> Forall no_call evs' -> d_run St Sr d (DSet k v :: evs') = Some d' ->
  at_rest d' = true -> Z.testbit (d_b d') k = v.
Proof. exact (fun St Sr mt mr b evs k v evs' d d' HT HR => dx_switch_l St Sr HT HR mt mr b evs k v evs' d d'). Qed.
Print Assumptions duplex_switch.
Example duplex_switch_example : option_map (fun d => (d_b d, at_rest d, t_sent (d_tx d)))
  (d_run 4 4 (d_init (fun _ => 0) (fun _ => 0) 24) ([DWrite 65] ++ repeat DStep 8 ++ [DSet 4 false; DStep; DUdre; DStep])) = Some (40, true, [65]).
Proof. lazy; reflexivity. Qed.

(** Finding: a Write made in a handler while the main program is in Read (whose switch on has loaded UCSRB) stays in
    the buffer: its interrupt is switched off by Read's store, and no run of the handler sends it. *)
Theorem duplex_handler_write_refuted : exists b d1 d2 d, byte b /\ d_run 4 4 (d_init (fun _ => 0) (fun _ => 0) b) in_read = Some d1 /\
  isr_write 4 d1 65 = Some d2 /\ d_run 4 4 d2 [DStep; DStep; DStep] = Some d /\ at_rest d = true /\
  accepted (t_done (d_tx d)) = [65] /\ t_sent (d_tx d) = [] /\ ring_length 4 (t_ring (d_tx d)) = 1 /\ d_b d = 152 /\
  forall n, d_run 4 4 d (repeat DUdre n) = Some d.
Proof. exact handler_write_l. Qed.
Print Assumptions duplex_handler_write_refuted.

(** Write(65), sent at once; then Read, whose switch on has loaded UCSRB when the handler switches itself off: its bit is
    back on with nothing queued, and the next run switches it off. *)
Definition dup_evs : list dev := [DWrite 65] ++ repeat DStep 8 ++ [DUdre; DRead; DStep; DStep; DStep; DUdre; DStep; DStep; DStep].
Example duplex_example :
  d_polite 4 4 (d_init (fun _ => 0) (fun _ => 0) 24) false false dup_evs = true /\
  option_map (fun d => (d_b d, t_sent (d_tx d), r_got (d_rx d), at_rest d)) (d_run 4 4 (d_init (fun _ => 0) (fun _ => 0) 24) dup_evs) = Some (184, [65], [-1], true) /\
  option_map (fun d => (d_b d, t_sent (d_tx d))) (d_run 4 4 (d_init (fun _ => 0) (fun _ => 0) 24) (dup_evs ++ [DUdre])) = Some (152, [65]).
Proof. repeat split; lazy; reflexivity. Qed.
(** A full exchange: a character is received between the loads and stores of Write's switch on. *)
Example duplex_example2 :
  option_map (fun d => (d_b d, t_sent (d_tx d), r_got (d_rx d)))
    (d_run 4 4 (d_init (fun _ => 0) (fun _ => 0) 28) ([DRead] ++ repeat DStep 6 ++ [DWrite 66] ++ repeat DStep 6 ++ [DRxc 7 true; DStep; DStep; DUdre; DRead] ++ repeat DStep 5)) = Some (188, [66], [-1; 7]).
Proof. lazy; reflexivity. Qed.
