(** C101: from UsartOutputStream::Write on one board to UsartInputStream::Read on another with its own clock, with
    streams, registers, shift registers and the levels of the line in between. *)
Require Import ZArith List Bool Lia.
Import ListNotations.
From Verif Require Import Base AvrModel AvrSpec WireModel WireSpec RingModel StreamModel StreamSpec HwRxModel HwRxSpec HwTxModel HwTxSpec
  WireLinkModel WireLinkProofs.
Open Scope Z_scope.

(** Both boards asked for the same rate with 8 data bits; the sender runs any schedule, its characters go over the
    line at any times that leave room for a frame; the receiver's software does anything after each sample.  If its
    handler lets no character wait for two characters' time (served: in samples), what Read has answered, the ring
    buffer and the hardware hold is, in order, the beginning of what Write accepted, as far as the line has got. *)
Theorem wire_stream : forall F G b c1 c2 c1' c2' id1 id2 m1 m2 cs a t0 sched Size m evs p,
  1 <= F -> 1 <= G -> 1 <= b <= 65535 -> F / (8 * b) <= 32768 -> G / (8 * b) <= 32768 ->
  init_async F c1 b = Some (c1', true) -> init_async G c2 b = Some (c2', true) ->
  F < 16 * b \/ 32 * b <= F \/ b <= 32767 -> G < 16 * b \/ 32 * b <= G \/ b <= 32767 ->
  id1 = 0 \/ id1 = 1 -> id2 = 0 \/ id2 = 1 ->
  c_bits c1 = 3 -> c_bits c2 = 3 -> c_par c2 = c_par c1 -> 42 <= c_ubrr c1' -> 26 <= c_ubrr c2' ->
  WireSpec.spaced (frame_time G c1') t0 cs -> a - sample_time F (c_ubrr c2') < t0 ->
  1 <= Size <= 65535 -> xport_polite Size (xport_init m) false evs = true -> xport_run Size (xport_init m) evs = Some p ->
  map snd cs = x_line (y_utx p) -> Forall (fun sw => forallb software sw = true) sched ->
  exists tevs c, receiving F G (opened m1 id1 c1') id1 (opened m2 id2 c2') id2 cs a sched = Some tevs /\
    hears (frame_time G c1') (frame_time G c1' - bit_time G (c_div c1') (c_ubrr c1') * (if c_two c1' then 2 else 1)) cs
      (a + (Z.of_nat (length sched) - 1) * sample_time F (c_ubrr c2')) c /\
    forall Size' m', 1 <= Size' <= 65535 -> port_polite Size' (port_init m') false (map snd tevs) = true ->
      served (2 * (c_div c2' * (match c_par c1 with POff => 9 | _ => 10 end))) [] false (timed Size' (port_init m') tevs) = true ->
      exists r, port_run Size' (port_init m') (map snd tevs) = Some r /\
        (length (r_acc (p_rx r)) = length (p_taken r) \/ Z.of_nat (length (p_taken r)) <= Size' - 1 ->
         exists queued later, in_ring Size' (p_rx r) queued /\
           filter (fun v => 0 <=? v) (r_got (p_rx r)) ++ (match r_pc (p_rx r) with RWrap v => [v] | _ => [] end) ++
             queued ++ map (fun c => u8 (fst c)) (unread (p_uart r)) = firstn c (map snd cs) /\
           accepted (t_done (y_tx p)) ++ (match t_pc (y_tx p) with TWrap v => [v] | _ => [] end) =
             firstn c (map snd cs) ++ later).
Proof. exact wire_stream_l. Qed.

(** The same for any two configurations of 8 bits and equal parity whose rates are near enough (C100). *)
Theorem wire_stream_rates : forall F G c1 c2 id1 id2 m1 m2 cs a t0 sched Size m evs p,
  1 <= F -> 1 <= G -> id1 = 0 \/ id1 = 1 -> id2 = 0 \/ id2 = 1 -> c_bits c1 = 3 -> c_bits c2 = 3 -> c_par c2 = c_par c1 ->
  0 <= c_ubrr c1 < 65536 -> 0 <= c_ubrr c2 < 65536 -> c_div c1 = 8 \/ c_div c1 = 16 -> c_div c2 = 8 \/ c_div c2 = 16 ->
  tolerable (speed_samples (c_div c2)) (speed_middle (c_div c2)) (last_bit 8 (c_par c1))
    (bit_time G (c_div c1) (c_ubrr c1)) (sample_time F (c_ubrr c2)) ->
  WireSpec.spaced (frame_time G c1) t0 cs -> a - sample_time F (c_ubrr c2) < t0 ->
  1 <= Size <= 65535 -> xport_polite Size (xport_init m) false evs = true -> xport_run Size (xport_init m) evs = Some p ->
  map snd cs = x_line (y_utx p) -> Forall (fun sw => forallb software sw = true) sched ->
  exists tevs c, receiving F G (opened m1 id1 c1) id1 (opened m2 id2 c2) id2 cs a sched = Some tevs /\
    hears (frame_time G c1) (frame_time G c1 - bit_time G (c_div c1) (c_ubrr c1) * (if c_two c1 then 2 else 1)) cs
      (a + (Z.of_nat (length sched) - 1) * sample_time F (c_ubrr c2)) c /\
    forall Size' m', 1 <= Size' <= 65535 -> port_polite Size' (port_init m') false (map snd tevs) = true ->
      served (2 * (c_div c2 * (match c_par c1 with POff => 9 | _ => 10 end))) [] false (timed Size' (port_init m') tevs) = true ->
      exists r, port_run Size' (port_init m') (map snd tevs) = Some r /\
        (length (r_acc (p_rx r)) = length (p_taken r) \/ Z.of_nat (length (p_taken r)) <= Size' - 1 ->
         exists queued later, in_ring Size' (p_rx r) queued /\
           filter (fun v => 0 <=? v) (r_got (p_rx r)) ++ (match r_pc (p_rx r) with RWrap v => [v] | _ => [] end) ++
             queued ++ map (fun c => u8 (fst c)) (unread (p_uart r)) = firstn c (map snd cs) /\
           accepted (t_done (y_tx p)) ++ (match t_pc (y_tx p) with TWrap v => [v] | _ => [] end) =
             firstn c (map snd cs) ++ later).
Proof. exact wire_rates_l. Qed.

(** 'A' and 'B' from 16 MHz to 8 MHz at 9600 baud, without a pause. *)
Definition wl_write (v : Z) : list yev := YWrite v :: repeat YStep 5.
Definition wl_sender : list yev := wl_write 65 ++ wl_write 66 ++ [YIsr; YIsr; YTick; YIsr; YTick].
Definition wl_read : list pev := PRead :: repeat PStep 7.
Definition wl_sched : list (list pev) := wl_read :: repeat [PIsr] 330 ++ [wl_read ++ wl_read ++ wl_read].
Definition wl_events : option (list (Z * pev)) :=
  receiving 16000000 8000000 (opened (fun _ => 0) 0 (mkCfg 16 103 3 POff false)) 0
    (opened (fun _ => 0) 1 (mkCfg 16 51 3 POff false)) 1 [(1, 65); (133120000001, 66)] 0 wl_sched.
Example wire_stream_example :
  xport_polite 8 (xport_init (fun _ => 0)) false wl_sender = true /\
  option_map (fun p => x_line (y_utx p)) (xport_run 8 (xport_init (fun _ => 0)) wl_sender) = Some [65; 66] /\
  forallb (forallb software) wl_sched = true /\
  option_map (fun e => (port_polite 8 (port_init (fun _ => 0)) false (map snd e),
      served (2 * (16 * 9)) [] false (timed 8 (port_init (fun _ => 0)) e),
      option_map (fun r => r_got (p_rx r)) (port_run 8 (port_init (fun _ => 0)) (map snd e)))) wl_events
  = Some (true, true, Some [-1; 65; 66; -1]).
Proof. repeat split; lazy; reflexivity. Qed.

Print Assumptions wire_stream.
Print Assumptions wire_stream_rates.
