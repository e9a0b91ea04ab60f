(** C104: MIDI messages from MidiWriter on one board to MidiReader on another, with the levels of the line in between. *)
Require Import ZArith List Bool Lia.
Import ListNotations.
From Verif Require Import Base AvrModel AvrSpec WireModel WireSpec RingModel StreamModel StreamSpec HwRxModel HwRxSpec HwTxModel HwTxSpec
  WireLinkModel MidiModel MidiSpec LinkModel MidiWireModel MidiWireProofs.
Open Scope Z_scope.

(** The sending board, any schedule: the run is defined; if no byte was refused, the line has the bytes of the messages in
    order, except for at most [Size + 2] on their way and those MidiWriter has still to write. *)
Theorem midi_wire_sent : forall Size m evs ys s', 1 <= Size <= 65535 -> s_steps Size (s_start m) evs = (ys, s') ->
  xport_polite Size (xport_init m) false ys = true ->
  exists s, s' = Some s /\
    (Forall w_valid (s_ops s) -> Forall (fun d => snd d = true) (t_done (HwTxModel.y_tx (s_port s))) ->
     exists waiting, write_all 0 (s_ops s) = x_line (y_utx (s_port s)) ++ waiting ++ map u8 (s_todo s) /\
       Z.of_nat (length waiting) <= Size + 2).
Proof. exact s_sends_l. Qed.
(** Both boards: any rates near enough (C100), any times on the line that leave room for a frame, any schedules.  If the
    receiver's handler lets no character wait for two characters' time and finds room, the reports are the first of the
    messages that were given to Write, and all of them once all frames are over, the handler has taken the characters and
    MidiReader::Read has been called once for each byte in the buffer. *)
Theorem midi_wire : forall F G c1 c2 id1 id2 m1 m2 cs a t0 sched Size m evs ys s,
  1 <= F -> 1 <= G -> id1 = 0 \/ id1 = 1 -> id2 = 0 \/ id2 = 1 -> c_bits c1 = 3 -> c_bits c2 = 3 -> c_par c2 = c_par c1 ->
  0 <= c_ubrr c1 < 65536 -> 0 <= c_ubrr c2 < 65536 -> c_div c1 = 8 \/ c_div c1 = 16 -> c_div c2 = 8 \/ c_div c2 = 16 ->
  tolerable (speed_samples (c_div c2)) (speed_middle (c_div c2)) (last_bit 8 (c_par c1))
    (bit_time G (c_div c1) (c_ubrr c1)) (sample_time F (c_ubrr c2)) ->
  WireSpec.spaced (frame_time G c1) t0 cs -> a - sample_time F (c_ubrr c2) < t0 ->
  1 <= Size <= 65535 -> s_steps Size (s_start m) evs = (ys, Some s) -> xport_polite Size (xport_init m) false ys = true ->
  map snd cs = x_line (y_utx (s_port s)) ->
  Forall w_valid (s_ops s) -> Forall (fun d => snd d = true) (t_done (HwTxModel.y_tx (s_port s))) ->
  forall Size' m', 1 <= Size' <= 65535 ->
  exists tevs x', midi_receiving F G (opened m1 id1 c1) id1 (opened m2 id2 c2) id2 cs a Size' m' sched = Some (tevs, x') /\
  (port_polite Size' (port_init m') false (map snd tevs) = true ->
   HwRxSpec.served (2 * (c_div c2 * (match c_par c1 with POff => 9 | _ => 10 end))) [] false (timed Size' (port_init m') tevs) = true ->
   exists x, x' = Some x /\
     (length (r_acc (p_rx (v_port x))) = length (p_taken (v_port x)) \/ Z.of_nat (length (p_taken (v_port x))) <= Size' - 1 ->
      (exists rest, map w_seen (s_ops s) = map seen (v_notes x) ++ rest) /\
      (v_pc x = VMidi MIdle -> unread (p_uart (v_port x)) = [] ->
       length cs = length (write_all 0 (s_ops s)) ->
       Forall (fun f => fst f + frame_time G c1 <= a + (Z.of_nat (length sched) - 1) * sample_time F (c_ubrr c2)) cs ->
       exists ps x1, v_steps Size' x (concat (repeat (VvRead :: repeat VvStep 7) (Z.to_nat (ring_length Size' (r_ring (p_rx (v_port x))))))) = (ps, Some x1) /\
         v_pc x1 = VMidi MIdle /\ map seen (v_notes x1) = map w_seen (s_ops s)))).
Proof. exact midi_wire_l. Qed.

(** 31250 baud, both at 16 MHz: note on, note on with running status, clock. *)
Definition mw_cfg : ucfg := mkCfg 16 31 3 POff false.
Definition mw_on (k : Z) : w_op := WMessage (mkMsg 144 0 k 64).
Definition mw_sender : list sev :=
  concat (map (fun o => SvWrite o :: repeat SvStep 30) [mw_on 60; mw_on 62; WType 248]) ++ concat (repeat [SvIsr; SvTick] 8).
Definition mw_frame : Z := frame_time 16000000 mw_cfg.
Definition mw_line : list (Z * Z) := map (fun p => (1 + mw_frame * fst p, snd p)) [(0, 144); (1, 60); (2, 64); (3, 62); (4, 64); (5, 248)].
Definition mw_read : list vev := VvRead :: repeat VvStep 10.
Definition mw_sched : list (list vev) := repeat VvStep 4 :: repeat [VvIsr] 500 ++ [mw_read] ++ repeat [VvIsr] 480 ++ [concat (repeat mw_read 6)].
Definition mw_run : option (list (Z * pev) * option mrecv) :=
  midi_receiving 16000000 16000000 (opened (fun _ => 0) 0 mw_cfg) 0 (opened (fun _ => 0) 1 mw_cfg) 1 mw_line 0 8 (fun _ => 0) mw_sched.
Example midi_wire_example :
  init_async 16000000 cfg_new 31250 = Some (mw_cfg, true) /\
  tolerable (speed_samples 16) (speed_middle 16) (last_bit 8 POff) (bit_time 16000000 16 31) (sample_time 16000000 31) /\
  WireSpec.spaced mw_frame 1 mw_line /\
  xport_polite 8 (xport_init (fun _ => 0)) false (fst (s_steps 8 (s_start (fun _ => 0)) mw_sender)) = true /\
  (option_map (fun s => (x_line (y_utx (s_port s)), map snd (t_done (HwTxModel.y_tx (s_port s))))) (snd (s_steps 8 (s_start (fun _ => 0)) mw_sender))) =
    Some ([144; 60; 64; 62; 64; 248], repeat true 6) /\
  (option_map (fun r => (port_polite 8 (port_init (fun _ => 0)) false (map snd (fst r)),
      HwRxSpec.served (2 * (16 * 9)) [] false (timed 8 (port_init (fun _ => 0)) (fst r)),
      option_map (fun x => (map seen (v_notes x), v_pc x, unread (p_uart (v_port x)))) (snd r))) mw_run) =
    Some (true, true, Some ([RMsg 144 60 64; RMsg 144 62 64; ROne 248], VMidi MIdle, [])).
Proof. repeat split; try (lazy; reflexivity); try (lazy; discriminate). Qed.

Print Assumptions midi_wire_sent.
Print Assumptions midi_wire.
