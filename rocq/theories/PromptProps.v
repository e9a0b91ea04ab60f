(** C105: handlers that get their turn when they are due keep the streams in order. *)
Require Import ZArith List Bool Lia.
Import ListNotations.
From Verif Require Import Base AvrModel AvrSpec WireModel WireSpec RingModel StreamModel StreamSpec HwRxModel HwRxSpec HwTxModel HwTxSpec
  WireLinkModel WireLinkProofs HwLinkProps MidiModel MidiSpec LinkModel MidiWireModel MidiWireProofs NoiseModel NoiseSpec NoiseProps PromptModel PromptProofs.
Open Scope Z_scope.
Notation y_tx := HwTxModel.y_tx.

(** The program goes on only once while the receive handler is due (after a handler run, or after the interrupt was
    enabled), and at most one character is completed during each call of Read: then at most one handler run falls into
    each wrap-around window, which is what C04 and C95 ask for. *)
Theorem prompt_rx : forall Size m evs, rx_prompt (port_step Size) (port_init m) false evs = true -> rx_quick (port_step Size) (port_init m) false evs = true ->
  port_polite Size (port_init m) false evs = true.
Proof. exact rx_polite_port. Qed.
(** The same for Write, with the characters that leave the transmitter. *)
Theorem prompt_tx : forall Size m evs, tx_prompt Size (xport_init m) false evs = true -> tx_quick Size (xport_init m) false evs = true ->
  xport_polite Size (xport_init m) false evs = true.
Proof. exact tx_polite_init. Qed.
(** When characters take at least [B] each and no call of Read lasts that long, no call sees two of them. *)
Theorem prompt_brief : forall Size B m evs now, paced B now None (timed Size (port_init m) evs) = true -> in_order now evs = true ->
  rx_brief (port_step Size) B (port_init m) now evs = true -> rx_quick (port_step Size) (port_init m) false (map snd evs) = true.
Proof. exact brief_port. Qed.

(** C98 with such handlers. *)
Theorem prompt_link : forall Size m evs p Size' m' evs' n,
  1 <= Size <= 65535 -> tx_prompt Size (xport_init m) false evs = true -> tx_quick Size (xport_init m) false evs = true ->
  xport_run Size (xport_init m) evs = Some p ->
  1 <= Size' <= 65535 -> rx_prompt (port_step Size') (port_init m') false evs' = true -> rx_quick (port_step Size') (port_init m') false evs' = true ->
  chars false (wire Size' (port_init m') evs') = firstn n (x_line (y_utx p)) ->
  losses 0 false (wire Size' (port_init m') evs') = 0%nat ->
  exists r, port_run Size' (port_init m') evs' = Some r /\
    (length (r_acc (p_rx r)) = length (p_taken r) \/ Z.of_nat (length (p_taken r)) <= Size' - 1 ->
     exists queued later, in_ring Size' (p_rx r) queued /\
       filter (fun v => 0 <=? v) (r_got (p_rx r)) ++ (match r_pc (p_rx r) with RWrap v => [v] | _ => [] end) ++
         queued ++ map (fun c => u8 (fst c)) (unread (p_uart r)) = firstn n (x_line (y_utx p)) /\
       accepted (t_done (y_tx p)) ++ (match t_pc (y_tx p) with TWrap v => [v] | _ => [] end) =
         firstn n (x_line (y_utx p)) ++ later).
Proof.
  intros Size m evs p Size' m' evs' n HS P Q R HS' P' Q' C L.
  exact (hw_link Size m evs p Size' m' evs' n HS (prompt_tx _ _ _ P Q) R HS' (prompt_rx _ _ _ P' Q') C L).
Qed.

(** C101 with such handlers: over the levels of the line, no call of Read lasting as long as a character on it. *)
Theorem prompt_wire : forall F G c1 c2 id1 id2 m1 m2 cs a t0 sched Size m evs p,
  1 <= F -> 1 <= G -> id1 = 0 \/ id1 = 1 -> id2 = 0 \/ id2 = 1 -> c_bits c1 = 3 -> c_bits c2 = 3 -> c_par c2 = c_par c1 ->
  0 <= c_ubrr c1 < 65536 -> 0 <= c_ubrr c2 < 65536 -> c_div c1 = 8 \/ c_div c1 = 16 -> c_div c2 = 8 \/ c_div c2 = 16 ->
  tolerable (speed_samples (c_div c2)) (speed_middle (c_div c2)) (last_bit 8 (c_par c1))
    (bit_time G (c_div c1) (c_ubrr c1)) (sample_time F (c_ubrr c2)) ->
  WireSpec.spaced (frame_time G c1) t0 cs -> a - sample_time F (c_ubrr c2) < t0 ->
  1 <= Size <= 65535 -> tx_prompt Size (xport_init m) false evs = true -> tx_quick Size (xport_init m) false evs = true ->
  xport_run Size (xport_init m) evs = Some p ->
  map snd cs = x_line (y_utx p) -> Forall (fun sw => forallb software sw = true) sched ->
  let B := c_div c2 * (match c_par c1 with POff => 9 | _ => 10 end) in
  exists tevs c, receiving F G (opened m1 id1 c1) id1 (opened m2 id2 c2) id2 cs a sched = Some tevs /\
    hears (frame_time G c1) (frame_time G c1 - bit_time G (c_div c1) (c_ubrr c1) * (if c_two c1 then 2 else 1)) cs
      (a + (Z.of_nat (length sched) - 1) * sample_time F (c_ubrr c2)) c /\
    forall Size' m', 1 <= Size' <= 65535 -> rx_prompt (port_step Size') (port_init m') false (map snd tevs) = true ->
      rx_brief (port_step Size') B (port_init m') (-1) tevs = true ->
      HwRxSpec.served (2 * B) [] false (timed Size' (port_init m') tevs) = true ->
      exists r, port_run Size' (port_init m') (map snd tevs) = Some r /\
        (length (r_acc (p_rx r)) = length (p_taken r) \/ Z.of_nat (length (p_taken r)) <= Size' - 1 ->
         exists queued later, in_ring Size' (p_rx r) queued /\
           filter (fun v => 0 <=? v) (r_got (p_rx r)) ++ (match r_pc (p_rx r) with RWrap v => [v] | _ => [] end) ++
             queued ++ map (fun c => u8 (fst c)) (unread (p_uart r)) = firstn c (map snd cs) /\
           accepted (t_done (y_tx p)) ++ (match t_pc (y_tx p) with TWrap v => [v] | _ => [] end) =
             firstn c (map snd cs) ++ later).
Proof.
  intros F G c1 c2 id1 id2 m1 m2 cs a t0 sched Size m evs p HF HG I1 I2 B1 B2 EP U1 U2 D1 D2 TOL SP BE HS XP XQ XR LX SW B.
  destruct (wire_rates_l F G c1 c2 id1 id2 m1 m2 cs a t0 sched Size m evs p HF HG I1 I2 B1 B2 EP U1 U2 D1 D2 TOL SP BE HS
    (prompt_tx _ _ _ XP XQ) XR LX SW) as (tevs & c & R & H & Q).
  exists tevs, c. split; [exact R|]. split; [exact H|]. intros Size' m' HS' P BR SE. refine (Q Size' m' HS' _ SE).
  refine (receiving_polite_l F G _ id1 m2 id2 c2 cs a sched tevs Size' m' I2 B2 U2 D2 SW R P _). rewrite EP. exact BR.
Qed.

(** C104 with such handlers: MIDI messages over the line. *)
Theorem prompt_midi : forall F G c1 c2 id1 id2 m1 m2 cs a t0 sched Size m evs ys s,
  1 <= F -> 1 <= G -> id1 = 0 \/ id1 = 1 -> id2 = 0 \/ id2 = 1 -> c_bits c1 = 3 -> c_bits c2 = 3 -> c_par c2 = c_par c1 ->
  0 <= c_ubrr c1 < 65536 -> 0 <= c_ubrr c2 < 65536 -> c_div c1 = 8 \/ c_div c1 = 16 -> c_div c2 = 8 \/ c_div c2 = 16 ->
  tolerable (speed_samples (c_div c2)) (speed_middle (c_div c2)) (last_bit 8 (c_par c1))
    (bit_time G (c_div c1) (c_ubrr c1)) (sample_time F (c_ubrr c2)) ->
  WireSpec.spaced (frame_time G c1) t0 cs -> a - sample_time F (c_ubrr c2) < t0 ->
  1 <= Size <= 65535 -> s_steps Size (s_start m) evs = (ys, Some s) ->
  tx_prompt Size (xport_init m) false ys = true -> tx_quick Size (xport_init m) false ys = true ->
  map snd cs = x_line (y_utx (s_port s)) ->
  Forall w_valid (s_ops s) -> Forall (fun d => snd d = true) (t_done (y_tx (s_port s))) ->
  forall Size' m', 1 <= Size' <= 65535 ->
  let B := c_div c2 * (match c_par c1 with POff => 9 | _ => 10 end) in
  exists tevs x', midi_receiving F G (opened m1 id1 c1) id1 (opened m2 id2 c2) id2 cs a Size' m' sched = Some (tevs, x') /\
  (rx_prompt (port_step Size') (port_init m') false (map snd tevs) = true -> rx_brief (port_step Size') B (port_init m') (-1) tevs = true ->
   HwRxSpec.served (2 * B) [] false (timed Size' (port_init m') tevs) = true ->
   exists x, x' = Some x /\
     (length (r_acc (p_rx (v_port x))) = length (p_taken (v_port x)) \/ Z.of_nat (length (p_taken (v_port x))) <= Size' - 1 ->
      (exists rest, map w_seen (s_ops s) = map seen (v_notes x) ++ rest) /\
      (v_pc x = VMidi MIdle -> unread (p_uart (v_port x)) = [] ->
       length cs = length (write_all 0 (s_ops s)) ->
       Forall (fun f => fst f + frame_time G c1 <= a + (Z.of_nat (length sched) - 1) * sample_time F (c_ubrr c2)) cs ->
       exists ps x1, v_steps Size' x (concat (repeat (VvRead :: repeat VvStep 7) (Z.to_nat (ring_length Size' (r_ring (p_rx (v_port x))))))) = (ps, Some x1) /\
         v_pc x1 = VMidi MIdle /\ map seen (v_notes x1) = map w_seen (s_ops s)))).
Proof.
  intros F G c1 c2 id1 id2 m1 m2 cs a t0 sched Size m evs ys s HF HG I1 I2 B1 B2 EP U1 U2 D1 D2 TOL SP BE HS XS XP XQ LX V AC Size' m' HS' B.
  pose proof (prompt_tx _ _ _ XP XQ) as PO.
  destruct (midi_wire_l F G c1 c2 id1 id2 m1 m2 cs a t0 sched Size m evs ys s HF HG I1 I2 B1 B2 EP U1 U2 D1 D2 TOL SP BE HS XS PO LX V AC Size' m' HS')
    as (tevs & x' & R & Q).
  exists tevs, x'. split; [exact R|]. intros P BR SE. refine (Q _ SE).
  destruct (s_steps_l Size evs (s_start m) ys (Some s) (s_start_inv m) XS) as [XR _]. cbn [option_map s_start s_port] in XR.
  destruct (wire_rates_l F G c1 c2 id1 id2 m1 m2 cs a t0 (map (fun _ => []) sched) Size m ys (s_port s) HF HG I1 I2 B1 B2 EP U1 U2 D1 D2 TOL SP BE HS PO XR LX)
    as (ev0 & c0 & R0 & _).
  { apply Forall_forall. intros sw IN. apply in_map_iff in IN. destruct IN as (_ & <- & _). reflexivity. }
  refine (midi_polite_l F G _ id1 m2 id2 c2 cs a sched tevs x' ev0 Size' m' I2 B2 U2 D2 R0 R P _). rewrite EP. exact BR.
Qed.

(** C102 with such handlers: a line that may carry anything. *)
Theorem prompt_noise : forall m2 id2 b par (two : bool) f sched, hw_frame m2 id2 = Some (5 + b, par, two) -> 0 <= b <= 3 ->
  Forall (fun sw => forallb software sw = true) sched ->
  let B := hw_divider m2 id2 * (6 + b + match par with POff => 0 | _ => 1 end) in
  exists tevs cs, listening m2 id2 f sched = Some tevs /\ listen m2 id2 f (length sched) = Some cs /\
  forall Size m', 1 <= Size <= 65535 -> rx_prompt (nport_step Size) (port_init m') false (map snd tevs) = true ->
    rx_brief (nport_step Size) B (port_init m') (-1) tevs = true ->
  nport_polite Size (port_init m') false (map snd tevs) = true /\
  exists p, nport_run Size (port_init m') (map snd tevs) = Some p /\
    (sound cs = [] -> r_acc (p_rx p) = [] /\ answered (p_rx p) = []) /\
    (HwRxSpec.served (2 * B) [] false (ntimed Size (port_init m') tevs) = true ->
     none_refused p \/ Z.of_nat (length (sound cs)) <= Size - 1 ->
     exists queued rest, unread (p_uart p) = map NoiseSpec.place rest /\ (length rest <= 3)%nat /\
       answered (p_rx p) ++ queued ++ flawless rest = sound cs).
Proof.
  intros m2 id2 b par two f sched HF HB SW B. destruct (noise_lossless m2 id2 b par two f sched HF HB SW) as (tevs & cs & L & C & Q).
  exists tevs, cs. split; [exact L|]. split; [exact C|]. intros Size m' HS P BR.
  pose proof (listening_polite_l m2 id2 b par two f sched tevs Size m' HF HB SW L P BR) as PO. split; [exact PO|exact (Q Size m' HS PO)].
Qed.
(** After noise the line of a sender: the good characters of the noise, then every character sent. *)
Theorem prompt_recovers : forall F G m1 id1 m2 id2 b par (two1 two2 : bool) cs a t0 f i0 sched,
  hw_frame m1 id1 = Some (5 + b, par, two1) -> hw_frame m2 id2 = Some (5 + b, par, two2) -> 0 <= b <= 3 ->
  let d := hw_divider m2 id2 in
  let T := bit_time G (hw_divider m1 id1) (hw_ubrr m1 id1) in
  let q := sample_time F (hw_ubrr m2 id2) in
  0 < q -> tolerable (speed_samples d) (speed_middle d) (last_bit (Z.to_nat (5 + b)) par) T q ->
  let K := 6 + b + (match par with POff => 0 | _ => 1 end) in
  WireSpec.spaced (T * (K + 1 + if two1 then 1 else 0)) t0 cs ->
  (forall i, Z.of_nat i0 <= i -> f i = line_of F G m1 id1 m2 id2 cs a i) ->
  let ready := (i0 + last_bit (Z.to_nat (5 + b)) par * speed_samples d + speed_middle d)%nat in
  a + (Z.of_nat ready - 1) * q < t0 ->
  Forall (fun sw => forallb software sw = true) sched ->
  exists tevs before c, listening m2 id2 f sched = Some tevs /\ listen m2 id2 f (Nat.min (length sched) ready) = Some before /\
    hears (T * (K + 1 + if two1 then 1 else 0)) (K * T) cs (a + (Z.of_nat (length sched) - 1) * q) c /\
    forall Size m', 1 <= Size <= 65535 -> rx_prompt (nport_step Size) (port_init m') false (map snd tevs) = true ->
      rx_brief (nport_step Size) (d * K) (port_init m') (-1) tevs = true ->
      HwRxSpec.served (2 * (d * K)) [] false (ntimed Size (port_init m') tevs) = true ->
    exists p, nport_run Size (port_init m') (map snd tevs) = Some p /\
      (none_refused p \/ Z.of_nat (length before + length cs) <= Size - 1 ->
       exists queued rest, unread (p_uart p) = map NoiseSpec.place rest /\ (length rest <= 3)%nat /\
         answered (p_rx p) ++ queued ++ flawless rest = sound before ++ map (fun x => snd x mod 2 ^ (5 + b)) (firstn c cs)).
Proof.
  intros F G m1 id1 m2 id2 b par two1 two2 cs a t0 f i0 sched H1 H2 HB d T q HQ TOL K SP FE ready BE SW.
  destruct (noise_stream_recovers F G m1 id1 m2 id2 b par two1 two2 cs a t0 f i0 sched H1 H2 HB HQ TOL SP FE BE SW)
    as (tevs & before & c & L & C & H & Q).
  exists tevs, before, c. split; [exact L|]. split; [exact C|]. split; [exact H|]. intros Size m' HS P BR SE.
  exact (Q Size m' HS (listening_polite_l m2 id2 b par two2 f sched tevs Size m' H2 HB SW L P BR) SE).
Qed.

(** Neither premise can be left out.  A ring buffer of 3 places; characters 1 to 4 have been received and 1 and 2 read, so it
    is full and its read cursor is on its last place. *)
Definition pr_char (d : Z) : list pev := [PStart; PStop d].
Definition pr_read : list pev := PRead :: repeat PStep 7.
Definition pr_fill : list pev := pr_read ++ concat (map (fun d => pr_char d ++ [PIsr; PStep]) [1; 2]) ++ pr_read ++ pr_read ++
  concat (map (fun d => pr_char d ++ [PIsr; PStep]) [3; 4]).
(** The program goes on while 5 and 6 wait (say interrupts are off), and both are taken inside the window. *)
Definition pr_late : list pev := pr_fill ++ pr_char 5 ++ pr_char 6 ++ (PRead :: repeat PStep 4) ++ [PIsr; PIsr; PStep; PStep] ++ pr_read.
(** The handler is prompt, and 5 and 6 are completed inside the window: this call of Read takes too long. *)
Definition pr_long : list pev := pr_fill ++ (PRead :: repeat PStep 4) ++ pr_char 5 ++ [PIsr] ++ pr_char 6 ++ [PIsr; PStep; PStep] ++ pr_read.
Theorem prompt_rx_needed :
  (rx_prompt (port_step 3) (port_init (fun _ => 0)) false pr_late = false /\ rx_quick (port_step 3) (port_init (fun _ => 0)) false pr_late = true) /\
  (rx_prompt (port_step 3) (port_init (fun _ => 0)) false pr_long = true /\ rx_quick (port_step 3) (port_init (fun _ => 0)) false pr_long = false) /\
  forall evs, evs = pr_late \/ evs = pr_long ->
  option_map (fun p => (r_got (p_rx p), r_acc (p_rx p), ring_length 3 (r_ring (p_rx p)), unread (p_uart p))) (port_run 3 (port_init (fun _ => 0)) evs) =
    Some ([-1; 1; 2; 3; -1], [1; 2; 3; 4; 5; 6], 0, []).
Proof. repeat split; try reflexivity. intros evs [-> | ->]; reflexivity. Qed.

(** Write 1 and 2, which the transmitter takes at once; then 3, whose place is the last one of the buffer. *)
Definition pt_fill : list yev := (YWrite 1 :: repeat YStep 5) ++ [YIsr; YIsr] ++ (YWrite 2 :: repeat YStep 5) ++ [YIsr].
Definition pt_drain : list yev := concat (repeat [YIsr; YTick] 9).
Definition pt_late : list yev := pt_fill ++ [YTick; YTick] ++ (YWrite 3 :: repeat YStep 3) ++ [YIsr; YIsr; YStep; YStep] ++ pt_drain.
Definition pt_long : list yev := pt_fill ++ (YWrite 3 :: repeat YStep 3) ++ [YTick; YIsr; YTick; YIsr; YStep; YStep] ++ pt_drain.
Theorem prompt_tx_needed :
  (tx_prompt 3 (xport_init (fun _ => 0)) false pt_late = false /\ tx_quick 3 (xport_init (fun _ => 0)) false pt_late = true) /\
  (tx_prompt 3 (xport_init (fun _ => 0)) false pt_long = true /\ tx_quick 3 (xport_init (fun _ => 0)) false pt_long = false) /\
  forall evs, evs = pt_late \/ evs = pt_long ->
  option_map (fun p => (accepted (t_done (y_tx p)), x_line (y_utx p))) (xport_run 3 (xport_init (fun _ => 0)) evs) =
    Some ([1; 2; 3], [1; 2; 3; 1; 2; 3]).
Proof. repeat split; try reflexivity. intros evs [-> | ->]; reflexivity. Qed.

(** The premises hold: one character is completed, and its handler runs, between any two steps of a call of Read. *)
Definition pr_good (k : nat) : list pev :=
  pr_fill ++ (PRead :: repeat PStep k) ++ pr_char 5 ++ [PIsr] ++ repeat PStep (7 - k) ++ pr_read ++ pr_read.
Example prompt_rx_example : forallb (fun k => rx_prompt (port_step 3) (port_init (fun _ => 0)) false (pr_good k) && rx_quick (port_step 3) (port_init (fun _ => 0)) false (pr_good k))
    (seq 0 8) = true /\
  map (fun k => option_map (fun p => (r_got (p_rx p), r_acc (p_rx p))) (port_run 3 (port_init (fun _ => 0)) (pr_good k))) (seq 0 8) =
    repeat (Some ([-1; 1; 2; 3; 4; -1], [1; 2; 3; 4])) 4 ++ repeat (Some ([-1; 1; 2; 3; 4; 5], [1; 2; 3; 4; 5])) 4.
Proof. split; reflexivity. Qed.
(** Two handler runs during a call, for a character that was waiting and one that is completed: still in order. *)
Definition pr_two : list pev := pr_read ++ pr_char 1 ++ [PIsr; PStep] ++ pr_char 2 ++ pr_char 3 ++ [PIsr; PRead; PIsr; PStep] ++ pr_char 4 ++ [PIsr] ++ repeat PStep 6 ++
  concat (repeat pr_read 4).
Example prompt_rx_two : rx_prompt (port_step 5) (port_init (fun _ => 0)) false pr_two = true /\ rx_quick (port_step 5) (port_init (fun _ => 0)) false pr_two = true /\
  option_map (fun p => r_got (p_rx p)) (port_run 5 (port_init (fun _ => 0)) pr_two) = Some [-1; 1; 2; 3; 4; -1].
Proof. repeat split; reflexivity. Qed.
Definition pt_good (k : nat) : list yev := pt_fill ++ (YWrite 3 :: repeat YStep k) ++ [YTick; YIsr] ++ repeat YStep (5 - k) ++ pt_drain.
Example prompt_tx_example : forallb (fun k => tx_prompt 3 (xport_init (fun _ => 0)) false (pt_good k) && tx_quick 3 (xport_init (fun _ => 0)) false (pt_good k))
    (seq 0 6) = true /\
  map (fun k => option_map (fun p => (accepted (t_done (y_tx p)), x_line (y_utx p))) (xport_run 3 (xport_init (fun _ => 0)) (pt_good k))) (seq 0 6) =
    repeat (Some ([1; 2; 3], [1; 2; 3])) 6.
Proof. split; reflexivity. Qed.
(** 'A' and 'B' over the line, as in C101. *)
Definition pw_write (v : Z) : list yev := YWrite v :: repeat YStep 5.
Definition pw_sender : list yev := pw_write 65 ++ [YIsr; YIsr] ++ pw_write 66 ++ [YIsr; YTick; YIsr; YTick].
Definition pw_sched : list (list pev) := pr_read :: repeat [PIsr] 330 ++ [pr_read ++ pr_read ++ pr_read].
Definition pw_events : option (list (Z * pev)) :=
  receiving 16000000 8000000 (opened (fun _ => 0) 0 (mkCfg 16 103 3 POff false)) 0
    (opened (fun _ => 0) 1 (mkCfg 16 51 3 POff false)) 1 [(1, 65); (133120000001, 66)] 0 pw_sched.
Example prompt_wire_example :
  tx_prompt 8 (xport_init (fun _ => 0)) false pw_sender = true /\ tx_quick 8 (xport_init (fun _ => 0)) false pw_sender = true /\
  option_map (fun p => x_line (y_utx p)) (xport_run 8 (xport_init (fun _ => 0)) pw_sender) = Some [65; 66] /\
  option_map (fun e => (rx_prompt (port_step 8) (port_init (fun _ => 0)) false (map snd e), rx_brief (port_step 8) (16 * 9) (port_init (fun _ => 0)) (-1) e,
      HwRxSpec.served (2 * (16 * 9)) [] false (timed 8 (port_init (fun _ => 0)) e),
      option_map (fun r => r_got (p_rx r)) (port_run 8 (port_init (fun _ => 0)) (map snd e)))) pw_events
  = Some (true, true, true, Some [-1; 65; 66; -1]).
Proof. repeat split; lazy; reflexivity. Qed.

(** The break and then 'A' and 'B', as in C102. *)
Example prompt_noise_example :
  option_map (fun e => (rx_prompt (nport_step 8) (port_init (fun _ => 0)) false (map snd e), rx_brief (nport_step 8) (16 * 9) (port_init (fun _ => 0)) (-1) e,
      HwRxSpec.served (2 * (16 * 9)) [] false (ntimed 8 (port_init (fun _ => 0)) e))) (listening no_regs 0 no_line no_sched) = Some (true, true, true).
Proof. lazy; reflexivity. Qed.

Print Assumptions prompt_rx.
Print Assumptions prompt_tx.
Print Assumptions prompt_brief.
Print Assumptions prompt_link.
Print Assumptions prompt_wire.
Print Assumptions prompt_midi.
Print Assumptions prompt_noise.
Print Assumptions prompt_recovers.
Print Assumptions prompt_rx_needed.
Print Assumptions prompt_tx_needed.
