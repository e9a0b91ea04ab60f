(** C102: UsartInputStream and UsartReceive on a line that may carry anything. *)
Require Import ZArith List Bool Lia.
Import ListNotations.
From Verif Require Import Base AvrModel AvrSpec WireModel WireSpec WireProofs RingModel StreamModel HwRxModel HwRxSpec WireLinkModel
  NoiseModel NoiseSpec NoiseProofs.
Open Scope Z_scope.

(** Any levels [f], any schedule of the software.  The receiver makes the characters [cs] of the levels; some are lost
    to overruns ([o]: with their fate), the others are handed out in order with their flags; the handler has taken
    [taken], the hardware holds [rest].  What it stored is in order among those without any flag, and all of them if
    they fit; Read has answered the first of what it stored. *)
Theorem noise_stream : forall m2 id2 b par (two : bool) f sched, hw_frame m2 id2 = Some (5 + b, par, two) -> 0 <= b <= 3 ->
  Forall (fun sw => forallb software sw = true) sched ->
  exists tevs cs, listening m2 id2 f sched = Some tevs /\ listen m2 id2 f (length sched) = Some cs /\
  forall Size m', 1 <= Size <= 65535 -> nport_polite Size (port_init m') false (map snd tevs) = true ->
  exists p queued o taken rest, nport_run Size (port_init m') (map snd tevs) = Some p /\
    map fst o = cs /\ handed false o = taken ++ rest /\ p_taken p = map NoiseSpec.place taken /\
    unread (p_uart p) = map NoiseSpec.place rest /\ (length rest <= 3)%nat /\
    length (filter (fun c => negb (snd c)) o) = losses 0 false (map snd (ntimed Size (port_init m') tevs)) /\
    r_acc (p_rx p) = answered (p_rx p) ++ queued /\ Z.of_nat (length queued) <= Size - 1 /\
    sub (r_acc (p_rx p)) (flawless taken) /\ sub (r_acc (p_rx p)) (sound cs) /\
    (Z.of_nat (length (flawless taken)) <= Size - 1 -> r_acc (p_rx p) = flawless taken) /\
    (HwRxSpec.served (2 * (hw_divider m2 id2 * (6 + b + match par with POff => 0 | _ => 1 end))) [] false (ntimed Size (port_init m') tevs) = true ->
      length (filter (fun c => negb (snd c)) o) = 0%nat).
Proof. exact noise_l. Qed.
(** If no character waits for two characters' time and none is refused, what Read answered, the ring buffer and the
    hardware hold are exactly the characters without frame and parity error.  If there are none, nothing is answered. *)
Theorem noise_lossless : forall m2 id2 b par (two : bool) f sched, hw_frame m2 id2 = Some (5 + b, par, two) -> 0 <= b <= 3 ->
  Forall (fun sw => forallb software sw = true) sched ->
  exists tevs cs, listening m2 id2 f sched = Some tevs /\ listen m2 id2 f (length sched) = Some cs /\
  forall Size m', 1 <= Size <= 65535 -> nport_polite Size (port_init m') false (map snd tevs) = true ->
  exists p, nport_run Size (port_init m') (map snd tevs) = Some p /\
    (sound cs = [] -> r_acc (p_rx p) = [] /\ answered (p_rx p) = []) /\
    (HwRxSpec.served (2 * (hw_divider m2 id2 * (6 + b + match par with POff => 0 | _ => 1 end))) [] false (ntimed Size (port_init m') tevs) = true ->
     none_refused p \/ Z.of_nat (length (sound cs)) <= Size - 1 ->
     exists queued rest, unread (p_uart p) = map NoiseSpec.place rest /\ (length rest <= 3)%nat /\
       answered (p_rx p) ++ queued ++ flawless rest = sound cs).
Proof. exact noise_lossless_l. Qed.

(** TryRead answers the next character and the first of its errors in the order frame, parity, overrun; Read
    answers the character, or -1 if it has any error. *)
Theorem noise_read : forall evs u taken rest, uart_run uart_init evs = (u, taken) -> unread u = map NoiseSpec.place rest ->
  Forall (fun c => 0 <= fst (fst (fst c)) < 256) rest ->
  snd (try_read (queue u)) = match rest with
    | [] => (false, 0, RNotReady)
    | (d, fe, pe, over) :: _ => (true, d, if fe then RFrame else if pe then RParity else if over then ROverrun else RSuccess)
    end /\
  option_map snd (read1 (queue u)) = match rest with
    | [] => None
    | (d, fe, pe, over) :: _ => Some (if fe || pe || over then -1 else d)
    end.
Proof. exact read_l. Qed.

(** Any levels before sample [i0]; from there on the line is that of a sender (same format, near enough rate), idle
    until a character of the receiver's time has passed.  Then every character sent is heard as it was sent, after
    whatever was heard before. *)
Theorem noise_recovers : forall F G m1 id1 m2 id2 b p1 p2 (two1 two2 : bool) cs a t0 f i0,
  hw_frame m1 id1 = Some (5 + b, p1, two1) -> hw_frame m2 id2 = Some (5 + b, p2, two2) -> 0 <= b <= 3 ->
  (p1 = POff <-> p2 = POff) ->
  let d := hw_divider m2 id2 in
  let T := bit_time G (hw_divider m1 id1) (hw_ubrr m1 id1) in
  let q := sample_time F (hw_ubrr m2 id2) in
  0 < q -> tolerable (speed_samples d) (speed_middle d) (last_bit (Z.to_nat (5 + b)) p1) T q ->
  let K := 6 + b + (match p1 with POff => 0 | _ => 1 end) in
  WireSpec.spaced (T * (K + 1 + if two1 then 1 else 0)) t0 cs ->
  (forall i, Z.of_nat i0 <= i -> f i = line_of F G m1 id1 m2 id2 cs a i) ->
  let ready := (i0 + last_bit (Z.to_nat (5 + b)) p1 * speed_samples d + speed_middle d)%nat in
  a + (Z.of_nat ready - 1) * q < t0 ->
  forall m, exists before c, listen m2 id2 f (Nat.min m ready) = Some before /\
    listen m2 id2 f m = Some (before ++ map (fun x => (snd x mod 2 ^ (5 + b), false, opposite p1 p2)) (firstn c cs)) /\
    hears (T * (K + 1 + if two1 then 1 else 0)) (K * T) cs (a + (Z.of_nat m - 1) * q) c.
Proof.
  intros F G m1 id1 m2 id2 b p1 p2 two1 two2 cs a t0 f i0 H1 H2 B PP d T q Q TOL K SP FE ready BE m.
  apply (recovers_l F G m1 id1 m2 id2 b p1 p2 two1 two2 cs a t0 f i0 H1 H2 B PP Q TOL SP); [|exact BE].
  intros i I. rewrite FE by exact I. unfold line_of. rewrite H1. reflexivity.
Qed.
(** The same at the stream: the answers are the good characters of the noise and then every character sent. *)
Theorem noise_stream_recovers : forall F G m1 id1 m2 id2 b par (two1 two2 : bool) cs a t0 f i0 sched,
  hw_frame m1 id1 = Some (5 + b, par, two1) -> hw_frame m2 id2 = Some (5 + b, par, two2) -> 0 <= b <= 3 ->
  let d := hw_divider m2 id2 in
  let T := bit_time G (hw_divider m1 id1) (hw_ubrr m1 id1) in
  let q := sample_time F (hw_ubrr m2 id2) in
  0 < q -> tolerable (speed_samples d) (speed_middle d) (last_bit (Z.to_nat (5 + b)) par) T q ->
  let K := 6 + b + (match par with POff => 0 | _ => 1 end) in
  WireSpec.spaced (T * (K + 1 + if two1 then 1 else 0)) t0 cs ->
  (forall i, Z.of_nat i0 <= i -> f i = line_of F G m1 id1 m2 id2 cs a i) ->
  let ready := (i0 + last_bit (Z.to_nat (5 + b)) par * speed_samples d + speed_middle d)%nat in
  a + (Z.of_nat ready - 1) * q < t0 ->
  Forall (fun sw => forallb software sw = true) sched ->
  exists tevs before c, listening m2 id2 f sched = Some tevs /\ listen m2 id2 f (Nat.min (length sched) ready) = Some before /\
    hears (T * (K + 1 + if two1 then 1 else 0)) (K * T) cs (a + (Z.of_nat (length sched) - 1) * q) c /\
    forall Size m', 1 <= Size <= 65535 -> nport_polite Size (port_init m') false (map snd tevs) = true ->
      HwRxSpec.served (2 * (d * K)) [] false (ntimed Size (port_init m') tevs) = true ->
    exists p, nport_run Size (port_init m') (map snd tevs) = Some p /\
      (none_refused p \/ Z.of_nat (length before + length cs) <= Size - 1 ->
       exists queued rest, unread (p_uart p) = map NoiseSpec.place rest /\ (length rest <= 3)%nat /\
         answered (p_rx p) ++ queued ++ flawless rest = sound before ++ map (fun x => snd x mod 2 ^ (5 + b)) (firstn c cs)).
Proof. exact noise_recovers_l. Qed.

(** Refuted: without such a pause a receiver finds its way.  Opened within bits 1 to 3 of a train of characters 247 (any
    length, one clock, 8N1), it hears 223 for each and 255 at the end, and no error. *)
Theorem noise_midway_refuted : forall F c id1 id2 m1 m2 n a m, 1 <= F -> c_div c = 8 \/ c_div c = 16 -> 0 <= c_ubrr c < 65536 ->
  c_bits c = 3 -> c_par c = POff -> c_two c = false -> id1 = 0 \/ id1 = 1 -> id2 = 0 \/ id2 = 1 ->
  let T := bit_time F (c_div c) (c_ubrr c) in T <= a <= 4 * T ->
  exists k, listen (opened m2 id2 c) id2 (line_of F F (opened m1 id1 c) id1 (opened m2 id2 c) id2 (train T n) a) m =
      Some (map (fun d => (d, false, false)) (firstn k (repeat 223 n ++ [255]))) /\
    hears (10 * T) (9 * T) (shifted T n) (a + (Z.of_nat m - 1) * sample_time F (c_ubrr c)) k.
Proof.
  intros F c id1 id2 m1 m2 n a m HF D U B P W I1 I2 T A.
  destruct (midway_l F c id1 id2 m1 m2 n a m HF D U B P W I1 I2 A) as (k & H & X). exists k. split; [|exact X].
  destruct (opened_l m1 id1 c I1 ltac:(lia) U D) as [_ [_ R3]]. rewrite (listen_heard _ _ _ _ _ _ _ _ _ _ _ _ R3) in H. exact H.
Qed.
(** Refuted: a stream shows that the two boards use opposite parities.  It never answers anything. *)
Theorem noise_parity_refuted : forall F c1 m1 id1 m2 id2 two cs a t0 sched, 1 <= F -> id1 = 0 \/ id1 = 1 ->
  c_div c1 = 8 \/ c_div c1 = 16 -> 0 <= c_ubrr c1 < 65536 -> 0 <= c_bits c1 <= 3 -> c_par c1 <> POff ->
  hw_divider m2 id2 = c_div c1 -> hw_ubrr m2 id2 = c_ubrr c1 -> hw_frame m2 id2 = Some (5 + c_bits c1, c_par c1, two) ->
  WireSpec.spaced (frame_time F c1) t0 cs -> a - sample_time F (c_ubrr c1) < t0 ->
  Forall (fun sw => forallb software sw = true) sched ->
  exists tevs, listening m2 id2 (line_of F F (opened m1 id1 c1) id1 m2 id2 cs a) sched = Some tevs /\
  forall Size m', 1 <= Size <= 65535 -> nport_polite Size (port_init m') false (map snd tevs) = true ->
  exists p, nport_run Size (port_init m') (map snd tevs) = Some p /\ r_acc (p_rx p) = [] /\ answered (p_rx p) = [].
Proof. exact noise_parity_l. Qed.

(** 9600 baud at 16 MHz: a break from sample 10 to sample 249, then the line of a sender, 'A' and 'B' from sample 410 on. *)
Definition no_cfg := mkCfg 16 103 3 POff false.
Definition no_regs : regs := opened (fun _ => 0) 0 no_cfg.
Definition no_sent : list (Z * Z) := [(410 * 104, 65); (570 * 104, 66)].
Definition no_line (i : Z) : bool := if (10 <=? i) && (i <? 250) then false else line_of 1 1 no_regs 0 no_regs 0 no_sent 0 i.
Definition no_call : list pev := PRead :: repeat PStep 7.
Definition no_sched : list (list pev) := no_call :: repeat [PIsr] 760 ++ [no_call ++ no_call ++ no_call].
Example noise_example :
  WireSpec.spaced 16640 (410 * 104) no_sent /\
  listen no_regs 0 no_line 762 = Some [(0, true, false); (65, false, false); (66, false, false)] /\
  option_map (fun e => (nport_polite 8 (port_init (fun _ => 0)) false (map snd e),
      served (2 * (16 * 9)) [] false (ntimed 8 (port_init (fun _ => 0)) e),
      option_map (fun r => (r_got (p_rx r), p_taken r)) (nport_run 8 (port_init (fun _ => 0)) (map snd e))))
    (listening no_regs 0 no_line no_sched)
  = Some (true, true, Some ([-1; 65; 66; -1], [(256, false); (65, false); (66, false)])).
Proof. split; [cbn; lia|]. split; lazy; reflexivity. Qed.
(** The train of 247s joined within its first character. *)
Example noise_midway_example :
  listen no_regs 0 (line_of 1 1 no_regs 0 no_regs 0 (train 1664 3) 3000) 700 =
    Some (map (fun d => (d, false, false)) [223; 223; 223; 255]).
Proof. lazy; reflexivity. Qed.
(** The order of the errors. *)
Example noise_read_example :
  word (65, true, true) = 833 /\ snd (try_read (queue (mkUart [(833, false)] None None))) = (true, 65, RFrame) /\
  snd (try_read (queue (mkUart [(577, true)] None None))) = (true, 65, RParity) /\
  snd (try_read (queue (mkUart [(65, true)] None None))) = (true, 65, ROverrun).
Proof. repeat split; lazy; reflexivity. Qed.

Print Assumptions noise_stream.
Print Assumptions noise_lossless.
Print Assumptions noise_read.
Print Assumptions noise_recovers.
Print Assumptions noise_stream_recovers.
Print Assumptions noise_midway_refuted.
Print Assumptions noise_parity_refuted.
