(** C100: what one USART sends, another hears, bit by bit. *)
Require Import ZArith List Bool Lia.
Import ListNotations.
From Verif Require Import Base AvrModel AvrSpec WireModel WireSpec WireProofs.
Open Scope Z_scope.

(** Any registers whose formats agree and whose rates are near enough. *)
Theorem wire_characters : forall F G m1 id1 m2 id2 b p1 p2 (two1 two2 : bool) cs a t0 m,
  hw_frame m1 id1 = Some (5 + b, p1, two1) -> hw_frame m2 id2 = Some (5 + b, p2, two2) -> 0 <= b <= 3 ->
  (p1 = POff <-> p2 = POff) ->
  let d := hw_divider m2 id2 in
  let T := bit_time G (hw_divider m1 id1) (hw_ubrr m1 id1) in
  let q := sample_time F (hw_ubrr m2 id2) in
  0 < q -> tolerable (speed_samples d) (speed_middle d) (last_bit (Z.to_nat (5 + b)) p1) T q ->
  let K := 6 + b + (match p1 with POff => 0 | _ => 1 end) in
  spaced (T * (K + 1 + if two1 then 1 else 0)) t0 cs -> a - q < t0 ->
  exists c, heard F G m1 id1 m2 id2 cs a m =
      Some (map (fun x => (snd x mod 2 ^ (5 + b), false, opposite p1 p2)) (firstn c cs)) /\
    hears (T * (K + 1 + if two1 then 1 else 0)) (K * T) cs (a + (Z.of_nat m - 1) * q) c.
Proof. exact heard_l. Qed.
(** The frame: start bit, data bits with the lowest first, a bit that makes the number of ones even or odd, stop
    bits. *)
Theorem wire_format : forall n p two d, let f := encode n p two d in
  nth 0 f true = false /\ (forall k, (k < n)%nat -> nth (1 + k) f false = Z.testbit d (Z.of_nat k)) /\
  (p <> POff -> Z.odd (highs (firstn (S n) (tl f))) = (match p with POdd => true | _ => false end)) /\
  skipn (match p with POff => S n | _ => S (S n) end) f = repeat true (if two then 2 else 1).
Proof. exact format_l. Qed.
(** Any line: after the first low sample each bit is heard that two of its three samples show. *)
Theorem wire_majority : forall d last f i (bits : nat -> bool), d = 8 \/ d = 16 -> (1 <= last)%nat ->
  bits 0%nat = false -> f i = false ->
  let sa := speed_samples d in let mi := speed_middle d in
  (forall k, (k <= last)%nat ->
     most (bits k) (map (fun j => f (i + Z.of_nat (k * sa + j))) [(mi - 2)%nat; (mi - 1)%nat; mi])) ->
  (forall m, (m <= last * sa + mi)%nat -> snd (rcv_run sa mi last f (WIdle true) i m) = []) /\
  snd (rcv_run sa mi last f (WIdle true) i (last * sa + mi + 1)) = [map bits (seq 0 (S last))].
Proof.
  intros d last f i bits D L B0 F0 sa mi H. destruct (speeds d D) as [_ [_ [D3 D4]]].
  destruct (majority_l sa mi last D3 D4 L f i bits B0 F0 H) as [X Y]. split; [intros m M; apply X; lia|]. rewrite Y. reflexivity.
Qed.
(** A line held low is heard once, as zeros with the stop bit missing, and not again. *)
Theorem wire_break : forall d last f i m, d = 8 \/ d = 16 -> (1 <= last)%nat -> (forall j, i <= j -> f j = false) ->
  let sa := speed_samples d in let mi := speed_middle d in
  snd (rcv_run sa mi last f (WIdle true) i m) = if (m <? last * sa + mi + 1)%nat then [] else [repeat false (S last)].
Proof. intros d last f i m D L H sa mi. destruct (speeds d D) as [_ [_ [D3 D4]]]. exact (break_l sa mi last D3 D4 L f i m H). Qed.
(** A low pulse of less than half a bit (up to 8 samples, 4 at double speed) is not heard; a longer one, if shorter
    than a bit and a half, is a character of ones. *)
Theorem wire_pulse : forall d last f i w m, d = 8 \/ d = 16 -> (1 <= last)%nat ->
  let sa := speed_samples d in let mi := speed_middle d in
  (1 <= w < sa + mi)%nat -> (forall j, i <= j < i + Z.of_nat w -> f j = false) -> (forall j, i + Z.of_nat w <= j -> f j = true) ->
  snd (rcv_run sa mi last f (WIdle true) i m) =
    if (w <? mi)%nat || (m <? last * sa + mi + 1)%nat then [] else [false :: repeat true last].
Proof.
  intros d last f i w m D L sa mi W LO HI. destruct (speeds d D) as [_ [_ [D3 D4]]]. exact (pulse_l sa mi last D3 D4 L f i w m W LO HI).
Qed.
(** Two boards with their own clocks, both asked for the same rate and format. *)
Theorem wire_boards : forall F G b c1 c2 c1' c2' id1 id2 m1 m2 cs a t0 m, 1 <= F -> 1 <= G -> 1 <= b <= 65535 ->
  F / (8 * b) <= 32768 -> G / (8 * b) <= 32768 ->
  init_async F c1 b = Some (c1', true) -> init_async G c2 b = Some (c2', true) ->
  F < 16 * b \/ 32 * b <= F \/ b <= 32767 -> G < 16 * b \/ 32 * b <= G \/ b <= 32767 ->
  id1 = 0 \/ id1 = 1 -> id2 = 0 \/ id2 = 1 ->
  0 <= c_bits c1 <= 3 -> c_bits c2 = c_bits c1 -> c_par c2 = c_par c1 ->
  42 <= c_ubrr c1' -> 26 <= c_ubrr c2' ->
  spaced (frame_time G c1') t0 cs -> a - sample_time F (c_ubrr c2') < t0 ->
  exists c, heard F G (opened m1 id1 c1') id1 (opened m2 id2 c2') id2 cs a m =
      Some (map (fun x => (snd x mod 2 ^ (5 + c_bits c1), false, false)) (firstn c cs)) /\
    hears (frame_time G c1') (frame_time G c1' - bit_time G (c_div c1') (c_ubrr c1') * (if c_two c1' then 2 else 1)) cs
      (a + (Z.of_nat m - 1) * sample_time F (c_ubrr c2')) c.
Proof. exact boards_l. Qed.
(** One clock, one rate: any register value will do. *)
Theorem wire_one_clock : forall F c1 c2 id1 id2 m1 m2 cs a t0 m, 1 <= F ->
  c_div c1 = 8 \/ c_div c1 = 16 -> c_div c2 = c_div c1 -> 0 <= c_ubrr c1 < 65536 -> c_ubrr c2 = c_ubrr c1 ->
  id1 = 0 \/ id1 = 1 -> id2 = 0 \/ id2 = 1 -> 0 <= c_bits c1 <= 3 -> c_bits c2 = c_bits c1 -> c_par c2 = c_par c1 ->
  spaced (frame_time F c1) t0 cs -> a - sample_time F (c_ubrr c2) < t0 ->
  exists c, heard F F (opened m1 id1 c1) id1 (opened m2 id2 c2) id2 cs a m =
      Some (map (fun x => (snd x mod 2 ^ (5 + c_bits c1), false, false)) (firstn c cs)) /\
    hears (frame_time F c1) (frame_time F c1 - bit_time F (c_div c1) (c_ubrr c1) * (if c_two c1 then 2 else 1)) cs
      (a + (Z.of_nat m - 1) * sample_time F (c_ubrr c2)) c.
Proof. exact one_clock_l. Qed.
(** Another board with the rate, size and parity that the configuration names finds each character's parity wrong:
    even and odd are exchanged in the registers (C52). *)
Theorem wire_parity_refuted : forall F c1 m1 id1 m2 id2 two cs a t0 m, 1 <= F -> id1 = 0 \/ id1 = 1 ->
  c_div c1 = 8 \/ c_div c1 = 16 -> 0 <= c_ubrr c1 < 65536 -> 0 <= c_bits c1 <= 3 -> c_par c1 <> POff ->
  hw_divider m2 id2 = c_div c1 -> hw_ubrr m2 id2 = c_ubrr c1 -> hw_frame m2 id2 = Some (5 + c_bits c1, c_par c1, two) ->
  spaced (frame_time F c1) t0 cs -> a - sample_time F (c_ubrr c1) < t0 ->
  exists c, heard F F (opened m1 id1 c1) id1 m2 id2 cs a m =
      Some (map (fun x => (snd x mod 2 ^ (5 + c_bits c1), false, true)) (firstn c cs)) /\
    hears (frame_time F c1) (frame_time F c1 - bit_time F (c_div c1) (c_ubrr c1) * (if c_two c1 then 2 else 1)) cs
      (a + (Z.of_nat m - 1) * sample_time F (c_ubrr c1)) c.
Proof. exact other_parity_l. Qed.
(** 14400 baud: InitAsync answers true on a board with 1 MHz and makes 15625.  Of the character 85 a board with
    16 MHz hears 181, and no error; the other way round it hears 213 with a frame error. *)
Theorem wire_rate_refuted :
  init_async 1000000 cfg_new 14400 = Some (mkCfg 16 3 3 POff false, true) /\
  init_async 16000000 cfg_new 14400 = Some (mkCfg 16 68 3 POff false, true) /\
  hw_rate 1000000 16 3 = 15625 /\ hw_rate 16000000 16 68 = 14492 /\
  heard 1000000 16000000 (opened (fun _ => 0) 0 (mkCfg 16 3 3 POff false)) 0
    (opened (fun _ => 0) 0 (mkCfg 16 68 3 POff false)) 0 [(1, 85)] 0 160 = Some [(181, false, false)] /\
  heard 16000000 1000000 (opened (fun _ => 0) 0 (mkCfg 16 68 3 POff false)) 0
    (opened (fun _ => 0) 0 (mkCfg 16 3 3 POff false)) 0 [(1, 85)] 0 190 = Some [(213, true, false)].
Proof. repeat split; lazy; reflexivity. Qed.

(** 9600 baud from 16 MHz to 8 MHz and back, with settings the theorem covers; two characters without a pause. *)
Example wire_9600 :
  init_async 16000000 cfg_new 9600 = Some (mkCfg 16 103 3 POff false, true) /\
  init_async 8000000 cfg_new 9600 = Some (mkCfg 16 51 3 POff false, true) /\
  frame_time 8000000 (mkCfg 16 103 3 POff false) = 133120000000 /\
  heard 16000000 8000000 (opened (fun _ => 0) 0 (mkCfg 16 103 3 POff false)) 0
    (opened (fun _ => 0) 1 (mkCfg 16 51 3 POff false)) 1 [(1, 85); (133120000001, 10)] 0 330
  = Some [(85, false, false); (10, false, false)].
Proof. repeat split; lazy; reflexivity. Qed.
(** 57600 baud between 16 MHz and 8 MHz: small register values, still near enough to one another. *)
Example wire_57600 :
  init_async 16000000 cfg_new 57600 = Some (mkCfg 16 16 3 POff false, true) /\
  init_async 8000000 cfg_new 57600 = Some (mkCfg 8 16 3 POff false, true) /\
  tolerable (speed_samples 8) (speed_middle 8) 9 (bit_time 8000000 16 16) (sample_time 16000000 16) /\
  tolerable (speed_samples 16) (speed_middle 16) 9 (bit_time 16000000 8 16) (sample_time 8000000 16).
Proof. repeat split; lazy; congruence. Qed.

(** A break at normal speed with 8N1 and a pulse of 9 samples, decoded. *)
Example wire_noise :
  map (decode 8 POff) (snd (rcv_run 16 9 9 (fun _ => false) (WIdle true) 0 400)) = [(0, true, false)] /\
  map (decode 8 POff) (snd (rcv_run 16 9 9 (fun j => 9 <=? j) (WIdle true) 0 400)) = [(255, false, false)] /\
  map (decode 8 POff) (snd (rcv_run 16 9 9 (fun j => 8 <=? j) (WIdle true) 0 400)) = [].
Proof. repeat split; lazy; reflexivity. Qed.

Print Assumptions wire_characters.
Print Assumptions wire_format.
Print Assumptions wire_majority.
Print Assumptions wire_break.
Print Assumptions wire_pulse.
Print Assumptions wire_boards.
Print Assumptions wire_one_clock.
Print Assumptions wire_parity_refuted.
Print Assumptions wire_rate_refuted.
