(** C39, C40: URM37 framing and decoding. *)
Require Import ZArith List Bool Lia.
Import ListNotations.
From Verif Require Import Base UrmModel UrmSpec UrmProofs.
Open Scope Z_scope.

(** C39: every command frame satisfies the checksum rule that replies are checked with. *)
Theorem urm_send_receive : forall c d1 d2 rest, byte c -> byte d1 -> byte d2 ->
  receive (send_command c d1 d2 ++ rest) = (rest, RSuccess, Some (c, d1, d2)).
Proof. exact send_receive_l. Qed.

(** C39: a frame with exactly one byte changed is always detected. *)
Theorem urm_single_byte_detected : forall c d1 d2 s c' d1' d2' s' rest,
  byte c -> byte d1 -> byte d2 -> byte s -> byte c' -> byte d1' -> byte d2' -> byte s' ->
  good_frame c d1 d2 s -> one_byte_off (c, d1, d2, s) (c', d1', d2', s') ->
  receive (c' :: d1' :: d2' :: s' :: rest) = (rest, RChecksum, Some (c', d1', d2')).
Proof. exact corrupt_l. Qed.

(** C39: with fewer than four bytes nothing is consumed and nothing is reported. *)
Theorem urm_needs_four : forall q, (length q < 4)%nat ->
  receive q = (q, match q with [] => RNone | _ => RPending end, None).
Proof. exact receive_short. Qed.

(** C39: however the bytes arrive between the calls, the reports are the frames of the byte stream in
    order, each once; with at most four bytes per call none is left behind. *)
Theorem urm_poll_frames : forall arrivals q q' out, Forall byte q -> Forall (Forall byte) arrivals ->
  poll q arrivals = (q', out) ->
  map frame_result (frames (q ++ concat arrivals)) = filter answered out ++ map frame_result (frames q').
Proof. exact poll_l. Qed.
Theorem urm_poll_keeps_up : forall arrivals q' out, Forall (Forall byte) arrivals ->
  Forall (fun a => (length a <= 4)%nat) arrivals ->
  poll [] arrivals = (q', out) -> filter answered out = map frame_result (frames (concat arrivals)).
Proof. exact poll_keeps_up. Qed.

(** C39: WriteEEPROM leaves its loop with the first well-formed frame, and tells whether that frame
    echoes the command; without such a frame it never returns. *)
Theorem urm_eeprom : forall arrivals q d1 d2 q' rest b, Forall byte q -> Forall (Forall byte) arrivals ->
  eeprom_wait q arrivals d1 d2 = Some (q', rest, b) ->
  exists used, arrivals = used ++ rest /\ Forall byte q' /\
  exists bad c e1 e2 s, frames (q ++ concat used) = bad ++ (c, e1, e2, s) :: frames q' /\
    first_good (frames (q ++ concat used)) = Some (c, e1, e2) /\ first_good bad = None /\
    (b = true <-> c = 68 /\ e1 = d1 /\ e2 = d2).
Proof. exact eeprom_l. Qed.
Theorem urm_eeprom_spins : forall arrivals q d1 d2, Forall byte q -> Forall (Forall byte) arrivals ->
  first_good (frames (q ++ concat arrivals)) = None -> eeprom_wait q arrivals d1 d2 = None.
Proof. exact eeprom_spins. Qed.
Theorem urm_autonomous_bytes : forall q arrivals t out, 0 <= t < 65536 ->
  set_autonomous q arrivals t = (out, Some true) ->
  out = [68; 2; 170; 240] ++ [68; 0; t mod 256; (68 + t mod 256) mod 256] ++ [68; 1; t / 256; (69 + t / 256) mod 256].
Proof. exact autonomous_l. Qed.

(** C39: if the sensor echoes the three commands, however the bytes are spread over the polls,
    SetAutonomousTriggerMode answers true and the EEPROM holds the mode and the threshold. *)
Theorem urm_autonomous : forall mem t arrivals n, 0 <= t < 65536 -> (3 <= n)%nat ->
  let cmds := frame_of 68 2 170 ++ frame_of 68 0 (t mod 256) ++ frame_of 68 1 (t / 256) in
  concat arrivals = cmds ->
  set_autonomous [] (arrivals ++ repeat [] n) t = (cmds, Some true) /\
  let mem' := eeprom_after mem cmds in
  mem' 2 = 170 /\ threshold_of mem' = t /\ forall a, a <> 0 -> a <> 1 -> a <> 2 -> mem' a = mem a.
Proof.
  intros mem t arrivals n Ht Hn. destruct (auto_frames t Ht) as (<- & <- & <-). cbv zeta. intros E.
  split; [apply autonomous_answered; assumption|apply autonomous_cells; assumption].
Qed.
(** C39: the same for the passive mode. *)
Theorem urm_passive : forall mem arrivals n, (1 <= n)%nat -> concat arrivals = frame_of 68 2 187 ->
  exists out, set_passive [] (arrivals ++ repeat [] n) = (out, Some true) /\ out = [68; 2; 187; 1] /\
    eeprom_after mem out 2 = 187 /\ forall a, a <> 2 -> eeprom_after mem out a = mem a.
Proof. exact passive_l. Qed.
(** C39: whatever well-formed frames answer the commands: the first that is no echo stops
    SetAutonomousTriggerMode, and the answer tells whether all were echoes; likewise for the passive mode. *)
Theorem urm_autonomous_replies : forall t arrivals n r1 r2 r3 rest, 0 <= t < 65536 -> (3 <= n)%nat ->
  bytes3 r1 -> bytes3 r2 -> bytes3 r3 -> concat arrivals = answer r1 ++ answer r2 ++ answer r3 ++ rest ->
  set_autonomous [] (arrivals ++ repeat [] n) t =
    let c1 := (68, 2, 170) in let c2 := (68, 0, t mod 256) in let c3 := (68, 1, t / 256) in
    if negb (echoes c1 r1) then (answer c1, Some false)
    else if negb (echoes c2 r2) then (answer c1 ++ answer c2, Some false)
    else (answer c1 ++ answer c2 ++ answer c3, Some (echoes c3 r3)).
Proof. exact autonomous_replies_l. Qed.
Theorem urm_passive_reply : forall arrivals n r rest, (1 <= n)%nat -> bytes3 r -> concat arrivals = answer r ++ rest ->
  set_passive [] (arrivals ++ repeat [] n) = (answer (68, 2, 187), Some (echoes (68, 2, 187) r)).
Proof. exact passive_reply_l. Qed.
Example urm_ex_replies :
  set_autonomous [] ([answer (17, 0, 0) ++ answer (17, 0, 0); answer (17, 0, 0)] ++ repeat [] 3) 40 = ([68; 2; 170; 240], Some false) /\
  set_passive [] ([answer (17, 0, 0)] ++ repeat [] 1) = ([68; 2; 187; 1], Some false).
Proof. split; reflexivity. Qed.
(** C39, finding: the mode is switched first.  If anything but the echo answers the second command the
    method answers false, and the sensor runs autonomously on a threshold that is half old and half
    new. *)
Theorem urm_autonomous_half_refuted : forall mem t arrivals n c e1 e2 rest, 0 <= t < 65536 -> (2 <= n)%nat ->
  byte (mem 0) -> byte c -> byte e1 -> byte e2 -> (c, e1, e2) <> (68, 0, t mod 256) ->
  concat arrivals = frame_of 68 2 170 ++ frame_of c e1 e2 ++ rest ->
  exists out, set_autonomous [] (arrivals ++ repeat [] n) t = (out, Some false) /\
    let mem' := eeprom_after mem out in
    mem' 2 = 170 /\ threshold_of mem' = 256 * (threshold_of mem / 256) + t mod 256.
Proof.
  intros mem t arrivals n c e1 e2 rest Ht Hn [L G] Hc H1 H2 D E. rewrite <- (send_frame c e1 e2) in E by assumption.
  destruct (auto_frames t Ht) as (F1 & F2 & _). rewrite <- F1 in E.
  eexists. split; [apply (autonomous_half t arrivals n c e1 e2 rest); assumption|].
  destruct (half_cells mem t Ht) as (A & B). split; [exact A|]. rewrite B. unfold threshold_of.
  replace ((256 * mem 1 + mem 0) / 256) with (mem 1); [reflexivity|].
  rewrite Z.mul_comm, Z.div_add_l by lia. rewrite Z.div_small by lia. lia.
Qed.
Example urm_ex_half : 256 * (300 / 256) + 40 mod 256 = 296 /\
  set_autonomous [] ([[68; 2; 170; 240; 17; 0; 0; 17]] ++ repeat [] 2) 40 = ([68; 2; 170; 240; 68; 0; 40; 108], Some false).
Proof. split; reflexivity. Qed.

(** C39, finding: there is no frame start, so after one lost byte no later reply is ever read: however
    many replies follow, EndDistance never delivers a distance again. *)
Theorem urm_lost_byte_refuted : forall d rs n, Forall reading (d :: rs) ->
  Forall (fun r => snd r = None) (poll_distance n (tl (reply d ++ flat_map reply rs))).
Proof. exact (fun d rs n => no_resync_l rs n d). Qed.

(** C40: EndDistance for every reply. *)
Theorem urm_distance : forall c d1 d2 s rest, byte c -> byte d1 -> byte d2 -> byte s ->
  end_distance (c :: d1 :: d2 :: s :: rest) =
    if s =? (c + d1 + d2) mod 256
    then if (c =? 34) && negb (d1 =? 255) && negb (d2 =? 255) then (rest, RSuccess, Some (256 * d1 + d2)) else (rest, RNone, None)
    else (rest, RChecksum, None).
Proof. exact end_distance_l. Qed.
Theorem urm_distance_short : forall q, (length q < 4)%nat ->
  end_distance q = (q, match q with [] => RNone | _ => RPending end, None).
Proof. exact end_distance_short. Qed.

(** C40, finding: the sensor marks a failed measurement with both bytes 255, but the code also drops
    every valid distance with one byte 255, such as 255 cm. *)
Theorem urm_distance_255_refuted :
  good_frame 34 0 255 33 /\ end_distance [34; 0; 255; 33] = ([], RNone, None) /\
  forall d rest, reading d -> snd d <> 255 -> end_distance (reply d ++ rest) = (rest, RSuccess, Some (256 * fst d + snd d)).
Proof. split; [reflexivity|]. split; [reflexivity|]. exact reply_received. Qed.

(** C40: the temperature in tenths of a degree, sign in the upper nibble. *)
Theorem urm_temperature : forall c d1 d2 s rest, byte c -> byte d1 -> byte d2 -> byte s ->
  end_temperature (c :: d1 :: d2 :: s :: rest) =
    if s =? (c + d1 + d2) mod 256
    then if c =? 17 then (rest, RSuccess, Some ((if d1 <? 16 then 1 else -1) * (256 * (d1 mod 16) + d2))) else (rest, RNone, None)
    else (rest, RChecksum, None).
Proof. exact end_temperature_l. Qed.

(** C40: the servo angle is sent as the step below degrees * 46 / 270. *)
Theorem urm_degrees : forall deg, 0 <= deg <= 270 ->
  exists k, begin_distance_deg deg = [34; k; 0; 34 + k] /\ 0 <= k <= 46 /\ 270 * k <= 46 * deg < 270 * (k + 1).
Proof. exact degrees_l. Qed.

(** C40: a measurement from the command to the value. *)
Theorem urm_measure_distance : forall temp d deg, reading d -> snd d <> 255 -> 0 <= deg <= 270 ->
  end_distance (sensor temp d begin_distance) = ([], RSuccess, Some (256 * fst d + snd d)) /\
  end_distance (sensor temp d (begin_distance_deg deg)) = ([], RSuccess, Some (256 * fst d + snd d)).
Proof. exact measure_distance_l. Qed.
Theorem urm_measure_temperature : forall high low d, 0 <= high < 16 -> byte low ->
  end_temperature (sensor (high, low) d begin_temperature) = ([], RSuccess, Some (256 * high + low)) /\
  end_temperature (sensor (240 + high, low) d begin_temperature) = ([], RSuccess, Some (- (256 * high + low))).
Proof. exact measure_temperature_l. Qed.

(** The frames as the data sheet of the sensor gives them. *)
Theorem urm_commands :
  begin_distance = [34; 0; 0; 34] /\ begin_temperature = [17; 0; 0; 17] /\ begin_distance_deg 270 = [34; 46; 0; 80].
Proof. repeat split; reflexivity. Qed.
Example urm_ex_poll :
  poll [] [[34]; [1; 44]; []; [79; 34]; [0; 10; 45]; [1]] =
    ([1], [(RPending, None); (RPending, None); (RPending, None); (RSuccess, Some (34, 1, 44));
           (RChecksum, Some (34, 0, 10)); (RPending, None)]).
Proof. reflexivity. Qed.
Example urm_ex_distance : end_distance [34; 1; 44; 79] = ([], RSuccess, Some 300).
Proof. reflexivity. Qed.
Example urm_ex_temperature : end_temperature [17; 240; 25; 26] = ([], RSuccess, Some (-25)).
Proof. reflexivity. Qed.
Example urm_ex_lost : poll_distance 3 (tl (reply (1, 44) ++ flat_map reply [(0, 128); (1, 45)])) =
  [(RChecksum, None); (RNone, None); (RPending, None)].
Proof. reflexivity. Qed.
Example urm_ex_autonomous :
  set_autonomous [] [[68; 2]; [170; 240; 1]; [2; 3; 4]; [68; 0; 44; 112; 68]; [1; 1; 70]] 300 =
    ([68; 2; 170; 240; 68; 0; 44; 112; 68; 1; 1; 70], Some true).
Proof. reflexivity. Qed.
Example urm_ex_eeprom_spins : eeprom_wait [] [[68]; [2; 170]; [241; 1; 2; 3]] 2 170 = None.
Proof. reflexivity. Qed.

Print Assumptions urm_send_receive.
Print Assumptions urm_single_byte_detected.
Print Assumptions urm_needs_four.
Print Assumptions urm_poll_frames.
Print Assumptions urm_poll_keeps_up.
Print Assumptions urm_eeprom.
Print Assumptions urm_eeprom_spins.
Print Assumptions urm_autonomous_bytes.
Print Assumptions urm_autonomous.
Print Assumptions urm_passive.
Print Assumptions urm_autonomous_replies.
Print Assumptions urm_passive_reply.
Print Assumptions urm_autonomous_half_refuted.
Print Assumptions urm_lost_byte_refuted.
Print Assumptions urm_distance.
Print Assumptions urm_distance_short.
Print Assumptions urm_distance_255_refuted.
Print Assumptions urm_commands.
Print Assumptions urm_temperature.
Print Assumptions urm_degrees.
Print Assumptions urm_measure_distance.
Print Assumptions urm_measure_temperature.
