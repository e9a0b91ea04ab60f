(** C69-C71: the Arduino adapters: streams, I2C, pins. *)
Require Import ZArith List Bool Lia.
Import ListNotations.
From Verif Require Import Base MidiModel MidiSpec HdModel HdSpec HdProps ArduinoModel ArduinoSpec ArduinoProofs.
Open Scope Z_scope.

(** C69: from any state and for any calls, with or without a port attached, every call returns; what a
    port has sent grows by exactly the bytes written while it was attached; and unless bytes were lost in
    the port or cleared, what was waiting at a port and has arrived since is what Read answered from it,
    followed by what is waiting now. *)
Theorem arduino_streams : forall cap ops a, (forall k, Forall is_byte (s_in (a_port a k))) -> Forall aop_ok ops ->
  exists a' vs, a_run cap a ops = Some (a', vs) /\ (forall k, Forall is_byte (s_in (a_port a' k))) /\
    forall k, s_out (a_port a' k) = s_out (a_port a k) ++ written_to k (a_out a) ops /\
      (exists more, s_lost (a_port a' k) = s_lost (a_port a k) ++ more) /\
      (s_lost (a_port a' k) = s_lost (a_port a k) -> clears k (a_in a) ops = false ->
       s_in (a_port a k) ++ received_at k ops = read_from k (a_in a) ops vs ++ s_in (a_port a' k)).
Proof. exact adapters_l. Qed.
Print Assumptions arduino_streams.

(** C69: without a port getLength answers 0, Read -1, and Clear and Write do nothing; with one, getLength
    is the number of bytes waiting, Read answers -1 exactly if there are none, and Clear leaves none. *)
Theorem arduino_stream_answers : forall cap a, (forall k, Forall is_byte (s_in (a_port a k))) ->
  (a_in a = None -> a_step cap a ALength = Some (a, 0) /\ a_step cap a ARead = Some (a, -1) /\ a_step cap a AClear = Some (a, 0)) /\
  (a_out a = None -> forall b, a_step cap a (AWrite b) = Some (a, 0)) /\
  (forall k, a_in a = Some k ->
     (Z.of_nat (length (s_in (a_port a k))) < 65536 -> a_step cap a ALength = Some (a, Z.of_nat (length (s_in (a_port a k))))) /\
     (exists a' v, a_step cap a ARead = Some (a', v) /\ (v = -1 <-> s_in (a_port a k) = [])) /\
     (exists a', a_step cap a AClear = Some (a', 0) /\ s_in (a_port a' k) = [] /\ s_out (a_port a' k) = s_out (a_port a k) /\
        forall j, j <> k -> a_port a' j = a_port a j)).
Proof. exact stream_answers_l. Qed.
Print Assumptions arduino_stream_answers.

(** C69: Clear returns with an empty buffer if from some point on nothing arrives any more. *)
Theorem arduino_clear_ends : forall cap n s arrive, Forall is_byte (s_in s) -> (forall j, Forall is_byte (arrive j)) ->
  (forall j, (n <= j)%nat -> arrive j = []) ->
  exists fuel s', clear_loop cap fuel arrive 0 s = Some s' /\ s_in s' = [] /\ s_out s' = s_out s.
Proof. intros cap n s arrive F B A. apply (clear_ends_l cap n); [exact F|exact B|intros j J; apply A; lia]. Qed.
Print Assumptions arduino_clear_ends.

(** C69, finding: it does not return at all while a byte arrives for each byte read. *)
Theorem arduino_clear_refuted : forall cap fuel s arrive, (1 <= cap)%nat -> Forall is_byte (s_in s) -> s_in s <> [] ->
  (forall j, Forall is_byte (arrive j) /\ arrive j <> []) -> clear_loop cap fuel arrive 0 s = None.
Proof. intros cap fuel s arrive C F N A. apply clear_never_l; [exact C|exact F|apply A|exact N|apply A]. Qed.
Print Assumptions arduino_clear_refuted.

(** C69: MIDI over two ports: as long as no byte is lost in the receiver's buffer the reports are the
    first of the messages written, and all of them once everything has arrived and was read. *)
Theorem arduino_midi : forall cap ops, (1 <= cap)%nat -> Z.of_nat cap < 65536 -> Forall w_valid (k_written ops) ->
  let p := k_ops cap ops in s_lost (k_rx p) = [] ->
  (exists rest, map w_seen (k_written ops) = k_reports p ++ rest) /\
  (k_arrived p = length (s_out (k_tx p)) -> s_in (k_rx p) = [] -> k_reports p = map w_seen (k_written ops)).
Proof. exact k_midi_l. Qed.
Print Assumptions arduino_midi.

(** C69, finding: when the 63 bytes of HardwareSerial overflow, notes are reported that nobody wrote. *)
Theorem arduino_midi_overflow_refuted : Forall w_valid (k_written flood) /\
  In (RMsg 144 31 33) (k_reports (k_ops 63 flood)) /\ ~ In (RMsg 144 31 33) (map w_seen (k_written flood)).
Proof. exact flood_l. Qed.
Print Assumptions arduino_midi_overflow_refuted.

(** C70: for an array of at most 32 bytes the answer is true exactly if the device acknowledged address
    and all bytes, and then it has got them all; otherwise it has got those acknowledged. *)
Theorem i2c_output : forall data len acks, 0 <= len <= Z.of_nat (length data) -> len <= 32 ->
  exists got ok, i2c_write_array data len acks = Some (got, ok) /\ (ok = true <-> (Z.to_nat len < acks)%nat) /\
    (ok = true -> got = firstn (Z.to_nat len) data) /\ (ok = false -> got = firstn (acks - 1) data).
Proof. exact i2c_output_l. Qed.
Print Assumptions i2c_output.
Theorem i2c_output_byte : forall b acks, i2c_write b acks = if (2 <=? acks)%nat then ([b], true) else ([], false).
Proof. intros b acks. rewrite i2c_byte_l. destruct (2 <=? acks)%nat; reflexivity. Qed.
Print Assumptions i2c_output_byte.

(** C70, finding: of a longer array only 32 bytes are sent, and the answer is still true. *)
Theorem i2c_output_refuted : forall data len acks, 32 < len <= Z.of_nat (length data) -> len < 256 -> (33 <= acks)%nat ->
  i2c_write_array data len acks = Some (firstn 32 data, true).
Proof. exact i2c_long_l. Qed.
Print Assumptions i2c_output_refuted.

(** C70: so the display driver over I2C works over SerialI2COutput as long as every byte is acknowledged. *)
Theorem hd_i2c_wire : forall lo iw os acks, 8 <= iw -> Forall iop_ok os -> os <> [] -> (forall i, (2 <= acks i)%nat) ->
  exists r0 r tr, i2c_new iw = Some r0 /\ i2c_run iw r0 os = Some (r, tr) /\
    forall l, delivers lo l (map i2c_lines (i2c_got tr acks 0)) (all_inibs false os) (i2c_lines r).
Proof.
  intros lo iw os acks W F N A. destruct (hd_i2c lo iw os W F N) as (r0 & r & tr & E1 & E2 & _ & _ & D).
  exists r0, r, tr. split; [exact E1|]. split; [exact E2|]. rewrite i2c_got_all by exact A. exact D.
Qed.
Print Assumptions hd_i2c_wire.

(** C70, finding: the driver ignores the answer.  One byte not acknowledged, and the display takes other
    characters from then on. *)
Theorem hd_i2c_nack_refuted : exists r0 r tr, i2c_new 16 = Some r0 /\ i2c_run 16 r0 [IOp (DData 65); IOp (DData 66)] = Some (r, tr) /\
  watch 0 (i2c_lines r0) M4 (map i2c_lines tr) = (i2c_lines r, M4, [(true, 65); (true, 66)]) /\
  watch 0 (i2c_lines r0) M4 (map i2c_lines (i2c_got tr (fun i => if Nat.eqb i 2 then 1%nat else 2%nat) 0)) = (i2c_lines r, M4half 2, [(true, 20)]).
Proof.
  exists 12, 45, [13; 77; 73; 77; 29; 25; 29; 13; 77; 73; 77; 45; 41; 45].
  split; [lazy; reflexivity|]. split; [lazy; reflexivity|]. split; lazy; reflexivity.
Qed.
Print Assumptions hd_i2c_nack_refuted.

(** C71: a call changes no other pin. *)
Theorem pins_frame : forall timer outside ops b n, sane timer b -> (forall o, In o ops -> pin_of o <> n) ->
  sane timer (fst (p_run timer outside b ops)) /\ fst (p_run timer outside b ops) n = b n.
Proof. exact pins_frame_l. Qed.
Print Assumptions pins_frame.

(** C71: a pin that is a digital output, whatever happens at other pins: it has the level last
    asked for, and getValue answers it. *)
Theorem pins_digital : forall timer outside ops b n v, sane timer b -> signal_of (b n) = SLevel v -> Forall (digital_on n) ops ->
  signal_of (fst (p_run timer outside b ops) n) = SLevel (value_of n v ops) /\
  answers n ops (snd (p_run timer outside b ops)) = values n v ops.
Proof. intros timer outside ops b n v. apply digital_l. Qed.
Print Assumptions pins_digital.

(** C71: the constructors.  With a value the pin ends at that level from whatever it was; without one a pin
    whose timer output is off keeps its latch.  An input has no pull-up until asked for, and answers what
    is outside. *)
Theorem pins_new : forall timer outside b n, sane timer b ->
  (forall v, signal_of (fst (p_step timer outside b (POutInit n v)) n) = SLevel v) /\
  (p_pwm (b n) = None -> signal_of (fst (p_step timer outside b (POut n)) n) = SLevel (p_latch (b n))) /\
  (let b1 := fst (p_step timer outside b (PIn n)) in signal_of (b1 n) = SInput false /\
   snd (p_step timer outside b1 (PRead n)) = outside n false /\
   forall v, let b2 := fst (p_step timer outside b1 (PPullup n v)) in signal_of (b2 n) = SInput v /\
     snd (p_step timer outside b2 (PRead n)) = outside n v).
Proof. exact pins_new_l. Qed.
Print Assumptions pins_new.

(** C71: an analog output: a pin on a timer gives that duty cycle, or the level at both ends; other pins
    the nearer level. *)
Theorem pins_analog : forall timer outside b n v, sane timer b -> 0 <= v < 256 ->
  signal_of (fst (p_step timer outside b (PAnalog n v)) n) = analog_signal (timer n) v.
Proof. intros timer outside b n v S V. cbn [p_step fst]. rewrite BaseFacts.u8_small by exact V. apply (analog_l timer b n v S V). Qed.
Print Assumptions pins_analog.

(** C71, findings.  The constructor with an initial value first drives what was in the latch.  getValue and
    Toggle of a pin with PWM turn it off.  Making the pin an input and an output again brings the
    PWM back.  Writing true (1) to an analog output is a duty cycle of 1. *)
Theorem pins_refuted : forall timer outside n, timer n = true ->
  (forall v, exists b, sane timer b /\ signal_of (b n) = SInput (negb v) /\ signal_of (fst (out_init timer b n v) n) = SLevel (negb v)) /\
  (forall b w, sane timer b -> signal_of (b n) = SPwm w -> exists v,
     signal_of (fst (p_step timer outside b (PValue n)) n) = SLevel v /\
     signal_of (fst (p_step timer outside b (PToggle n)) n) = SLevel (negb v)) /\
  (forall b w, sane timer b -> signal_of (b n) = SPwm w ->
     signal_of (fst (p_run timer outside b [PIn n; POut n]) n) = SPwm w) /\
  (forall b, sane timer b -> signal_of (fst (p_step timer outside b (PAnalog n 1)) n) = SPwm 1).
Proof. exact pins_refuted_l. Qed.
Print Assumptions pins_refuted.

(** C71: the display driver at six different pins: from any board whose timers do not drive them, after the
    constructor, the display takes exactly the nibbles the calls stand for. *)
Theorem pins_display : forall lo timer outside x b os, NoDup (lcd_list x) -> sane timer b -> (forall n, In n (lcd_list x) -> p_pwm (b n) = None) ->
  Forall dop_ok os ->
  let b1 := fst (p_run timer outside b (ArduinoModel.lcd_new x)) in
  exists l', delivers lo (lcd_lines x b1) (map (lcd_lines x) (p_trace timer outside b1 (flat_map (lcd_op x) os))) (all_nibs (rs (lcd_lines x b1)) os) l'.
Proof. exact display_pins_l. Qed.
Print Assumptions pins_display.

(** Two ports, an input and an output attached one after the other. *)
Example arduino_streams_example :
  let a := mkAdapters None None (fun _ => mkSerial [] [] []) in
  match a_run 63 a [ARead; AWrite 1; AIn (Some 0%nat); AOut (Some 1%nat); AReceive 0 65; AReceive 0 66; AReceive 1 67; ALength; ARead;
                    AWrite 300; AIn (Some 1%nat); ARead; ARead; AIn (Some 0%nat); AClear; ALength] with
  | Some (a', vs) => vs = [-1; 0; 0; 0; 0; 0; 0; 2; 65; 0; 0; 67; -1; 0; 0; 0] /\ s_out (a_port a' 1) = [44]
  | None => False
  end.
Proof. lazy. split; reflexivity. Qed.
(** Pin 9 has a timer, pin 8 has not. *)
Example pins_example :
  let timer n := n =? 9 in let outside (n : Z) (up : bool) := up in
  let (b, vs) := p_run timer outside (fun _ => mkPin false false None)
    [POut 8; PWrite 8 true; PValue 8; PToggle 8; PValue 8; PAnalog 9 100; PIn 7; PPullup 7 true; PRead 7] in
  vs = [false; false; true; false; false; false; false; false; true] /\ signal_of (b 8) = SLevel false /\ signal_of (b 9) = SPwm 100.
Proof. lazy. repeat (split || constructor). Qed.
