(** Properties of Midi, MidiMessage, MidiReader and MidiWriter. *)
Require Import ZArith List Bool Lia.
Import ListNotations.
From Verif Require Import Base MidiModel MidiSpec MidiProofs.
Open Scope Z_scope.

(** C30.  The classification functions on all 256 byte values.  IsRealtimeMessage also accepts the
    undefined bytes F9 and FD; IsChannelMessage is right on message types but rejects the raw
    status bytes E1..EF; undefined status bytes have length 0. *)
Theorem midi_classification : forall b, 0 <= b < 256 ->
  is_status b = (128 <=? b) /\
  msg_type b = (if b <? 128 then 0 else if b <? 240 then 16 * (b / 16) else b) /\
  msg_length b = (match kind_of b with KData | KUndefined => 0 | KSysEx => -1 | _ => 1 + data_count b end) /\
  is_channel (msg_type b) = (match kind_of b with KChannel => true | _ => false end) /\
  is_system b = (240 <=? b) /\
  is_system_common b = (240 <=? b) && (b <? 248) /\
  is_realtime b = (match kind_of b with KRealtime => true | _ => false end || (b =? 249) || (b =? 253)) /\
  is_channel b = (match kind_of b with KChannel => true | _ => false end) && (b <=? 224).
Proof. exact classify_l. Qed.
Print Assumptions midi_classification.

(** C30, finding: a pitch bend on channel 2..16 is not a channel message for IsChannelMessage,
    which is documented to take a status byte. *)
Theorem midi_is_channel_refuted : kind_of 225 = KChannel /\ is_channel 225 = false.
Proof. split; reflexivity. Qed.
Print Assumptions midi_is_channel_refuted.

(** C31.  Whatever the message held before, setting status and data bytes makes exactly those
    bytes come back; pitch bend and song position are the 14 bit combination. *)
Theorem midi_message_roundtrip : forall m st d1 d2, has_data st -> data_byte d1 -> data_byte d2 ->
  let m1 := set_data1 (set_status m st) d1 in
  let m2 := set_data2 m1 d2 in
  get_status m1 = st /\ get_data1 m1 = d1 /\ get_status m2 = st /\ get_data1 m2 = d1 /\
  get_data2 m2 = (if data_count st =? 2 then d2 else 0) /\ 
  (msg_type st = 224 -> m_bend m2 = d1 + 128 * d2) /\ (st = 242 -> m_beats m2 = d1 + 128 * d2).
Proof. exact message_roundtrip_l. Qed.
Print Assumptions midi_message_roundtrip.

(** C31.  The fields a receiver reads are those of the bytes. *)
Theorem midi_message_fields : forall m st d1 d2, has_data st -> data_byte d1 -> data_byte d2 ->
  let m1 := set_data1 (set_status m st) d1 in
  let m2 := if data_count st =? 2 then set_data2 m1 d2 else m1 in
  m_type m2 = (if st <? 240 then 16 * (st / 16) else st) /\
  (st < 240 -> m_channel m2 = st mod 16) /\
  (st < 208 -> m_note m2 = d1) /\ (st < 192 -> m_velocity m2 = d2) /\
  (208 <= st < 224 -> m_velocity m2 = d1) /\
  (224 <= st < 240 -> m_bend m2 = d1 + 128 * d2) /\
  (st = 241 \/ st = 243 -> m_song m2 = d1) /\ (st = 242 -> m_beats m2 = d1 + 128 * d2).
Proof. exact message_fields_l. Qed.
Print Assumptions midi_message_fields.

(** C31.  And a sender that fills in the fields of a channel message gets the bytes to send, with data limited to
    7 bits except for the channel pressure; Bend counts modulo 2^14, so that negative values are two's complement. *)
Theorem midi_message_of_fields : forall k c b1 b2, 8 <= k <= 14 -> 0 <= c < 16 -> 0 <= b1 < 256 -> 0 <= b2 < 256 ->
  let m := mkMsg (16 * k) c b1 b2 in
  get_status m = 16 * k + c /\
  get_data1 m = (if k =? 13 then m_velocity m else if k =? 14 then m_bend m mod 128 else m_note m mod 128) /\
  get_data2 m = (if k =? 14 then m_bend m / 128 mod 128 else if k <? 12 then m_velocity m mod 128 else 0).
Proof. exact of_fields_l. Qed.
Print Assumptions midi_message_of_fields.
Example midi_fields_example :
  let m := set_bend (mkMsg 224 3 0 0) (-1) in
  m_bend m = -1 /\ get_status m = 227 /\ get_data1 m = 127 /\ get_data2 m = 127.
Proof. repeat split; reflexivity. Qed.
(** C31.  A new message is empty. *)
Theorem midi_message_new :
  m_type m_new = 0 /\ m_channel m_new = 0 /\ m_note m_new = 0 /\ m_velocity m_new = 0 /\ m_bend m_new = 0 /\
  m_beats m_new = 0 /\ m_song m_new = 0 /\ get_status m_new = 0 /\ get_data1 m_new = 0 /\ get_data2 m_new = 0.
Proof. repeat split; reflexivity. Qed.
Print Assumptions midi_message_new.

(** C31, finding: SetDataByte2 only adds bits, so setting it twice does not give the last value. *)
Theorem midi_set_data2_twice_refuted :
  let m := set_data1 (set_status m_new 224) 0 in
  get_data2 (set_data2 (set_data2 m 127) 1) = 127.
Proof. reflexivity. Qed.
Print Assumptions midi_set_data2_twice_refuted.

(** C32.  Every legal stream is reported exactly, each report at the byte that completes it. *)
Theorem midi_reader_decodes : forall s t, stream 0 s -> weave s t ->
  map (map seen) (snd (read_all r_init (map fst t))) = map snd t.
Proof. exact reader_decodes_l. Qed.
Print Assumptions midi_reader_decodes.

(** C32, Example: note on, clock inside the next note under running status, song position, note. *)
Example midi_stream_example :
  let s := [(145, []); (60, []); (100, [RMsg 145 60 100]); (60, []); (0, [RMsg 145 60 0]);
            (242, []); (5, []); (1, [RMsg 242 5 1]); (192, []); (7, [RMsg 192 7 0])] in
  let t := [(145, []); (60, []); (100, [RMsg 145 60 100]); (60, []); (248, [ROne 248]); (0, [RMsg 145 60 0]);
            (242, []); (5, []); (1, [RMsg 242 5 1]); (192, []); (7, [RMsg 192 7 0])] in
  stream 0 s /\ weave s t.
Proof.
  split.
  - apply (st_full 0 145 60 100); [left; lia|red; lia|red; lia|].
    apply (st_running 145 60 0); [lia|red; lia|red; lia|].
    apply (st_full 145 242 5 1); [right; lia|red; lia|red; lia|].
    apply (st_full 0 192 7 0); [left; lia|red; lia|red; lia|]. apply st_end.
  - do 4 apply w_keep. apply w_rt; [left; reflexivity|]. repeat apply w_keep. apply w_end.
Qed.

(** C33.  On any bytes, every report made after byte n is built from bytes among the first n+1:
    a message's status byte was received, then its data bytes in order, the last of them being
    byte n. *)
Theorem midi_reader_arbitrary_input : forall bytes, Forall (fun b => 0 <= b < 256) bytes ->
  let reports := map (map seen) (snd (read_all r_init bytes)) in
  length reports = length bytes /\
  forall n, (n < length bytes)%nat -> Forall (comes_from (firstn (S n) bytes)) (nth n reports []).
Proof. exact reader_any_l. Qed.
Print Assumptions midi_reader_arbitrary_input.

(** C32, C33.  One call of Read per byte: on a legal stream each call answers true and makes the reports
    due.  On any stream a call that answers false reports nothing. *)
Theorem midi_read_calls : forall s t, stream 0 s -> weave s t ->
  map (fun a => (map seen (fst a), snd a)) (read_calls (length t) r_init (map fst t)) = map (fun e => (snd e, true)) t.
Proof. exact reader_calls_l. Qed.
Print Assumptions midi_read_calls.
Theorem midi_read_false : forall k bytes, Forall (fun b => 0 <= b < 256) bytes ->
  Forall (fun a => snd a = false -> fst a = []) (read_calls k r_init bytes).
Proof. intros k bytes F. exact (calls_quiet_l k bytes [] r_init F init_inv). Qed.
Print Assumptions midi_read_false.
(** C33.  With no byte waiting a call answers false and reports nothing, however often it is made. *)
Theorem midi_read_idle : forall k bytes,
  read_calls (length bytes + k) r_init bytes = read_calls (length bytes) r_init bytes ++ repeat ([], false) k.
Proof. intros k bytes. exact (calls_idle_l k bytes r_init). Qed.
Print Assumptions midi_read_idle.
(** C33, finding: "Returns true when a byte was read" fails: Read answers false for a byte that it takes
    and ignores, so a loop that reads while Read answers true stops with a note waiting. *)
Theorem midi_read_true_refuted : forall bytes,
  read_once r_init (244 :: bytes) = (r_init, bytes, [], false).
Proof. reflexivity. Qed.
Print Assumptions midi_read_true_refuted.
Example midi_read_example :
  map (fun a => (map seen (fst a), snd a)) (read_calls 5 r_init [60; 144; 60; 100]) =
    [([], false); ([], true); ([], true); ([RMsg 144 60 100], true); ([], false)].
Proof. reflexivity. Qed.

(** C33.  Once system exclusive data starts nothing is ever reported again. *)
Theorem midi_reader_sysex_locks : forall pre b rest, Forall (fun b => 0 <= b < 256) (pre ++ [b]) ->
  let reports l := map (map seen) (snd (read_all r_init l)) in
  last (reports (pre ++ [b])) [] = [RSysEx] ->
  reports (pre ++ b :: rest) = reports (pre ++ [b]) ++ repeat [] (length rest).
Proof. exact reader_sysex_l. Qed.
Print Assumptions midi_reader_sysex_locks.
Example midi_sysex_example :
  map (map seen) (snd (read_all r_init [240; 1; 2; 247; 144; 60; 100])) = [RSysEx] :: repeat [] 6.
Proof. reflexivity. Qed.

(** C33, finding: when one data byte of a two-data-byte channel message is lost, the reader never
    gets back in step although every later message carries its status byte: each report pairs
    the second byte of one message with the first byte of the next, for ever. *)
Theorem midi_reader_resync_refuted : forall st x ms, 128 <= st < 240 -> data_count st = 2 -> data_byte x ->
  Forall (fun d => data_byte (fst d) /\ data_byte (snd d)) ms ->
  map seen (concat (snd (read_all r_init ([st; x] ++ flat_map (fun d => [st; fst d; snd d]) ms)))) =
  map (fun p => RMsg st (fst p) (snd p)) (combine (x :: map snd ms) (map fst ms)).
Proof.
  intros st x ms H C X F. rewrite read_all_app. cbn [read_all].
  rewrite d_status by (reflexivity || (left; exact H)).
  rewrite d_first by (auto; reflexivity).
  unfold after_status. cbn [r_end r_run r_msg]. rewrite C. cbn [Z.eqb Pos.eqb].
  match goal with |- context [read_all ?r _] =>
    pose proof (out_of_step_l st x ms r H C X F eq_refl eq_refl (ex_intro _ _ eq_refl)) as O end.
  destruct (read_all _ _) as [r2 ns]. cbn [snd concat app] in *. exact O.
Qed.
Print Assumptions midi_reader_resync_refuted.
Example midi_resync_example :
  map seen (concat (snd (read_all r_init [144; 60;  144; 64; 127;  144; 67; 127]))) = [RMsg 144 60 64; RMsg 144 127 67].
Proof. reflexivity. Qed.

(** C33, findings: an undefined realtime byte inside a message discards the message; a tune request
    inside a message is lost, and outside it leaves the running status in force, which MIDI 1.0
    cancels. *)
Theorem midi_reader_undefined_refuted :
  map seen (concat (snd (read_all r_init [144; 60; 249; 64]))) = [] /\
  map seen (concat (snd (read_all r_init [144; 60; 246; 64]))) = [RMsg 144 60 64] /\
  map seen (concat (snd (read_all r_init [144; 60; 64; 246; 61; 65]))) = [RMsg 144 60 64; ROne 246; RMsg 144 61 65].
Proof. repeat split; reflexivity. Qed.
Print Assumptions midi_reader_undefined_refuted.

(** C34.  What MidiWriter writes is a legal stream for exactly the messages given to it. *)
Theorem midi_writer_legal : forall ops, Forall w_valid ops ->
  exists s t, stream 0 s /\ weave s t /\ map fst t = write_all 0 ops /\ concat (map snd t) = map w_seen ops.
Proof. exact writer_legal_l. Qed.
Print Assumptions midi_writer_legal.

(** C34.  And MidiReader reports them. *)
Theorem midi_writer_reader : forall ops, Forall w_valid ops ->
  map seen (concat (snd (read_all r_init (write_all 0 ops)))) = map w_seen ops.
Proof. exact writer_reader_l. Qed.
Print Assumptions midi_writer_reader.
Example midi_writer_example :
  let ops := [WMessage (mkMsg 144 1 60 100); WType 248; WMessage (mkMsg 144 1 60 0); WMessage (mkMsg 242 5 1 0);
              WMessage (mkMsg 144 1 61 9)] in
  Forall w_valid ops /\ write_all 0 ops = [145; 60; 100; 248; 60; 0; 242; 5; 2; 145; 61; 9].
Proof.
  split; [|reflexivity].
  assert (K : forall a b, 0 <= a < 128 -> 0 <= b < 128 -> w_valid (WMessage (mkMsg 144 1 a b))).
  { intros a b A B. left. left. exists 9. cbn. lia. }
  apply Forall_cons; [apply K; lia|]. apply Forall_cons; [left; reflexivity|].
  apply Forall_cons; [apply K; lia|]. apply Forall_cons; [left; right; cbn; lia|].
  apply Forall_cons; [apply K; lia|]. constructor.
Qed.

(** C34, findings: channel pressure is written without masking, so a Pressure of 128 or more puts a
    status byte on the wire; a system exclusive message writes only F0 and locks the reader; tune
    request through Write(MessageTypes) does not cancel the running status. *)
Theorem midi_writer_refuted :
  write_all 0 [WMessage (mkMsg 208 0 0 144)] = [208; 144] /\
  map seen (concat (snd (read_all r_init (write_all 0 [WMessage (mkMsg 240 0 0 0); WMessage (mkMsg 144 0 60 1)])))) = [RSysEx] /\
  write_all 0 [WMessage (mkMsg 144 0 60 1); WType 246; WMessage (mkMsg 144 0 60 0)] = [144; 60; 1; 246; 60; 0].
Proof. repeat split; reflexivity. Qed.
Print Assumptions midi_writer_refuted.
