(** MidiMessage, MidiReader and MidiWriter on boards with any layout of the message. *)
Require Import ZArith List Bool Lia.
Import ListNotations.
From Verif Require Import Base BitModel MidiModel MidiSpec MidiProofs LayoutModel LayoutSpec LayoutProofs.
Open Scope Z_scope.

Example layouts_ok : layout_ok lay_avr /\ layout_ok lay_arm.
Proof. unfold layout_ok. cbn. lia. Qed.

(** C99.  On every board, whatever memory the message is in held before, status and data bytes come back and the
    members are those of the message. *)
Theorem layout_message : forall L f st d1 d2, layout_ok L -> has_data st -> data_byte d1 -> data_byte d2 ->
  let g := lbuild L f st d1 d2 in
  lget_status L g = st /\ lget_data1 L g = d1 /\ lget_data2 L g = (if data_count st =? 2 then d2 else 0) /\
  ld_type L g = (if st <? 240 then 16 * (st / 16) else st) /\
  (st < 240 -> ld_channel L g = st mod 16) /\
  (st < 208 -> ld_note L g = d1) /\ (st < 192 -> ld_velocity L g = d2) /\
  (208 <= st < 224 -> ld_velocity L g = d1) /\
  (224 <= st < 240 -> ld_bend L g = d1 + 128 * d2) /\
  (st = 241 \/ st = 243 -> ld_song L g = d1) /\ (st = 242 -> ld_beats L g = d1 + 128 * d2).
Proof. intros L f st d1 d2 OK. exact (lroundtrip_l L OK f st d1 d2). Qed.
Print Assumptions layout_message.

(** C99.  On any bytes MidiReader makes the same reports on every board. *)
Theorem layout_reader : forall L M f g bytes, layout_ok L -> layout_ok M -> Forall (fun b => 0 <= b < 256) bytes ->
  map (map (lseen L)) (snd (lread_all L (lr_init L f) bytes)) = map (map (lseen M)) (snd (lread_all M (lr_init M g) bytes)) /\
  map (map (lseen L)) (snd (lread_all L (lr_init L f) bytes)) = map (map seen) (snd (read_all r_init bytes)).
Proof.
  intros L M f g bytes OL OM F.
  rewrite <- (read_agrees L OL bytes r_init (lr_init L f) F (init_agrees L OL f)).
  rewrite <- (read_agrees M OM bytes r_init (lr_init M g) F (init_agrees M OM g)). split; reflexivity.
Qed.
Print Assumptions layout_reader.
(** C99.  So a legal stream is reported exactly. *)
Theorem layout_reader_decodes : forall L f s t, layout_ok L -> stream 0 s -> weave s t ->
  map (map (lseen L)) (snd (lread_all L (lr_init L f) (map fst t))) = map snd t.
Proof.
  intros L f s t OL S W.
  rewrite <- (read_agrees L OL (map fst t) r_init (lr_init L f)).
  - exact (reader_decodes_l s t S W).
  - exact (stream_bytes_l s t S W).
  - exact (init_agrees L OL f).
Qed.
Print Assumptions layout_reader_decodes.

(** C99.  What one board writes another reports, message for message. *)
Theorem layout_link : forall A B msgs f, layout_ok A -> layout_ok B ->
  Forall (fun m => has_data (fst (fst m)) /\ data_byte (snd (fst m)) /\ data_byte (snd m)) msgs ->
  forall mems, length mems = length msgs ->
  map (lseen B) (concat (snd (lread_all B (lr_init B f)
    (lwrite_all A 0 (map (fun p => lbuild A (fst p) (fst (fst (snd p))) (snd (fst (snd p))) (snd (snd p))) (combine mems msgs)))))) =
  map (fun m => RMsg (fst (fst m)) (snd (fst m)) (if data_count (fst (fst m)) =? 2 then snd m else 0)) msgs.
Proof. exact link_l. Qed.
Print Assumptions layout_link.

(** C99.  CopyTo: the target has the members and the bytes of the source, memory around it is left alone. *)
Theorem layout_copy : forall L f g, layout_ok L ->
  same_members L (lcopy L f g) f /\
  lget_status L (lcopy L f g) = lget_status L f /\ lget_data1 L (lcopy L f g) = lget_data1 L f /\
  lget_data2 L (lcopy L f g) = lget_data2 L f /\
  (forall x, x < 0 \/ l_size L <= x -> lcopy L f g x = g x).
Proof.
  intros L f g OK. pose proof (copy_members L OK f g) as C. split; [exact C|].
  destruct (members_get L _ _ C) as (A & B & D). repeat split; try assumption.
  intros x X. unfold lcopy. destruct (0 <=? x) eqn:E1; [|reflexivity]. destruct (x <? l_size L) eqn:E2; [|reflexivity].
  apply Z.leb_le in E1. apply Z.ltb_lt in E2. lia.
Qed.
Print Assumptions layout_copy.

(** C99, finding: members that are not of the message's type share memory differently on each board.  After Beats was
    set to 0x3C00, Note is 0x3C on AVR and unchanged on a 32-bit board. *)
Theorem layout_overlap_refuted :
  ld_note lay_avr (st_beats lay_avr (lmsg_new lay_avr (fun _ => 7)) 15360) = 60 /\
  ld_note lay_arm (st_beats lay_arm (lmsg_new lay_arm (fun _ => 7)) 15360) = 0.
Proof. split; reflexivity. Qed.
Print Assumptions layout_overlap_refuted.
(** C99.  Example: a pitch bend on both boards, byte by byte (type, channel, data). *)
Example layout_bytes :
  map (lbuild lay_avr (fun _ => 7) 227 1 64) [0; 1; 2; 3; 4; 5] = [224; 0; 3; 1; 32; 7] /\
  map (lbuild lay_arm (fun _ => 7) 227 1 64) [0; 1; 2; 3; 4; 5; 6; 7; 8; 9; 10; 11; 12] = [224; 0; 0; 0; 3; 0; 7; 7; 1; 32; 0; 0; 7].
Proof. split; reflexivity. Qed.
