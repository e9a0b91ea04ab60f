Require Import ZArith List Bool Lia ZifyBool.
Import ListNotations.
From Verif Require Import Base BaseFacts MidiModel MidiSpec.
Open Scope Z_scope.

(** ** Bytes by enumeration *)
Lemma zseq_all : forall (f : Z -> bool) n a, forallb f (map (fun i => a + Z.of_nat i) (seq 0 n)) = true ->
  forall b, a <= b < a + Z.of_nat n -> f b = true.
Proof.
  intros f n a H b Hb. rewrite forallb_forall in H. apply H.
  apply in_map_iff. exists (Z.to_nat (b - a)). split; [lia|]. apply in_seq. lia.
Qed.

Definition eqp (a b : Z * Z) : bool := (fst a =? fst b) && (snd a =? snd b).

Lemma type_channel : forall st, 128 <= st < 240 ->
  msg_type st = 16 * (st / 16) /\ Z.land st 15 = st mod 16 /\ Z.lor (16 * (st / 16)) (st mod 16) = st.
Proof.
  intros st H.
  pose proof (zseq_all (fun st => (msg_type st =? 16 * (st / 16)) && (Z.land st 15 =? st mod 16) &&
     (Z.lor (16 * (st / 16)) (st mod 16) =? st)) 112 128 eq_refl st ltac:(lia)) as A.
  cbv beta in A. lia.
Qed.
Lemma type_system : forall st, 240 <= st < 256 -> msg_type st = st.
Proof.
  intros st H.
  pose proof (zseq_all (fun st => msg_type st =? st) 16 240 eq_refl st ltac:(lia)) as A.
  cbv beta in A. lia.
Qed.
Lemma type_data : forall b, 0 <= b < 128 -> msg_type b = 0.
Proof.
  intros b H.
  pose proof (zseq_all (fun st => msg_type st =? 0) 128 0 eq_refl b ltac:(lia)) as A.
  cbv beta in A. lia.
Qed.
Lemma type_pos : forall b, 128 <= b < 256 -> 0 < msg_type b.
Proof.
  intros b H. destruct (Z_lt_dec b 240).
  - destruct (type_channel b) as [E _]; lia.
  - rewrite type_system; lia.
Qed.

Lemma classify_l : forall b, 0 <= b < 256 ->
  is_status b = (128 <=? b) /\
  msg_type b = (if b <? 128 then 0 else if b <? 240 then 16 * (b / 16) else b) /\
  msg_length b = (match kind_of b with KData | KUndefined => 0 | KSysEx => -1 | _ => 1 + data_count b end) /\
  is_channel (msg_type b) = (match kind_of b with KChannel => true | _ => false end) /\
  is_system b = (240 <=? b) /\
  is_system_common b = (240 <=? b) && (b <? 248) /\
  is_realtime b = (match kind_of b with KRealtime => true | _ => false end || (b =? 249) || (b =? 253)) /\
  is_channel b = (match kind_of b with KChannel => true | _ => false end) && (b <=? 224).
Proof.
  intros b H.
  pose proof (zseq_all (fun b => 
    Bool.eqb (is_status b) (128 <=? b) &&
  (msg_type b =? (if b <? 128 then 0 else if b <? 240 then 16 * (b / 16) else b)) &&
  (msg_length b =? (match kind_of b with KData | KUndefined => 0 | KSysEx => -1 | _ => 1 + data_count b end)) &&
  Bool.eqb (is_channel (msg_type b)) (match kind_of b with KChannel => true | _ => false end) &&
  Bool.eqb (is_system b) (240 <=? b) &&
  Bool.eqb (is_system_common b) ((240 <=? b) && (b <? 248)) &&
  Bool.eqb (is_realtime b) (match kind_of b with KRealtime => true | _ => false end || (b =? 249) || (b =? 253)) &&
  Bool.eqb (is_channel b) ((match kind_of b with KChannel => true | _ => false end) && (b <=? 224)))
    256 0 eq_refl b ltac:(lia)) as A.
  cbv beta in A. repeat rewrite andb_true_iff in A. repeat rewrite Bool.eqb_true_iff in A.
  rewrite !Z.eqb_eq in A. tauto.
Qed.

(** ** Fourteen bit values *)
Lemma land127 : forall d, 0 <= d < 128 -> Z.land d 127 = d.
Proof. intros d H. change 127 with (Z.ones 7). rewrite Z.land_ones by lia. change (2 ^ 7) with 128. lia. Qed.
Lemma land127_range : forall d, 0 <= Z.land d 127 < 128.
Proof. intros d. change 127 with (Z.ones 7). rewrite Z.land_ones by lia. change (2 ^ 7) with 128. lia. Qed.
Lemma lor_split : forall a b, 0 <= a < 128 -> 0 <= b -> Z.lor a (Z.shiftl b 7) = a + 128 * b.
Proof.
  intros a b H Hb. rewrite Z.shiftl_mul_pow2 by lia. change (2 ^ 7) with 128.
  assert (Hd : Z.land a (b * 128) = 0).
  { apply Z.bits_inj'. intros j Hj. rewrite Z.land_spec, Z.bits_0.
    change (b * 128) with (b * 2 ^ 7). rewrite Z.mul_pow2_bits by lia.
    destruct (Z_lt_dec j 7).
    - rewrite (Z.testbit_neg_r b) by lia. apply andb_false_r.
    - replace (Z.testbit a j) with false; [reflexivity|]. symmetry.
      destruct (Z.eq_dec a 0) as [->|]; [apply Z.bits_0|].
      apply Z.bits_above_log2; [lia|]. assert (Z.log2 a < 7) by (apply Z.log2_lt_pow2; cbn; lia). lia. }
  rewrite <- Z.lxor_lor by exact Hd. rewrite <- Z.add_nocarry_lxor by exact Hd. lia.
Qed.
Lemma lo_part : forall a b, 0 <= a < 128 -> 0 <= b < 128 -> Z.land (a + 128 * b) 127 = a.
Proof. intros a b H Hb. change 127 with (Z.ones 7). rewrite Z.land_ones by lia. change (2 ^ 7) with 128. lia. Qed.
Lemma hi_part : forall v, 0 <= v -> Z.shiftr (Z.land v 16256) 7 = (v / 128) mod 128.
Proof.
  intros v H. rewrite Z.shiftr_land. change (Z.shiftr 16256 7) with (Z.ones 7).
  rewrite Z.land_ones by lia. rewrite Z.shiftr_div_pow2 by lia. reflexivity.
Qed.

Lemma bend_set : forall m v, -32768 <= v < 32768 -> m_bend (set_bend m v) = v.
Proof. intros m v H. unfold m_bend, set_bend. cbn [m_b1 m_b2].
  replace (u16 v mod 256 + 256 * (u16 v / 256)) with (u16 v) by lia.
  unfold s16, u16. rewrite Z.mod_mod by lia. cbv zeta. destruct (v mod 65536 <? 32768) eqn:E; lia. Qed.
Lemma beats_set : forall m v, 0 <= v < 65536 -> m_beats (set_beats m v) = v.
Proof. intros m v H. unfold m_beats, set_beats. cbn [m_b0 m_b1]. rewrite u16_small by lia. lia. Qed.

(** ** C31 *)
Lemma has_data_cases : forall st, has_data st ->
  (exists k, (k = 8 \/ k = 9 \/ k = 10 \/ k = 11 \/ k = 12 \/ k = 13 \/ k = 14) /\ 128 <= st < 240 /\ msg_type st = 16 * k /\ st / 16 = k)
  \/ (st = 241 \/ st = 242 \/ st = 243).
Proof.
  intros st [H|H]; [left|right; lia].
  exists (st / 16). destruct (type_channel st H) as [E _]. repeat split; lia.
Qed.
Lemma data_count_channel : forall st k, 128 <= st < 240 -> st / 16 = k ->
  data_count st = if (k =? 12) || (k =? 13) then 1 else 2.
Proof.
  intros st k H E. unfold data_count, kind_of.
  replace (st <? 128) with false by lia. replace (st <? 240) with true by lia.
  destruct ((192 <=? st) && (st <? 224)) eqn:A; destruct ((k =? 12) || (k =? 13)) eqn:B; lia.
Qed.

Lemma set_status_channel : forall m st, 128 <= st < 240 ->
  set_status m st = mkMsg (16 * (st / 16)) (st mod 16) 0 0.
Proof.
  intros m st H. destruct (type_channel st H) as (A & B & C).
  unfold set_status. rewrite A, B. cbn [m_type set_bend set_beats m_b0 m_b1 m_b2].
  replace (is_system (16 * (st / 16))) with false; [reflexivity|]. unfold is_system. lia.
Qed.
Lemma set_status_system : forall m st, 240 <= st < 256 -> set_status m st = mkMsg st 0 0 0.
Proof.
  intros m st H. unfold set_status. rewrite type_system by lia. cbn [m_type set_bend set_beats m_b0 m_b1 m_b2].
  replace (is_system st) with true by (unfold is_system; lia). reflexivity.
Qed.

Lemma u16_0 : forall d, 0 <= d < 256 -> u16 d mod 256 = d /\ u16 d / 256 = 0.
Proof. intros. unfold u16. lia. Qed.

(** The message after one and after two data bytes. *)
Definition msg1 (st d1 : Z) : message :=
  let t := msg_type st in let c := if st <? 240 then st mod 16 else 0 in
  if t =? 208 then mkMsg t c 0 d1
  else if 240 <=? t then mkMsg t d1 0 0
  else mkMsg t c d1 0.
Definition msg2 (st d1 d2 : Z) : message :=
  let t := msg_type st in let c := if st <? 240 then st mod 16 else 0 in
  let v := d1 + 128 * d2 in
  if t =? 224 then mkMsg t c (v mod 256) (v / 256)
  else if t =? 242 then mkMsg t (v mod 256) (v / 256) 0
  else mkMsg t c d1 d2.

Lemma set1 : forall m st d1, has_data st -> data_byte d1 -> set_data1 (set_status m st) d1 = msg1 st d1.
Proof.
  intros m st d1 Hs Hd. unfold data_byte in Hd. pose proof (u16_0 d1 ltac:(lia)) as [A1 A2].
  destruct (has_data_cases st Hs) as [(k & Hk & Hr & Ht & Hq)|H].
  - rewrite set_status_channel by lia. unfold msg1. rewrite Ht, Hq. replace (st <? 240) with true by lia.
    destruct Hk as [->|[->|[->|[->|[->|[->| ->]]]]]]; unfold set_data1; cbn [m_type m_b0 m_b1 m_b2]; try reflexivity.
    cbv beta iota delta [set_bend m_type m_b0]. change (16 * 14) with 224. cbn. rewrite A1, A2. reflexivity.
  - rewrite set_status_system by lia. unfold msg1. rewrite type_system by lia.
    destruct H as [->|[->| ->]]; unfold set_data1, set_beats; cbn [m_type m_b0 m_b1 m_b2]; cbn; try reflexivity.
    rewrite A1, A2. reflexivity.
Qed.

Lemma set2 : forall m st d1 d2, has_data st -> data_byte d1 -> data_byte d2 -> data_count st = 2 ->
  set_data2 (set_data1 (set_status m st) d1) d2 = msg2 st d1 d2.
Proof.
  intros m st d1 d2 Hs H1 H2 Hc. rewrite set1 by assumption. unfold data_byte in *.
  destruct (has_data_cases st Hs) as [(k & Hk & Hr & Ht & Hq)|H].
  - rewrite (data_count_channel st k Hr Hq) in Hc. unfold msg1, msg2. rewrite Ht. replace (st <? 240) with true by lia.
    destruct Hk as [->|[->|[->|[->|[->|[->| ->]]]]]]; try discriminate Hc; try reflexivity.
    change (16 * 14) with 224. cbn [Z.eqb Pos.eqb Z.leb Z.compare Pos.compare Pos.compare_cont].
    unfold set_data2. cbn [m_type m_b0 m_b1 m_b2 Z.eqb Pos.eqb orb].
    unfold m_bend, set_bend. cbn [m_type m_b0 m_b1 m_b2]. replace (d1 + 256 * 0) with d1 by lia.
    rewrite s16_small by lia. rewrite lor_split by lia. rewrite u16_small by lia. reflexivity.
  - unfold msg1, msg2. rewrite type_system by lia. destruct H as [->|[->| ->]]; try discriminate Hc.
    cbn [Z.eqb Pos.eqb Z.leb Z.ltb Z.compare Pos.compare Pos.compare_cont].
    unfold set_data2. cbn [m_type m_b0 m_b1 m_b2 Z.eqb Pos.eqb orb].
    unfold m_beats, set_beats. cbn [m_type m_b0 m_b1 m_b2]. replace (d1 + 256 * 0) with d1 by lia.
    rewrite lor_split by lia. rewrite u16_small by lia. reflexivity.
Qed.

Lemma get_status_ch : forall t c a b st, 128 <= st < 240 -> t = 16 * (st / 16) -> c = st mod 16 ->
  get_status (mkMsg t c a b) = st.
Proof.
  intros t c a b st H -> ->. destruct (type_channel st H) as (_ & _ & E).
  unfold get_status. cbn [m_type]. replace (is_system (16 * (st / 16))) with false by (unfold is_system; lia).
  unfold m_channel. cbn [m_b0]. rewrite E. apply u8_small. lia.
Qed.

Lemma rmsg_eq : forall a a' b b' c c', a = a' -> b = b' -> c = c' -> RMsg a b c = RMsg a' b' c'.
Proof. intros; subst; reflexivity. Qed.

Lemma see1 : forall st d1, has_data st -> data_byte d1 -> data_count st = 1 ->
  seen (NMessage (msg1 st d1)) = RMsg st d1 0.
Proof.
  intros st d1 Hs Hd Hc. unfold data_byte in Hd. unfold seen.
  destruct (has_data_cases st Hs) as [(k & Hk & Hr & Ht & Hq)|H].
  - rewrite (data_count_channel st k Hr Hq) in Hc. unfold msg1. rewrite Ht. replace (st <? 240) with true by lia.
    destruct Hk as [->|[->|[->|[->|[->|[->| ->]]]]]]; try discriminate Hc.
    + cbn [Z.eqb Z.mul Pos.mul Pos.eqb Z.leb Z.compare Pos.compare Pos.compare_cont].
      apply rmsg_eq; [apply get_status_ch; lia| |]; cbn; try reflexivity. apply land127. lia.
    + cbn [Z.eqb Z.mul Pos.mul Pos.eqb Z.leb Z.compare Pos.compare Pos.compare_cont].
      apply rmsg_eq; [apply get_status_ch; lia|reflexivity|reflexivity].
  - unfold msg1. rewrite type_system by lia. destruct H as [->|[->| ->]]; try discriminate Hc;
      cbn; f_equal; apply land127; lia.
Qed.

Lemma see2 : forall st d1 d2, has_data st -> data_byte d1 -> data_byte d2 -> data_count st = 2 ->
  seen (NMessage (msg2 st d1 d2)) = RMsg st d1 d2.
Proof.
  intros st d1 d2 Hs H1 H2 Hc. unfold data_byte in *. unfold seen.
  assert (V : (d1 + 128 * d2) mod 256 + 256 * ((d1 + 128 * d2) / 256) = d1 + 128 * d2) by lia.
  destruct (has_data_cases st Hs) as [(k & Hk & Hr & Ht & Hq)|H].
  - rewrite (data_count_channel st k Hr Hq) in Hc. unfold msg2. rewrite Ht. replace (st <? 240) with true by lia.
    destruct Hk as [->|[->|[->|[->|[->|[->| ->]]]]]]; try discriminate Hc.
    1,2,3,4: cbn [Z.eqb Z.mul Pos.mul Pos.eqb Z.leb Z.compare Pos.compare Pos.compare_cont];
      (apply rmsg_eq; [apply get_status_ch; lia| |]; cbn; apply land127; lia).
    change (16 * 14) with 224. cbn [Z.eqb Pos.eqb].
    apply rmsg_eq; [apply get_status_ch; lia| |].
    + unfold get_data1. cbn [m_type Z.eqb Pos.eqb orb]. unfold m_bend. cbn [m_b1 m_b2]. rewrite V.
      rewrite s16_small by lia. rewrite lo_part by lia. rewrite u8_small by lia. apply land127. lia.
    + unfold get_data2. cbn [m_type Z.eqb Pos.eqb orb]. unfold m_bend. cbn [m_b1 m_b2]. rewrite V.
      rewrite s16_small by lia. rewrite hi_part by lia. rewrite u8_small by lia. rewrite land127 by lia. lia.
  - unfold msg2. rewrite type_system by lia. destruct H as [->|[->| ->]]; try discriminate Hc.
    cbn [Z.eqb Pos.eqb]. apply rmsg_eq; [reflexivity| |].
    + unfold get_data1. cbn [m_type Z.eqb Pos.eqb orb]. unfold m_beats. cbn [m_b0 m_b1]. rewrite V.
      rewrite lo_part by lia. rewrite u8_small by lia. apply land127. lia.
    + unfold get_data2. cbn [m_type Z.eqb Pos.eqb orb]. unfold m_beats. cbn [m_b0 m_b1]. rewrite V.
      rewrite hi_part by lia. rewrite u8_small by lia. rewrite land127 by lia. lia.
Qed.

Lemma message_roundtrip_l : forall m st d1 d2, has_data st -> data_byte d1 -> data_byte d2 ->
  let m1 := set_data1 (set_status m st) d1 in
  let m2 := set_data2 m1 d2 in
  get_status m1 = st /\ get_data1 m1 = d1 /\ get_status m2 = st /\ get_data1 m2 = d1 /\
  get_data2 m2 = (if data_count st =? 2 then d2 else 0) /\ 
  (msg_type st = 224 -> m_bend m2 = d1 + 128 * d2) /\ (st = 242 -> m_beats m2 = d1 + 128 * d2).
Proof.
  intros m st d1 d2 Hs H1 H2 m1 m2.
  assert (C : data_count st = 1 \/ data_count st = 2).
  { destruct (has_data_cases st Hs) as [(k & Hk & Hr & Ht & Hq)|H].
    - rewrite (data_count_channel st k Hr Hq). destruct (_ || _); auto.
    - destruct H as [->|[->| ->]]; cbn; auto. }
  destruct C as [C|C].
  - assert (E2 : m2 = m1).
    { unfold m2, m1. rewrite set1 by assumption. unfold msg1.
      destruct (has_data_cases st Hs) as [(k & Hk & Hr & Ht & Hq)|H].
      - rewrite (data_count_channel st k Hr Hq) in C. rewrite Ht.
        destruct Hk as [->|[->|[->|[->|[->|[->| ->]]]]]]; try discriminate C; reflexivity.
      - destruct H as [->|[->| ->]]; try discriminate C; reflexivity. }
    rewrite E2. unfold m1. rewrite set1 by assumption.
    pose proof (see1 st d1 Hs H1 C) as E. injection E as Ea Eb Ec.
    rewrite C. repeat split; auto; intros T.
    + exfalso. destruct (has_data_cases st Hs) as [(k & Hk & Hr & Ht & Hq)|H].
      * rewrite (data_count_channel st k Hr Hq) in C. assert (K : k = 14) by lia. rewrite K in C. discriminate C.
      * rewrite type_system in T; lia.
    + exfalso. subst st. discriminate.
  - unfold m2, m1. rewrite set2 by assumption. pose proof (see2 st d1 d2 Hs H1 H2 C) as E. injection E as Ea Eb Ec.
    rewrite C. rewrite Ea, Eb, Ec.
    assert (S1 : get_status (set_data1 (set_status m st) d1) = st /\ get_data1 (set_data1 (set_status m st) d1) = d1).
    { rewrite set1 by assumption. unfold data_byte in *. unfold msg1.
      destruct (has_data_cases st Hs) as [(k & Hk & Hr & Ht & Hq)|H].
      - rewrite (data_count_channel st k Hr Hq) in C. rewrite Ht. replace (st <? 240) with true by lia.
        destruct Hk as [->|[->|[->|[->|[->|[->| ->]]]]]]; try discriminate C;
          change (240 <=? 16 * 14) with false;
          (split; [cbn [Z.eqb Z.mul Pos.mul Pos.eqb Z.leb Z.compare Pos.compare Pos.compare_cont]; apply get_status_ch; lia|]);
          cbn [Z.eqb Z.mul Pos.mul Pos.eqb Z.leb Z.compare Pos.compare Pos.compare_cont];
          unfold get_data1; cbn [m_type m_b1 m_b2 Z.eqb Z.mul Pos.mul Pos.eqb orb]; try (apply land127; lia).
        unfold m_bend. cbn [m_b1 m_b2]. replace (d1 + 256 * 0) with d1 by lia. rewrite s16_small by lia.
        rewrite (land127 d1) by lia. rewrite u8_small by lia. apply land127; lia.
      - destruct H as [->|[->| ->]]; try discriminate C.
        split; [reflexivity|]. rewrite type_system by lia. cbn [Z.eqb Pos.eqb Z.leb Z.compare Pos.compare Pos.compare_cont].
        unfold get_data1. cbn [m_type Z.eqb Pos.eqb orb]. unfold m_beats. cbn [m_b0 m_b1].
        replace (d1 + 256 * 0) with d1 by lia. rewrite (land127 d1) by lia. rewrite u8_small by lia. apply land127; lia. }
    destruct S1 as [S1 S2]. rewrite S1, S2. unfold data_byte in *.
    repeat split; intros T.
    + unfold msg2. rewrite T. cbn [Z.eqb Pos.eqb]. unfold m_bend. cbn [m_b1 m_b2].
      rewrite s16_small by lia. lia.
    + subst st. unfold msg2. rewrite type_system by lia. cbn [Z.eqb Pos.eqb]. unfold m_beats. cbn [m_b0 m_b1]. lia.
Qed.

Lemma message_fields_l : forall m st d1 d2, has_data st -> data_byte d1 -> data_byte d2 ->
  let m1 := set_data1 (set_status m st) d1 in
  let m2 := if data_count st =? 2 then set_data2 m1 d2 else m1 in
  m_type m2 = (if st <? 240 then 16 * (st / 16) else st) /\
  (st < 240 -> m_channel m2 = st mod 16) /\
  (st < 208 -> m_note m2 = d1) /\ (st < 192 -> m_velocity m2 = d2) /\
  (208 <= st < 224 -> m_velocity m2 = d1) /\
  (224 <= st < 240 -> m_bend m2 = d1 + 128 * d2) /\
  (st = 241 \/ st = 243 -> m_song m2 = d1) /\ (st = 242 -> m_beats m2 = d1 + 128 * d2).
Proof.
  intros m st d1 d2 Hs H1 H2 m1 m2. unfold m2.
  assert (E : (if data_count st =? 2 then set_data2 m1 d2 else m1) = if data_count st =? 2 then msg2 st d1 d2 else msg1 st d1).
  { destruct (Z.eqb_spec (data_count st) 2) as [C|C]; unfold m1; [apply set2; assumption|apply set1; assumption]. }
  rewrite E. clear E. clear m1 m2. unfold data_byte in *. unfold m_channel, m_note, m_velocity, m_song.
  destruct (has_data_cases st Hs) as [(k & Hk & Hr & Ht & Hq)|H].
  - rewrite (data_count_channel st k Hr Hq). unfold msg1, msg2. rewrite Ht. replace (st <? 240) with true by lia. rewrite Hq.
    destruct Hk as [->|[->|[->|[->|[->|[->| ->]]]]]];
      cbn [Z.eqb Z.mul Pos.mul Pos.eqb orb Z.leb Z.compare Pos.compare Pos.compare_cont m_type m_b0 m_b1 m_b2];
      repeat split; intros; try lia.
    unfold m_bend. cbn [m_b1 m_b2]. change (match d2 with 0 => 0 | Z.pos y => Z.pos y~0~0~0~0~0~0~0 | Z.neg w => Z.neg w~0~0~0~0~0~0~0 end) with (128 * d2).
    replace ((d1 + 128 * d2) mod 256 + 256 * ((d1 + 128 * d2) / 256)) with (d1 + 128 * d2) by (clear; lia).
    apply s16_small. clear - H1 H2. lia.
  - destruct H as [->|[->| ->]]; cbn - [Z.mul Z.modulo Z.div]; repeat split; intros; try lia. unfold m_beats. cbn [m_b0 m_b1]. lia.
Qed.

Lemma land_127 : forall v, Z.land v 127 = v mod 128.
Proof. intros v. change 127 with (Z.ones 7). rewrite Z.land_ones by lia. reflexivity. Qed.
Lemma land_hi : forall v, Z.shiftr (Z.land v 16256) 7 = v / 128 mod 128.
Proof.
  intros v. change 16256 with (Z.shiftl (Z.ones 7) 7). apply Z.bits_inj'. intros n Hn.
  rewrite Z.shiftr_spec, Z.land_spec, Z.shiftl_spec by lia. change 128 with (2 ^ 7) at 2. rewrite <- Z.land_ones by lia.
  rewrite Z.land_spec. change 128 with (2 ^ 7). rewrite <- Z.shiftr_div_pow2 by lia. rewrite Z.shiftr_spec by lia.
  replace (n + 7 - 7) with n by lia. reflexivity.
Qed.
Lemma of_fields_l : forall k c b1 b2, 8 <= k <= 14 -> 0 <= c < 16 -> 0 <= b1 < 256 -> 0 <= b2 < 256 ->
  let m := mkMsg (16 * k) c b1 b2 in
  get_status m = 16 * k + c /\
  get_data1 m = (if k =? 13 then m_velocity m else if k =? 14 then m_bend m mod 128 else m_note m mod 128) /\
  get_data2 m = (if k =? 14 then m_bend m / 128 mod 128 else if k <? 12 then m_velocity m mod 128 else 0).
Proof.
  intros k c b1 b2 Hk Hc H1 H2 m. split.
  - apply get_status_ch; lia.
  - unfold m. unfold get_data1, get_data2, m_velocity, m_note. cbn [m_type m_b0 m_b1 m_b2].
    assert (K : k = 8 \/ k = 9 \/ k = 10 \/ k = 11 \/ k = 12 \/ k = 13 \/ k = 14) by lia.
    destruct K as [->|[->|[->|[->|[->|[->| ->]]]]]];
      cbn [Z.eqb Z.mul Pos.mul Pos.eqb orb Z.ltb Z.compare Pos.compare Pos.compare_cont];
      rewrite ?land_127; try (split; reflexivity).
    rewrite land_hi. rewrite ?land_127. generalize (m_bend (mkMsg 224 c b1 b2)). intros v. unfold u8. clear. split; lia.
Qed.

(** ** C32 *)
Lemma len_data : forall st, has_data st -> msg_length st = 1 + data_count st /\ (data_count st = 1 \/ data_count st = 2).
Proof.
  intros st H. split.
  - destruct (classify_l st) as (_ & _ & E & _); [unfold has_data in H; lia|]. rewrite E.
    unfold kind_of. destruct H as [H|H].
    + replace (st <? 128) with false by lia. replace (st <? 240) with true by lia. reflexivity.
    + replace (st <? 128) with false by lia. replace (st <? 240) with false by lia.
      replace (st =? 240) with false by lia. replace ((st =? 241) || (st =? 242) || (st =? 243) || (st =? 246)) with true by lia.
      reflexivity.
  - destruct (has_data_cases st H) as [(k & Hk & Hr & Ht & Hq)|HH].
    + rewrite (data_count_channel st k Hr Hq). destruct (_ || _); auto.
    + destruct HH as [->|[->| ->]]; cbn; auto.
Qed.

Definition parse_ok (p : pstate) : Prop := p = StatusByte \/ p = DataByte1 \/ p = DataByte2.

Lemma rt_cases : forall b, realtime b -> msg_type b = b /\ msg_length b = 1 /\ is_realtime b = true /\ 0 < b.
Proof. intros b [->|[->|[->|[->|[->| ->]]]]]; repeat split; reflexivity. Qed.

Lemma d_rt : forall r b, realtime b -> parse_ok (r_parse r) -> dispatch r b = (r, [NRealtime b], true).
Proof.
  intros r b Hb Hp. destruct (rt_cases b Hb) as (A & B & C & D).
  unfold dispatch. rewrite A, C. unfold process_status. rewrite B. cbn [Z.eqb Pos.eqb].
  replace (b =? 0) with false by lia. replace (b >? 0) with true by lia.
  destruct r as [run p e m]. cbn in *. destruct Hp as [->|[->| ->]]; cbn; reflexivity.
Qed.

Definition after_status (r : reader) (st : Z) : reader :=
  mkReader (r_run r) DataByte1 (if data_count st =? 1 then DataByte1 else DataByte2) (set_status (r_msg r) st).

Lemma ps_data : forall r st, has_data st -> process_status r st = (after_status r st, [], true).
Proof.
  intros r st H. destruct (len_data st H) as [L [C|C]]; unfold process_status, after_status; rewrite L, C; reflexivity.
Qed.

Lemma d_status : forall r st, r_parse r = StatusByte -> has_data st ->
  dispatch r st = (after_status r st, [], true).
Proof.
  intros r st Hp H. unfold dispatch. rewrite Hp.
  assert (0 < msg_type st) by (apply type_pos; unfold has_data in H; lia).
  replace (msg_type st =? 0) with false by lia. replace (msg_type st >? 0) with true by lia. cbn [andb negb].
  rewrite ps_data by assumption. reflexivity.
Qed.

Definition done (run : Z) (m : message) : reader := mkReader run StatusByte NotSet m.
Definition run_of (m : message) : Z := if is_channel (m_type m) then u8 (Z.lor (m_type m) (m_channel m)) else 0.

Lemma d_first : forall r d, r_parse r = DataByte1 -> data_byte d ->
  dispatch r d =
    match r_end r with
    | DataByte1 => let m := set_data1 (r_msg r) d in (done (run_of m) m, [NMessage m], true)
    | _ => (mkReader (r_run r) DataByte2 (r_end r) (set_data1 (r_msg r) d), [], true)
    end.
Proof.
  intros r d Hp H. unfold dispatch. rewrite Hp. rewrite type_data by (unfold data_byte in H; lia).
  cbn [Z.gtb Z.compare]. unfold process_data. rewrite Hp.
  destruct (r_end r) eqn:E; cbn; reflexivity.
Qed.
Lemma d_second : forall r d, r_parse r = DataByte2 -> r_end r = DataByte2 -> data_byte d ->
  dispatch r d = let m := set_data2 (r_msg r) d in (done (run_of m) m, [NMessage m], true).
Proof.
  intros r d Hp E H. unfold dispatch. rewrite Hp. rewrite type_data by (unfold data_byte in H; lia).
  cbn [Z.gtb Z.compare]. unfold process_data. rewrite Hp. cbn. rewrite E. cbn. reflexivity.
Qed.
Lemma d_running : forall r d, r_parse r = StatusByte -> data_byte d -> 128 <= r_run r < 240 ->
  dispatch r d = dispatch (after_status r (r_run r)) d.
Proof.
  intros r d Hp H Hr.
  assert (Hd : has_data (r_run r)) by (left; exact Hr).
  unfold dispatch. rewrite type_data by (unfold data_byte in H; lia). rewrite Hp. cbn [Z.gtb Z.compare Z.eqb].
  replace (r_run r =? 0) with false by lia. cbn [andb negb]. rewrite ps_data by assumption.
  cbn [r_parse after_status]. destruct (process_data _ _) as [r2 s2]. reflexivity.
Qed.

Lemma run_msg1 : forall st d, has_data st -> run_of (msg1 st d) = next_running st.
Proof.
  intros st d H. unfold run_of, msg1, next_running.
  destruct (has_data_cases st H) as [(k & Hk & Hr & Ht & Hq)|HH].
  - destruct (type_channel st Hr) as (A & B & C). rewrite Ht. replace (st <? 240) with true by lia.
    replace (is_channel _) with true.
    + unfold m_channel. destruct Hk as [->|[->|[->|[->|[->|[->| ->]]]]]];
      cbn [Z.eqb Z.mul Pos.mul Pos.eqb Z.leb Z.compare Pos.compare Pos.compare_cont m_type m_b0];
      rewrite Hq in C; cbn [Z.mul Pos.mul] in C; rewrite C; apply u8_small; lia.
    + unfold is_channel. destruct Hk as [->|[->|[->|[->|[->|[->| ->]]]]]]; reflexivity.
  - destruct HH as [->|[->| ->]]; reflexivity.
Qed.
Lemma run_msg2 : forall st d1 d2, has_data st -> run_of (msg2 st d1 d2) = next_running st.
Proof.
  intros st d1 d2 H. unfold run_of, msg2, next_running.
  destruct (has_data_cases st H) as [(k & Hk & Hr & Ht & Hq)|HH].
  - destruct (type_channel st Hr) as (A & B & C). rewrite Ht. replace (st <? 240) with true by lia.
    replace (is_channel _) with true.
    + unfold m_channel. destruct Hk as [->|[->|[->|[->|[->|[->| ->]]]]]];
      cbn [Z.eqb Z.mul Pos.mul Pos.eqb Z.leb Z.compare Pos.compare Pos.compare_cont m_type m_b0];
      rewrite Hq in C; cbn [Z.mul Pos.mul] in C; rewrite C; apply u8_small; lia.
    + unfold is_channel. destruct Hk as [->|[->|[->|[->|[->|[->| ->]]]]]]; reflexivity.
  - destruct HH as [->|[->| ->]]; reflexivity.
Qed.

Fixpoint good (r : reader) (s : list (Z * list report)) : Prop :=
  parse_ok (r_parse r) /\
  match s with
  | [] => True
  | (b, rep) :: s' => let '(r', n, ok) := dispatch r b in (map seen n = rep /\ ok = true) /\ good r' s'
  end.

Lemma good_weave : forall s t, weave s t -> forall r, good r s -> good r t.
Proof.
  intros s t W. induction W as [|[b rep] s t W IH|b s t Hb W IH]; intros r G.
  - exact G.
  - cbn [good] in *. destruct G as [P G]. split; [exact P|].
    destruct (dispatch r b) as [[r' n] sc]. destruct G as [E G]. split; [exact E|]. apply IH. exact G.
  - cbn [good]. assert (P : parse_ok (r_parse r)) by (destruct s as [|[? ?] ?]; cbn [good] in G; apply G).
    split; [exact P|]. rewrite d_rt by assumption. split; [split; reflexivity|]. apply IH. exact G.
Qed.

Lemma good_reports : forall s r, good r s -> map (map seen) (snd (read_all r (map fst s))) = map snd s.
Proof.
  induction s as [|[b rep] s IH]; intros r G; [reflexivity|].
  cbn [good] in G. destruct G as [_ G]. cbn [map fst snd read_all].
  destruct (dispatch r b) as [[r' n] sc] eqn:E. destruct G as [[F _] G].
  specialize (IH r' G). destruct (read_all r' (map fst s)) as [r2 ns]. cbn [snd map] in *. rewrite F, IH. reflexivity.
Qed.

(** Consuming the data bytes of a message. *)
Lemma good_body : forall m run st d1 d2 s, has_data st -> data_byte d1 -> data_byte d2 ->
  (forall m', good (done (next_running st) m') s) ->
  good (mkReader run DataByte1 (if data_count st =? 1 then DataByte1 else DataByte2) (set_status m st)) (body st d1 d2 ++ s).
Proof.
  intros m run st d1 d2 s Hs H1 H2 K. destruct (len_data st Hs) as [_ [C|C]]; unfold body; rewrite C;
    cbn [Z.eqb Pos.eqb app good].
  - split; [right; left; reflexivity|]. rewrite d_first by (auto; reflexivity). cbn [r_end r_msg].
    rewrite set1 by assumption. cbv zeta. split.
    + cbn [map]. rewrite see1 by assumption. split; reflexivity.
    + rewrite run_msg1 by assumption. apply K.
  - split; [right; left; reflexivity|]. rewrite d_first by (auto; reflexivity). cbn [r_end r_msg r_run].
    split; [split; reflexivity|]. split; [right; right; reflexivity|].
    rewrite d_second by (auto; reflexivity). cbn [r_msg]. rewrite set2 by assumption. cbv zeta. split.
    + cbn [map]. rewrite see2 by assumption. split; reflexivity.
    + rewrite run_msg2 by assumption. apply K.
Qed.

Lemma body_first : forall st d1 d2, exists rep rest, body st d1 d2 = (d1, rep) :: rest.
Proof. intros. unfold body. destruct (_ =? _); eauto. Qed.

Lemma stream_good : forall rs s, stream rs s -> forall r, r_parse r = StatusByte ->
  (rs <> 0 -> r_run r = rs /\ 128 <= rs < 240) -> good r s.
Proof.
  intros rs s S. induction S as [rs|rs st d1 d2 s Hs H1 H2 S IH|rs d1 d2 s Hn H1 H2 S IH|rs s S IH]; intros r P R.
  - split; [left; exact P|exact I].
  - cbn [good]. split; [left; exact P|]. rewrite d_status by assumption. split; [split; reflexivity|].
    apply good_body; auto. intros m'. apply IH; [reflexivity|].
    intros Hn. split; [reflexivity|]. unfold next_running in *. unfold has_data in Hs. destruct (st <? 240) eqn:?; lia.
  - destruct (R Hn) as [Rr Rg].
    assert (G : good (after_status r rs) (body rs d1 d2 ++ s)).
    { apply good_body; auto; [left; exact Rg|]. intros m'. unfold next_running. replace (rs <? 240) with true by lia.
      apply IH; [reflexivity|]. intros _. split; [reflexivity|exact Rg]. }
    destruct (body_first rs d1 d2) as (rep & rest & E). rewrite E in *. cbn [app good] in *.
    destruct G as [_ G]. split; [left; exact P|]. rewrite d_running by (auto; rewrite Rr; exact Rg). rewrite Rr. exact G.
  - cbn [good]. split; [left; exact P|].
    assert (E : dispatch r 246 = (r, [NRealtime 246], true)).
    { unfold dispatch. rewrite P. cbn. rewrite P. reflexivity. }
    rewrite E. split; [split; reflexivity|]. apply IH; [exact P|]. intros H. congruence.
Qed.

Lemma reader_decodes_l : forall s t, stream 0 s -> weave s t ->
  map (map seen) (snd (read_all r_init (map fst t))) = map snd t.
Proof.
  intros s t S W. apply good_reports. apply (good_weave s t W). apply (stream_good 0 s S); [reflexivity|congruence].
Qed.

Lemma good_calls : forall s r, good r s ->
  map (fun a => (map seen (fst a), snd a)) (read_calls (length s) r (map fst s)) = map (fun e => (snd e, true)) s.
Proof.
  induction s as [|[b rep] s IH]; intros r G; [reflexivity|].
  cbn [good] in G. destruct G as [_ G]. cbn [map fst snd length read_calls read_once].
  destruct (dispatch r b) as [[r' n] ok] eqn:E. destruct G as [[F ->] G]. cbn [map fst snd]. rewrite F, (IH r' G). reflexivity.
Qed.
Lemma reader_calls_l : forall s t, stream 0 s -> weave s t ->
  map (fun a => (map seen (fst a), snd a)) (read_calls (length t) r_init (map fst t)) = map (fun e => (snd e, true)) t.
Proof.
  intros s t S W. apply good_calls. apply (good_weave s t W). apply (stream_good 0 s S); [reflexivity|congruence].
Qed.

(** ** C33 *)
Definition got (pre : list Z) (st : Z) : Prop := exists p q, pre = p ++ st :: q.
Definition inv (pre : list Z) (r : reader) : Prop :=
  (r_run r = 0 \/ (128 <= r_run r < 240 /\ got pre (r_run r))) /\
  match r_parse r with
  | StatusByte | SOX => True
  | DataByte1 => exists st m, has_data st /\ r_msg r = set_status m st /\ got pre st /\
       r_end r = (if data_count st =? 1 then DataByte1 else DataByte2)
  | DataByte2 => exists st m d1, has_data st /\ data_count st = 2 /\ data_byte d1 /\ r_msg r = set_data1 (set_status m st) d1 /\
       r_end r = DataByte2 /\
       exists p q i, pre = p ++ st :: q ++ d1 :: i /\ Forall (fun b => 128 <= b) i
  | _ => False
  end.

Lemma got_snoc : forall pre st b, got pre st -> got (pre ++ [b]) st.
Proof. intros pre st b (p & q & ->). exists p, (q ++ [b]). rewrite <- app_assoc. reflexivity. Qed.
Lemma got_last : forall pre st, got (pre ++ [st]) st.
Proof. intros. exists pre, []. reflexivity. Qed.

Lemma inv_status_wait : forall pre r b, inv pre r -> 128 <= b -> inv (pre ++ [b]) r.
Proof.
  intros pre r b [A B] Hb. split.
  - destruct A as [A|[A1 A2]]; [left; exact A|right; split; [exact A1|apply got_snoc; exact A2]].
  - destruct (r_parse r); auto.
    + destruct B as (st & m & B1 & B2 & B3 & B4). exists st, m. repeat split; auto. apply got_snoc; exact B3.
    + destruct B as (st & m & d1 & B1 & B2 & B3 & B4 & B5 & p & q & i & E & F).
      exists st, m, d1. repeat split; auto; try apply B3. exists p, q, (i ++ [b]). split.
      * rewrite E. rewrite <- app_assoc. cbn. rewrite <- app_assoc. reflexivity.
      * apply Forall_app. split; [exact F|]. constructor; [exact Hb|constructor].
Qed.

Lemma next_run_ok : forall pre st, has_data st -> got pre st ->
  next_running st = 0 \/ (128 <= next_running st < 240 /\ got pre (next_running st)).
Proof.
  intros pre st H G. unfold next_running. destruct (st <? 240) eqn:E; [right|left; reflexivity].
  split; [unfold has_data in H; lia|exact G].
Qed.

Lemma kinds : forall b, 128 <= b < 256 ->
  has_data b \/ realtime b \/ b = 246 \/ b = 240 \/ (msg_length b = 0 /\ (b = 244 \/ b = 245 \/ b = 247 \/ b = 249 \/ b = 253)).
Proof.
  intros b H.
  assert (b < 240 \/ b = 240 \/ b = 241 \/ b = 242 \/ b = 243 \/ b = 244 \/ b = 245 \/ b = 246 \/ b = 247 \/ b = 248 \/ b = 249 \/ b = 250
    \/ b = 251 \/ b = 252 \/ b = 253 \/ b = 254 \/ b = 255) as K by lia.
  unfold has_data, realtime.
  destruct K as [K|K]; [lia|].
  repeat (destruct K as [-> |K]; [cbn; lia|]). subst b. lia.
Qed.

Lemma data_run : forall pre r b, data_byte b -> r_parse r = DataByte1 -> inv pre r ->
  let '(r', n, _) := dispatch r b in inv (pre ++ [b]) r' /\ Forall (comes_from (pre ++ [b])) (map seen n).
Proof.
  intros pre r b Hb P [A B]. rewrite P in B. destruct B as (st & m & B1 & B2 & B3 & B4).
  rewrite d_first by assumption. rewrite B4. destruct (len_data st B1) as [_ [C|C]]; rewrite C; cbn [Z.eqb Pos.eqb].
  - rewrite B2, set1 by assumption. cbv zeta. split.
    + split; [|exact I]. cbn [done r_run]. rewrite run_msg1 by assumption. apply next_run_ok; [exact B1|apply got_snoc; exact B3].
    + cbn [map]. constructor; [|constructor]. rewrite see1 by assumption.
      cbn [comes_from]. rewrite C. cbn [Z.eqb Pos.eqb]. repeat split; auto; try (unfold data_byte in *; lia).
      destruct B3 as (p & q & ->). exists p, q. rewrite <- app_assoc. reflexivity.
  - split; [|constructor]. split.
    + cbn [r_run]. destruct A as [A|[A1 A2]]; [left; exact A|right; split; [exact A1|apply got_snoc; exact A2]].
    + cbn [r_parse r_msg r_end]. exists st, m, b. repeat split; auto; try (unfold data_byte in *; lia); [rewrite B2; reflexivity|].
      destruct B3 as (p & q & ->). exists p, q, []. split; [|constructor]. rewrite <- app_assoc. reflexivity.
Qed.

Lemma dispatch_inv : forall pre r b, 0 <= b < 256 -> inv pre r ->
  let '(r', n, _) := dispatch r b in inv (pre ++ [b]) r' /\ Forall (comes_from (pre ++ [b])) (map seen n).
Proof.
  intros pre r b Hb I0. pose proof I0 as I1. destruct I0 as [A B].
  destruct (Z_lt_dec b 128) as [Hd|Hd].
  - assert (D : data_byte b) by (unfold data_byte; lia).
    destruct (r_parse r) eqn:P; try contradiction.
    + (* waiting for a status byte *)
      destruct A as [A|[A1 A2]].
      * assert (E : dispatch r b = (r, [], false)).
        { unfold dispatch. rewrite P, A, type_data by lia. reflexivity. }
        rewrite E. split; [|constructor]. split; [left; exact A|rewrite P; exact I].
      * rewrite d_running by assumption. apply data_run; [exact D|reflexivity|].
        split; [right; split; [exact A1|exact A2]|]. cbn [after_status r_parse].
        exists (r_run r), (r_msg r). repeat split; auto. left; exact A1.
    + apply data_run; auto.
    + destruct B as (st & m & d1 & B1 & B2 & B3 & B4 & B5 & p & q & i & E & F).
      rewrite d_second by assumption. rewrite B4, set2 by assumption. cbv zeta.
      assert (G : got (pre ++ [b]) st).
      { rewrite E. exists p, ((q ++ d1 :: i) ++ [b]). rewrite <- app_assoc. reflexivity. }
      split.
      * split; [|exact I]. cbn [done r_run]. rewrite run_msg2 by assumption. apply next_run_ok; assumption.
      * cbn [map]. constructor; [|constructor]. rewrite see2 by assumption.
        cbn [comes_from]. rewrite B2. cbn [Z.eqb Pos.eqb]. repeat split; auto; try (unfold data_byte in *; lia).
        exists p, q, i. split; [|exact F]. rewrite E. rewrite <- app_assoc. cbn [app]. rewrite <- app_assoc. reflexivity.
    + assert (E : dispatch r b = (r, [], false)) by (unfold dispatch; rewrite P; reflexivity).
      rewrite E. split; [|constructor]. split; [|rewrite P; exact I].
      destruct A as [A|[A1 A2]]; [left; exact A|right; split; [exact A1|apply got_snoc; exact A2]].
  - (* a status byte *)
    assert (T : 0 < msg_type b) by (apply type_pos; lia).
    assert (W : inv (pre ++ [b]) r) by (apply inv_status_wait; [exact I1|lia]).
    destruct (r_parse r) eqn:P; try contradiction.
    + destruct (kinds b ltac:(lia)) as [K|[K|[K|[K|[K K']]]]].
      * rewrite d_status by assumption. split; [|constructor]. split.
        -- cbn [after_status r_run]. apply W.
        -- cbn [after_status r_parse r_msg r_end]. exists b, (r_msg r). repeat split; auto. apply got_last.
      * rewrite d_rt by (auto; left; exact P). split; [exact W|]. constructor; [|constructor].
        cbn [seen comes_from]. exists pre. split; [reflexivity|left; exact K].
      * subst b. assert (E : dispatch r 246 = (r, [NRealtime 246], true)).
        { unfold dispatch. rewrite P. cbn. rewrite P. reflexivity. }
        rewrite E. split; [exact W|]. constructor; [|constructor]. exists pre. split; [reflexivity|right; reflexivity].
      * subst b. unfold dispatch. rewrite P. cbn. split; [split; [left; reflexivity|exact I]|].
        constructor; [|constructor]. exists pre. reflexivity.
      * assert (E : dispatch r b = (done 0 (r_msg r), [], false)).
        { unfold dispatch. rewrite P. replace (msg_type b =? 0) with false by lia. replace (msg_type b >? 0) with true by lia.
          cbn [andb negb]. unfold process_status. rewrite K. reflexivity. }
        rewrite E. split; [|constructor]. split; [left; reflexivity|exact I].
    + destruct (is_realtime (msg_type b)) eqn:RT.
      * destruct (kinds b ltac:(lia)) as [K|[K|[K|[K|[K K']]]]].
        -- exfalso. destruct (has_data_cases b K) as [(k & Hk & Hr & Ht & Hq)|HH].
           ++ rewrite Ht in RT. unfold is_realtime in RT. lia.
           ++ rewrite type_system in RT by lia. unfold is_realtime in RT. lia.
        -- rewrite d_rt by (auto; right; left; exact P). split; [exact W|]. constructor; [|constructor].
           cbn [seen comes_from]. exists pre. split; [reflexivity|left; exact K].
        -- subst b. discriminate RT.
        -- subst b. discriminate RT.
        -- assert (E : dispatch r b = (done 0 (r_msg r), [], false)).
           { unfold dispatch. rewrite P, RT. replace (msg_type b >? 0) with true by lia.
             unfold process_status. rewrite K. reflexivity. }
           rewrite E. split; [|constructor]. split; [left; reflexivity|exact I].
      * assert (E : dispatch r b = (r, [], false)).
        { unfold dispatch. rewrite P, RT. replace (msg_type b >? 0) with true by lia. reflexivity. }
        rewrite E. split; [exact W|constructor].
    + destruct (is_realtime (msg_type b)) eqn:RT.
      * destruct (kinds b ltac:(lia)) as [K|[K|[K|[K|[K K']]]]].
        -- exfalso. destruct (has_data_cases b K) as [(k & Hk & Hr & Ht & Hq)|HH].
           ++ rewrite Ht in RT. unfold is_realtime in RT. lia.
           ++ rewrite type_system in RT by lia. unfold is_realtime in RT. lia.
        -- rewrite d_rt by (auto; right; right; exact P). split; [exact W|]. constructor; [|constructor].
           cbn [seen comes_from]. exists pre. split; [reflexivity|left; exact K].
        -- subst b. discriminate RT.
        -- subst b. discriminate RT.
        -- assert (E : dispatch r b = (done 0 (r_msg r), [], false)).
           { unfold dispatch. rewrite P, RT. replace (msg_type b >? 0) with true by lia.
             unfold process_status. rewrite K. reflexivity. }
           rewrite E. split; [|constructor]. split; [left; reflexivity|exact I].
      * assert (E : dispatch r b = (r, [], false)).
        { unfold dispatch. rewrite P, RT. replace (msg_type b >? 0) with true by lia. reflexivity. }
        rewrite E. split; [exact W|constructor].
    + assert (E : dispatch r b = (r, [], false)) by (unfold dispatch; rewrite P; reflexivity).
      rewrite E. split; [exact W|constructor].
Qed.

Lemma read_all_inv : forall bytes pre r, Forall (fun b => 0 <= b < 256) bytes -> inv pre r ->
  let (r', ns) := read_all r bytes in
  length ns = length bytes /\ inv (pre ++ bytes) r' /\
  forall n, (n < length bytes)%nat -> Forall (comes_from (pre ++ firstn (S n) bytes)) (map seen (nth n ns [])).
Proof.
  induction bytes as [|b rest IH]; intros pre r F Iv.
  - cbn. rewrite app_nil_r. repeat split; try (exact Iv || apply Iv). intros n H. lia.
  - inversion F; subst. cbn [read_all].
    pose proof (dispatch_inv pre r b H1 Iv) as D. destruct (dispatch r b) as [[r1 n1] s1]. destruct D as [D1 D2].
    specialize (IH (pre ++ [b]) r1 H2 D1). destruct (read_all r1 rest) as [r2 ns]. destruct IH as (L & IH1 & IH2).
    rewrite <- app_assoc in IH1. cbn [app] in IH1.
    split; [cbn; rewrite L; reflexivity|]. split; [exact IH1|].
    intros [|n] Hn.
    + cbn [firstn nth]. exact D2.
    + cbn [nth]. rewrite firstn_cons. cbn [length] in Hn. specialize (IH2 n ltac:(lia)).
      rewrite <- app_assoc in IH2. exact IH2.
Qed.

Lemma init_inv : inv [] r_init.
Proof. split; [left; reflexivity|exact I]. Qed.

Lemma dispatch_quiet : forall r b, (r_run r = 0 \/ 128 <= r_run r < 240) ->
  let '(_, n, ok) := dispatch r b in ok = false -> n = [].
Proof.
  intros r b R. unfold dispatch. cbv zeta.
  assert (PS : forall st, let '(_, n, ok) := process_status r st in ok = false -> n = []).
  { intros st. unfold process_status. repeat match goal with |- context[if ?c then _ else _] => destruct c end; intros; congruence. }
  assert (F : forall (r1 : reader) (n1 : list note) (s1 : bool), (s1 = false -> n1 = []) ->
    let '(_, n, ok) := if s1 && peq (r_parse r1) NotSet then
      (reset_state (mkReader (if is_channel (m_type (r_msg r1)) then u8 (Z.lor (m_type (r_msg r1)) (m_channel (r_msg r1))) else 0) (r_parse r1) (r_end r1) (r_msg r1)),
       if negb (peq (r_end r1) EOX) then n1 ++ [NMessage (r_msg r1)] else n1, s1) else (r1, n1, s1) in ok = false -> n = []).
  { intros r1 n1 s1 H. destruct s1; cbn [andb]; [destruct (peq _ NotSet); intros; discriminate|exact H]. }
  destruct (r_parse r) eqn:P.
  all: try (destruct (msg_type b >? 0);
    [destruct (is_realtime (msg_type b)); [specialize (PS b); destruct (process_status r b) as [[r1 n1] s1]; apply F; exact PS|apply (F r [] false); auto]
    |destruct (process_data r b) as [r1 s1]; apply F; auto]).
  - destruct ((msg_type b =? 0) && negb (r_run r =? 0)) eqn:C.
    + destruct R as [R|R]; [exfalso; rewrite R in C; rewrite andb_false_r in C; discriminate|].
      rewrite (ps_data r (r_run r)) by (left; exact R). cbv iota beta zeta. destruct (process_data _ b) as [r2 s2]. apply F. auto.
    + destruct (msg_type b >? 0); [|apply (F r [] false); auto].
      specialize (PS b). destruct (process_status r b) as [[r1 n1] s1]. apply F. exact PS.
  - apply (F r [] false). auto.
Qed.
Lemma calls_quiet_l : forall k q pre r, Forall (fun b => 0 <= b < 256) q -> inv pre r ->
  Forall (fun a => snd a = false -> fst a = []) (read_calls k r q).
Proof.
  induction k as [|k IH]; intros q pre r F Iv; cbn [read_calls]; [constructor|].
  destruct q as [|b q]; cbn [read_once].
  - constructor; [reflexivity|]. exact (IH [] pre r F Iv).
  - inversion F as [|? ? Hb F']; subst. pose proof (dispatch_inv pre r b Hb Iv) as D.
    assert (R : r_run r = 0 \/ 128 <= r_run r < 240) by (destruct Iv as [[R|[R _]] _]; auto).
    pose proof (dispatch_quiet r b R) as Q. destruct (dispatch r b) as [[r1 n1] s1]. destruct D as [D1 _].
    constructor; [exact Q|]. exact (IH q (pre ++ [b]) r1 F' D1).
Qed.

Lemma calls_idle_l : forall k q r,
  read_calls (length q + k) r q = read_calls (length q) r q ++ repeat ([], false) k.
Proof.
  intros k. induction q as [|b q IH]; intros r.
  - cbn [length Nat.add read_calls app]. revert r. induction k as [|k IH]; intros r; [reflexivity|].
    cbn [read_calls read_once repeat]. rewrite IH. reflexivity.
  - cbn [length Nat.add read_calls read_once]. destruct (dispatch r b) as [[r1 n1] s1]. rewrite IH. reflexivity.
Qed.

Lemma reader_any_l : forall bytes, Forall (fun b => 0 <= b < 256) bytes ->
  let reports := map (map seen) (snd (read_all r_init bytes)) in
  length reports = length bytes /\
  forall n, (n < length bytes)%nat -> Forall (comes_from (firstn (S n) bytes)) (nth n reports []).
Proof.
  intros bytes F reports. pose proof (read_all_inv bytes [] r_init F init_inv) as H. unfold reports.
  destruct (read_all r_init bytes) as [r ns]. destruct H as (L & _ & H). cbn [snd]. split.
  - rewrite map_length. exact L.
  - intros n Hn. change [] with (map seen []). rewrite map_nth. apply (H n Hn).
Qed.

Lemma read_all_app : forall a b r,
  read_all r (a ++ b) = let (r1, n1) := read_all r a in let (r2, n2) := read_all r1 b in (r2, n1 ++ n2).
Proof.
  induction a as [|x a IH]; intros b r.
  - cbn. destruct (read_all r b). reflexivity.
  - cbn [app read_all]. destruct (dispatch r x) as [[r1 n1] s1]. rewrite IH. destruct (read_all r1 a) as [r2 n2].
    destruct (read_all r2 b). reflexivity.
Qed.

Lemma sox_silent : forall rest r, r_parse r = SOX ->
  read_all r rest = (r, repeat [] (length rest)).
Proof.
  induction rest as [|b rest IH]; intros r P; [reflexivity|].
  cbn [read_all]. assert (E : dispatch r b = (r, [], false)) by (unfold dispatch; rewrite P; reflexivity).
  rewrite E, IH by exact P. reflexivity.
Qed.

Lemma sysex_state : forall pre r b, 0 <= b < 256 -> inv pre r ->
  let '(r', n, _) := dispatch r b in In NSysEx n -> r_parse r' = SOX.
Proof.
  intros pre r b Hb [A B].
  unfold dispatch. destruct (r_parse r) eqn:P; try contradiction.
  - destruct ((msg_type b =? 0) && negb (r_run r =? 0)) eqn:C.
    + destruct A as [A|[A1 A2]]; [rewrite A in C; lia|].
      rewrite ps_data by (left; exact A1). unfold process_data. cbn [after_status r_parse r_end].
      destruct (data_count (r_run r) =? 1); cbn [peq negb r_end r_parse andb]; cbn; intros [K|[]] || intros []; discriminate K.
    + destruct (msg_type b >? 0); [|cbn; intros []].
      unfold process_status.
      destruct (msg_length b =? 1); [cbn; rewrite P; cbn; intros [K|[]]; discriminate K|].
      destruct (msg_length b =? 2); [cbn; intros []|].
      destruct (msg_length b =? 3); [cbn; intros []|].
      destruct (msg_length b =? -1); [cbn; reflexivity|]. cbn. intros [].
  - destruct (msg_type b >? 0).
    + destruct (is_realtime (msg_type b)) eqn:RT; [|cbn; intros []].
      unfold process_status.
      destruct (msg_length b =? 1); [cbn; rewrite P; cbn; intros [K|[]]; discriminate K|].
      destruct (msg_length b =? 2); [cbn; intros []|].
      destruct (msg_length b =? 3); [cbn; intros []|].
      destruct (msg_length b =? -1); [cbn; reflexivity|]. cbn. intros [].
    + unfold process_data. rewrite P. destruct B as (st & m & B1 & B2 & B3 & B4). rewrite B4.
      destruct (data_count st =? 1); cbn; intros [K|[]] || intros []; discriminate K.
  - destruct (msg_type b >? 0).
    + destruct (is_realtime (msg_type b)) eqn:RT; [|cbn; intros []].
      unfold process_status.
      destruct (msg_length b =? 1); [cbn; rewrite P; cbn; intros [K|[]]; discriminate K|].
      destruct (msg_length b =? 2); [cbn; intros []|].
      destruct (msg_length b =? 3); [cbn; intros []|].
      destruct (msg_length b =? -1); [cbn; reflexivity|]. cbn. intros [].
    + unfold process_data. rewrite P. destruct B as (st & m & d1 & B1 & B2 & B3 & B4 & B5 & _). cbn. rewrite B5. cbn.
      intros [K|[]]; discriminate K.
  - cbn. intros [].
Qed.

Lemma reader_sysex_l : forall pre b rest, Forall (fun b => 0 <= b < 256) (pre ++ [b]) ->
  let reports l := map (map seen) (snd (read_all r_init l)) in
  last (reports (pre ++ [b])) [] = [RSysEx] ->
  reports (pre ++ b :: rest) = reports (pre ++ [b]) ++ repeat [] (length rest).
Proof.
  intros pre b rest F reports H.
  apply Forall_app in F. destruct F as [F1 F2]. inversion F2; subst.
  change (pre ++ b :: rest) with (pre ++ ([b] ++ rest)). rewrite app_assoc. unfold reports in *.
  rewrite read_all_app.
  assert (P : r_parse (fst (read_all r_init (pre ++ [b]))) = SOX).
  { rewrite read_all_app in H |- *. pose proof (read_all_inv pre [] r_init F1 init_inv) as Iv.
    destruct (read_all r_init pre) as [r1 n1]. destruct Iv as (_ & Iv & _). cbn [read_all] in H |- *.
    pose proof (sysex_state _ _ b H2 Iv) as S. destruct (dispatch r1 b) as [[r2 n2] s2]. cbn [fst snd] in *.
    apply S. rewrite map_app in H. cbn [map] in H. rewrite last_last in H.
    cbn [map] in H. destruct n2 as [|[m|x|] [|]]; try discriminate H. left. reflexivity. }
  destruct (read_all r_init (pre ++ [b])) as [r ns]. cbn [fst snd] in *.
  rewrite sox_silent by exact P. cbn [snd]. rewrite map_app. f_equal.
  clear. induction (length rest); cbn; congruence.
Qed.

(** A status byte that interrupts a message is dropped, and the reader stays out of step. *)
Lemma out_of_step_l : forall st x ms r, 128 <= st < 240 -> data_count st = 2 -> data_byte x ->
  Forall (fun d => data_byte (fst d) /\ data_byte (snd d)) ms ->
  r_parse r = DataByte2 -> r_end r = DataByte2 -> (exists m, r_msg r = set_data1 (set_status m st) x) ->
  map seen (concat (snd (read_all r (flat_map (fun d => [st; fst d; snd d]) ms)))) =
  map (fun p => RMsg st (fst p) (snd p)) (combine (x :: map snd ms) (map fst ms)).
Proof.
  intros st x ms. revert x. induction ms as [|[d1 d2] ms IH]; intros x r Hs Hc Hx F P E (m & M); [reflexivity|].
  inversion F as [|a b [Fa Fb] Fr]; subst. cbn [fst snd] in Fa, Fb.
  assert (Hd : has_data st) by (left; exact Hs).
  cbn [flat_map app fst snd]. cbn [read_all].
  assert (D0 : dispatch r st = (r, [], false)).
  { unfold dispatch. rewrite P. destruct (type_channel st Hs) as (T & _).
    replace (msg_type st >? 0) with true by lia. replace (is_realtime (msg_type st)) with false by (unfold is_realtime; lia).
    reflexivity. }
  rewrite D0. rewrite d_second by assumption. cbv zeta. rewrite M, set2 by assumption.
  rewrite run_msg2 by assumption. unfold next_running. replace (st <? 240) with true by lia.
  rewrite d_running by (auto; reflexivity || exact Hs). cbn [done r_run].
  rewrite d_first by (auto; reflexivity). unfold after_status at 1. rewrite Hc. cbn [Z.eqb Pos.eqb r_end].
  match goal with |- context [read_all ?rr _] => 
    specialize (IH d2 rr Hs Hc Fb Fr eq_refl) end.
  cbn [r_end after_status] in IH. rewrite Hc in IH. specialize (IH eq_refl).
  cbn [r_msg] in IH. specialize (IH (ex_intro _ _ eq_refl)).
  cbn [map combine fst snd].
  cbn [r_end r_run r_msg after_status] in *. rewrite Hc. cbn [Z.eqb Pos.eqb] in *.
  destruct (read_all _ _) as [r2 ns]. cbn [snd concat app map] in *. rewrite see2 by assumption. f_equal. exact IH.
Qed.

(** ** C34 *)
Lemma weave_prefix : forall a s t, weave s t -> weave (a ++ s) (a ++ t).
Proof. induction a as [|x a IH]; intros s t W; [exact W|]. cbn. apply w_keep. apply IH. exact W. Qed.

Lemma lor16 : forall k c, 8 <= k <= 14 -> 0 <= c < 16 -> Z.lor (16 * k) c = 16 * k + c.
Proof.
  intros k c Hk Hc. destruct (type_channel (16 * k + c)) as (_ & _ & E); [lia|].
  replace ((16 * k + c) / 16) with k in E by lia. replace ((16 * k + c) mod 16) with c in E by lia. exact E.
Qed.

Lemma valid_facts : forall m, msg_valid m ->
  let st := get_status m in
  has_data st /\ msg_length (m_type m) = 1 + data_count st /\ data_byte (get_data1 m) /\ data_byte (get_data2 m) /\
  (data_count st = 1 -> get_data2 m = 0) /\ is_channel (m_type m) = (st <? 240) /\
  (is_channel (m_type m) = false -> is_system_common (m_type m) = true) /\ m_type m < 246.
Proof.
  intros m V st.
  destruct V as [(k & Hk & Ht & H0 & H1 & H2 & H3)|(Ht & H0 & H1 & H2)].
  - assert (Es : st = 16 * k + m_b0 m).
    { unfold st, get_status. rewrite Ht. replace (is_system (16 * k)) with false by (unfold is_system; lia).
      unfold m_channel. rewrite lor16 by lia. apply u8_small. lia. }
    assert (Hd : has_data st) by (left; lia).
    assert (Hq : st / 16 = k) by lia.
    rewrite (data_count_channel st k) by lia.
    split; [exact Hd|]. split.
    { assert (Hk16 : has_data (16 * k)) by (left; lia). destruct (len_data (16 * k) Hk16) as [L _]. rewrite Ht, L.
      rewrite (data_count_channel (16 * k) k) by lia. reflexivity. }
    split.
    { unfold get_data1, data_byte. rewrite Ht.
      assert (k = 8 \/ k = 9 \/ k = 10 \/ k = 11 \/ k = 12 \/ k = 13 \/ k = 14) as K by lia.
      destruct K as [K|[K|[K|[K|[K|[K|K]]]]]]; rewrite K in *; cbn [Z.mul Pos.mul Z.eqb Pos.eqb orb]; try apply land127_range. lia. }
    split; [unfold get_data2, data_byte; repeat (destruct (_ : bool); [apply land127_range|]); lia|].
    split.
    { intros C. unfold get_data2. rewrite Ht. destruct ((k =? 12) || (k =? 13)) eqn:K; [|discriminate C].
      assert (k = 12 \/ k = 13) as K' by lia. destruct K' as [-> | ->]; reflexivity. }
    rewrite Ht. split; [unfold is_channel; lia|]. split; [unfold is_channel; lia|lia].
  - assert (Es : st = m_type m).
    { unfold st, get_status. replace (is_system (m_type m)) with true by (unfold is_system; lia). apply u8_small. lia. }
    assert (Hd : has_data st) by (right; lia).
    split; [exact Hd|]. split; [rewrite <- Es; apply len_data; exact Hd|].
    assert (K : m_type m = 241 \/ m_type m = 242 \/ m_type m = 243) by lia.
    split.
    { unfold get_data1, data_byte. destruct K as [->|[->| ->]]; cbn [Z.eqb Pos.eqb orb]; apply land127_range. }
    split; [unfold get_data2, data_byte; repeat (destruct (_ : bool); [apply land127_range|]); lia|].
    rewrite Es. split; [|split; [|split]].
    + unfold get_data2. destruct K as [->|[->| ->]]; cbn; intros C; try reflexivity. discriminate C.
    + unfold is_channel. lia.
    + unfold is_system_common. lia.
    + lia.
Qed.

Lemma rt_type : forall m, realtime (m_type m) -> 
  get_status m = m_type m /\ is_channel (m_type m) = false /\ is_system_common (m_type m) = false /\ msg_length (m_type m) = 1 /\ 246 <=? m_type m = true.
Proof.
  intros m H. unfold get_status. destruct H as [->|[->|[->|[->|[->| ->]]]]]; repeat split; reflexivity.
Qed.

Lemma writer_stream : forall ops run, Forall w_valid ops -> (run = 0 \/ 128 <= run < 240) ->
  exists s t, map fst t = write_all run ops /\ stream run s /\ weave s t /\ concat (map snd t) = map w_seen ops.
Proof.
  induction ops as [|o ops IH]; intros run V R.
  - exists [], []. repeat split; constructor.
  - inversion V as [|x y Vo Vr]; subst. destruct o as [m|b].
    + cbn [write_all]. destruct Vo as [Vm|[Vt|Vt]].
      * destruct (valid_facts m Vm) as (Hd & HL & H1 & H2 & H0 & Hc & Hsc & H6).
        set (st := get_status m) in *.
        destruct (IH (next_running st) Vr) as (s & t & I1 & I2 & I3 & I4).
        { unfold next_running, has_data in *. destruct (st <? 240) eqn:?; lia. }
        assert (Hw : write_msg run m = (next_running st, (if run =? st then [] else [st]) ++ map fst (body st (get_data1 m) (get_data2 m)))).
        { unfold write_msg. fold st. rewrite HL. unfold next_running, body.
          destruct (is_channel (m_type m)) eqn:C.
          - rewrite <- Hc. destruct (run =? st) eqn:E; cbn [negb].
            + f_equal; [lia|]. destruct (len_data st Hd) as [_ [D|D]]; rewrite D; reflexivity.
            + f_equal. destruct (len_data st Hd) as [_ [D|D]]; rewrite D; reflexivity.
          - rewrite <- Hc, (Hsc eq_refl). f_equal. replace (run =? st) with false.
            + destruct (len_data st Hd) as [_ [D|D]]; rewrite D; reflexivity.
            + unfold has_data in Hd. symmetry in Hc. lia. }
        rewrite Hw. 
        assert (Hb : concat (map snd (body st (get_data1 m) (get_data2 m))) = [w_seen (WMessage m)]).
        { cbn [w_seen]. replace (246 <=? m_type m) with false by lia. fold st. unfold body.
          destruct (len_data st Hd) as [_ [D|D]]; rewrite D; cbn; [rewrite (H0 D)|]; reflexivity. }
        destruct (run =? st) eqn:E.
        -- exists (body st (get_data1 m) (get_data2 m) ++ s), (body st (get_data1 m) (get_data2 m) ++ t).
           assert (run = st) by lia. subst run.
           split; [rewrite map_app, I1; reflexivity|]. split; [|split; [apply weave_prefix; exact I3|]].
           ++ assert (H240 : st < 240) by lia.
              unfold next_running in I2. replace (st <? 240) with true in I2 by lia. apply st_running; auto. unfold has_data in Hd. lia.
           ++ rewrite map_app, concat_app, Hb, I4. reflexivity.
        -- exists ((st, []) :: body st (get_data1 m) (get_data2 m) ++ s), ((st, []) :: body st (get_data1 m) (get_data2 m) ++ t).
           split; [cbn [map fst app]; rewrite map_app, I1; reflexivity|].
           split; [apply st_full; auto|]. split; [apply w_keep; apply weave_prefix; exact I3|].
           cbn [map snd concat app]. rewrite map_app, concat_app, Hb, I4. reflexivity.
      * destruct (IH 0 Vr (or_introl eq_refl)) as (s & t & I1 & I2 & I3 & I4).
        assert (Hw : write_msg run m = (0, [246])).
        { unfold write_msg, get_status. rewrite Vt. reflexivity. }
        rewrite Hw. exists ((246, [ROne 246]) :: s), ((246, [ROne 246]) :: t).
        split; [cbn; rewrite I1; reflexivity|]. split; [apply st_tune; exact I2|]. split; [apply w_keep; exact I3|].
        cbn [map snd concat app w_seen]. rewrite I4, Vt. reflexivity.
      * destruct (rt_type m Vt) as (A1 & A2 & A3 & A4 & A5).
        destruct (IH run Vr R) as (s & t & I1 & I2 & I3 & I4).
        assert (Hw : write_msg run m = (run, [m_type m])).
        { unfold write_msg. rewrite A1, A2, A3, A4. reflexivity. }
        rewrite Hw. exists s, ((m_type m, [ROne (m_type m)]) :: t).
        split; [cbn; rewrite I1; reflexivity|]. split; [exact I2|]. split; [apply w_rt; assumption|].
        cbn [map snd concat app w_seen]. rewrite I4, A5. reflexivity.
    + destruct (IH run Vr R) as (s & t & I1 & I2 & I3 & I4). cbn [w_valid] in Vo. cbn [write_all].
      exists s, ((b, [ROne b]) :: t).
      split; [cbn; rewrite I1; unfold write_type; rewrite u8_small; [reflexivity|unfold realtime in Vo; lia]|].
      split; [exact I2|]. split; [apply w_rt; assumption|]. cbn. rewrite I4. reflexivity.
Qed.

Lemma writer_legal_l : forall ops, Forall w_valid ops ->
  exists s t, stream 0 s /\ weave s t /\ map fst t = write_all 0 ops /\ concat (map snd t) = map w_seen ops.
Proof.
  intros ops V. destruct (writer_stream ops 0 V (or_introl eq_refl)) as (s & t & A & B & C & D).
  exists s, t. auto.
Qed.
Lemma map_concat_seen : forall l, map seen (concat l) = concat (map (map seen) l).
Proof. intros l. apply concat_map. Qed.
Lemma writer_reader_l : forall ops, Forall w_valid ops ->
  map seen (concat (snd (read_all r_init (write_all 0 ops)))) = map w_seen ops.
Proof.
  intros ops V. destruct (writer_stream ops 0 V (or_introl eq_refl)) as (s & t & A & B & C & D).
  rewrite <- A, map_concat_seen, (reader_decodes_l s t B C). exact D.
Qed.
