Require Import ZArith List Bool Lia ZifyBool.
Import ListNotations.
From Verif Require Import Base BaseFacts UrmModel UrmSpec.
Open Scope Z_scope.

Lemma checksum_l : forall c d1 d2, byte c -> byte d1 -> byte d2 -> checksum c d1 d2 = (c + d1 + d2) mod 256.
Proof.
  unfold byte. intros c d1 d2 H H1 H2. unfold checksum. rewrite (u16_small c) by lia. rewrite (u16_small (c + d1)) by lia.
  rewrite u16_small by lia. reflexivity.
Qed.

Lemma receive_frame : forall c d1 d2 s rest, byte c -> byte d1 -> byte d2 ->
  receive (c :: d1 :: d2 :: s :: rest) = (rest, fst (frame_result (c, d1, d2, s)), Some (c, d1, d2)).
Proof.
  intros c d1 d2 s rest H H1 H2. cbn [receive frame_result fst]. rewrite checksum_l by assumption.
  rewrite Z.eqb_sym. reflexivity.
Qed.

Lemma send_receive_l : forall c d1 d2 rest, byte c -> byte d1 -> byte d2 ->
  receive (send_command c d1 d2 ++ rest) = (rest, RSuccess, Some (c, d1, d2)).
Proof.
  intros c d1 d2 rest H H1 H2. unfold send_command. cbn [app]. rewrite receive_frame by assumption.
  cbn [frame_result fst]. rewrite checksum_l by assumption. rewrite Z.eqb_refl. reflexivity.
Qed.

Lemma corrupt_l : forall c d1 d2 s c' d1' d2' s' rest,
  byte c -> byte d1 -> byte d2 -> byte s -> byte c' -> byte d1' -> byte d2' -> byte s' ->
  good_frame c d1 d2 s -> one_byte_off (c, d1, d2, s) (c', d1', d2', s') ->
  receive (c' :: d1' :: d2' :: s' :: rest) = (rest, RChecksum, Some (c', d1', d2')).
Proof.
  intros c d1 d2 s c' d1' d2' s' rest B1 B2 B3 B4 B1' B2' B3' B4' G O.
  rewrite receive_frame by assumption. cbn [frame_result fst]. unfold good_frame, one_byte_off, byte in *.
  replace (s' =? (c' + d1' + d2') mod 256) with false; [reflexivity|].
  symmetry. apply Z.eqb_neq. lia.
Qed.

Lemma receive_short : forall q, (length q < 4)%nat ->
  receive q = (q, match q with [] => RNone | _ => RPending end, None).
Proof. intros [|a [|b [|c [|d q]]]] H; cbn in *; try reflexivity. lia. Qed.

Lemma list4 : forall (q : list Z), (length q < 4)%nat \/ exists c d1 d2 s rest, q = c :: d1 :: d2 :: s :: rest.
Proof. intros [|a [|b [|c [|d q]]]]; cbn; try (left; lia). right. eauto 6. Qed.

Lemma frames_short : forall q, (length q < 4)%nat -> frames q = [].
Proof. intros [|a [|b [|c [|d q]]]] H; cbn in *; try reflexivity. lia. Qed.

(** Polling reports the frames of everything that arrived, in order, except those still waiting. *)
Lemma poll_l : forall arrivals q q' out, Forall byte q -> Forall (Forall byte) arrivals ->
  poll q arrivals = (q', out) ->
  map frame_result (frames (q ++ concat arrivals)) = filter answered out ++ map frame_result (frames q').
Proof.
  induction arrivals as [|a rest IH]; intros q q' out Bq Ba H.
  - injection H as <- <-. cbn. rewrite app_nil_r. reflexivity.
  - cbn [poll] in H. inversion Ba; subst.
    assert (Bqa : Forall byte (q ++ a)) by (apply Forall_app; auto).
    cbn [concat]. rewrite app_assoc. set (w := q ++ a) in *.
    destruct (list4 w) as [S|(c & d1 & d2 & s & r & E)].
    + rewrite receive_short in H by exact S.
      destruct (poll w rest) as [q2 out2] eqn:P. injection H as <- <-.
      rewrite (IH w q2 out2 Bqa H3 P). cbn [filter]. destruct w; reflexivity.
    + rewrite E in *. inversion Bqa as [|? ? X1 Y1]; subst. inversion Y1 as [|? ? X2 Y2]; subst.
      inversion Y2 as [|? ? X3 Y3]; subst. inversion Y3 as [|? ? X4 Y4]; subst.
      rewrite receive_frame in H by assumption.
      destruct (poll r rest) as [q2 out2] eqn:P. injection H as <- <-.
      cbn [app frames map]. rewrite (IH r q2 out2 Y4 H3 P). cbn [filter].
      unfold answered at 2. cbn [fst frame_result]. destruct (s =? _); reflexivity.
Qed.

(** What is left is less than a frame, once the polls keep up. *)
Lemma poll_drains : forall arrivals q q' out, poll q arrivals = (q', out) ->
  Forall (fun a => (length a <= 4)%nat) arrivals -> (length q < 4)%nat -> (length q' < 4)%nat.
Proof.
  induction arrivals as [|a rest IH]; intros q q' out H F L.
  - injection H as <- <-. exact L.
  - cbn [poll] in H. inversion F; subst. set (w := q ++ a) in *.
    assert (Lw : (length w < 8)%nat) by (unfold w; rewrite app_length; lia).
    destruct (list4 w) as [S|(c & d1 & d2 & s & r & E)].
    + rewrite receive_short in H by exact S. destruct (poll w rest) as [q2 out2] eqn:P. injection H as <- <-.
      eapply IH; eauto.
    + rewrite E in *. cbn [receive] in H. destruct (poll r rest) as [q2 out2] eqn:P. injection H as <- <-.
      eapply IH; eauto. cbn in Lw. lia.
Qed.

Lemma poll_keeps_up : forall arrivals q' out, Forall (Forall byte) arrivals -> Forall (fun a => (length a <= 4)%nat) arrivals ->
  poll [] arrivals = (q', out) -> filter answered out = map frame_result (frames (concat arrivals)).
Proof.
  intros arrivals q' out B F H. pose proof (poll_l arrivals [] q' out (Forall_nil _) B H) as E. cbn [app] in E.
  rewrite (frames_short q') in E. { rewrite E, app_nil_r. reflexivity. }
  eapply poll_drains; eauto; cbn; lia.
Qed.

(** ** Decoding *)
Lemma lor_bytes : forall a b, 0 <= a -> 0 <= b < 256 -> Z.lor (Z.shiftl a 8) b = 256 * a + b.
Proof.
  intros a b Ha Hb. rewrite Z.shiftl_mul_pow2 by lia. change (2 ^ 8) with 256.
  assert (Hd : Z.land (a * 256) b = 0).
  { apply Z.bits_inj'. intros j Hj. rewrite Z.land_spec, Z.bits_0.
    change (a * 256) with (a * 2 ^ 8). rewrite Z.mul_pow2_bits by lia.
    destruct (Z_lt_dec j 8).
    - rewrite (Z.testbit_neg_r a) by lia. reflexivity.
    - replace (Z.testbit b j) with false; [apply andb_false_r|]. symmetry.
      destruct (Z.eq_dec b 0) as [->|]; [apply Z.bits_0|].
      apply Z.bits_above_log2; [lia|]. assert (Z.log2 b < 8) by (apply Z.log2_lt_pow2; cbn; lia). lia. }
  rewrite <- Z.lxor_lor by exact Hd. rewrite <- Z.add_nocarry_lxor by exact Hd. lia.
Qed.

Lemma end_distance_l : forall c d1 d2 s rest, byte c -> byte d1 -> byte d2 -> byte s ->
  end_distance (c :: d1 :: d2 :: s :: rest) =
    if s =? (c + d1 + d2) mod 256
    then if (c =? 34) && negb (d1 =? 255) && negb (d2 =? 255) then (rest, RSuccess, Some (256 * d1 + d2)) else (rest, RNone, None)
    else (rest, RChecksum, None).
Proof.
  intros c d1 d2 s rest B1 B2 B3 B4. unfold end_distance. rewrite receive_frame by assumption. cbn [frame_result fst].
  unfold byte in *. destruct (s =? (c + d1 + d2) mod 256); [|reflexivity].
  rewrite lor_bytes by lia. rewrite u16_small by lia. reflexivity.
Qed.
Lemma end_distance_short : forall q, (length q < 4)%nat ->
  end_distance q = (q, match q with [] => RNone | _ => RPending end, None).
Proof. intros q H. unfold end_distance. rewrite receive_short by exact H. destruct q; reflexivity. Qed.

Lemma nibbles : forall d, 0 <= d < 256 -> Z.land d 15 = d mod 16 /\ (Z.land d 240 =? 0) = (d <? 16).
Proof.
  intros d H. split.
  - change 15 with (Z.ones 4). rewrite Z.land_ones by lia. reflexivity.
  - assert (E : Z.land d 240 = 16 * (d / 16)).
    { assert (D : Z.land d 240 = Z.ldiff d (Z.ones 4)).
      { apply Z.bits_inj'. intros j Hj. rewrite Z.land_spec, Z.ldiff_spec.
        destruct (Z_lt_dec j 8).
        - assert (j = 0 \/ j = 1 \/ j = 2 \/ j = 3 \/ j = 4 \/ j = 5 \/ j = 6 \/ j = 7) as K by lia.
          destruct K as [->|[->|[->|[->|[->|[->|[->| ->]]]]]]]; reflexivity.
        - replace (Z.testbit d j) with false; [reflexivity|]. symmetry.
          destruct (Z.eq_dec d 0) as [->|]; [apply Z.bits_0|].
          apply Z.bits_above_log2; [lia|]. assert (Z.log2 d < 8) by (apply Z.log2_lt_pow2; cbn; lia). lia. }
      rewrite D. rewrite Z.ldiff_ones_r by lia. rewrite Z.shiftl_mul_pow2, Z.shiftr_div_pow2 by lia. change (2 ^ 4) with 16. lia. }
    rewrite E. lia.
Qed.

Lemma end_temperature_l : forall c d1 d2 s rest, byte c -> byte d1 -> byte d2 -> byte s ->
  end_temperature (c :: d1 :: d2 :: s :: rest) =
    if s =? (c + d1 + d2) mod 256
    then if c =? 17 then (rest, RSuccess, Some ((if d1 <? 16 then 1 else -1) * (256 * (d1 mod 16) + d2))) else (rest, RNone, None)
    else (rest, RChecksum, None).
Proof.
  intros c d1 d2 s rest B1 B2 B3 B4. unfold end_temperature. rewrite receive_frame by assumption. cbn [frame_result fst].
  unfold byte in *. destruct (s =? (c + d1 + d2) mod 256); [|reflexivity].
  destruct (c =? 17); [|reflexivity].
  destruct (nibbles d1 B2) as [N1 N2]. rewrite N1, N2. rewrite lor_bytes by lia.
  destruct (d1 <? 16); cbn [negb]; do 2 f_equal; lia.
Qed.

Lemma degrees_l : forall deg, 0 <= deg <= 270 ->
  exists k, begin_distance_deg deg = [34; k; 0; 34 + k] /\ 0 <= k <= 46 /\ 270 * k <= 46 * deg < 270 * (k + 1).
Proof.
  intros deg H. exists (deg * 46 / 270). unfold begin_distance_deg, map_long, send_command.
  rewrite Z.sub_0_r, Z.add_0_r. change (46 - 0) with 46. change (270 - 0) with 270.
  rewrite Z.quot_div_nonneg by lia.
  assert (K : 0 <= deg * 46 / 270 <= 46) by (split; [apply Z.div_pos; lia|apply Z.div_le_upper_bound; lia]).
  rewrite u8_small by lia. split.
  - rewrite checksum_l by (unfold byte; lia). rewrite Z.mod_small by lia. rewrite Z.add_0_r. reflexivity.
  - split; [lia|]. pose proof (Z.div_mod (deg * 46) 270 ltac:(lia)). pose proof (Z.mod_pos_bound (deg * 46) 270 ltac:(lia)). lia.
Qed.

(** ** EEPROM *)
Lemma eeprom_l : forall arrivals q d1 d2 q' rest b, Forall byte q -> Forall (Forall byte) arrivals ->
  eeprom_wait q arrivals d1 d2 = Some (q', rest, b) ->
  exists used, arrivals = used ++ rest /\ Forall byte q' /\
  exists bad c e1 e2 s, frames (q ++ concat used) = bad ++ (c, e1, e2, s) :: frames q' /\
    first_good (frames (q ++ concat used)) = Some (c, e1, e2) /\ first_good bad = None /\
    (b = true <-> c = 68 /\ e1 = d1 /\ e2 = d2).
Proof.
  induction arrivals as [|a rest0 IH]; intros q d1 d2 q' rest b Bq Ba H; [discriminate|].
  cbn [eeprom_wait] in H. inversion Ba; subst.
  assert (Bqa : Forall byte (q ++ a)) by (apply Forall_app; auto).
  set (w := q ++ a) in *.
  destruct (list4 w) as [S|(c & e1 & e2 & s & r & E)].
  - rewrite receive_short in H by exact S.
    assert (H' : eeprom_wait w rest0 d1 d2 = Some (q', rest, b)) by (destruct w; exact H).
    destruct (IH w d1 d2 q' rest b Bqa H3 H') as (used & U & Bq' & K).
    exists (a :: used). split; [rewrite U; reflexivity|]. split; [exact Bq'|]. cbn [concat]. rewrite app_assoc. exact K.
  - rewrite E in *. inversion Bqa as [|? ? X1 Y1]; subst. inversion Y1 as [|? ? X2 Y2]; subst.
    inversion Y2 as [|? ? X3 Y3]; subst. inversion Y3 as [|? ? X4 Y4]; subst.
    rewrite receive_frame in H by assumption. cbn [frame_result fst] in H.
    destruct (s =? (c + e1 + e2) mod 256) eqn:G.
    + injection H as <- <- <-. exists [a]. split; [reflexivity|]. split; [exact Y4|].
      cbn [concat]. rewrite app_nil_r. fold w. rewrite E.
      exists [], c, e1, e2, s. cbn [frames app first_good]. rewrite G. repeat split; try reflexivity; lia.
    + destruct (IH r d1 d2 q' rest b Y4 H3 H) as (used & U & Bq' & bad & c' & e1' & e2' & s' & K1 & K2 & K3 & K4).
      exists (a :: used). split; [rewrite U; reflexivity|]. split; [exact Bq'|]. cbn [concat]. rewrite app_assoc. fold w. rewrite E.
      exists ((c, e1, e2, s) :: bad), c', e1', e2', s'. cbn [app frames]. rewrite K1. cbn [app first_good]. rewrite G.
      split; [reflexivity|]. split; [rewrite K1 in K2; exact K2|]. split; [exact K3|exact K4].
Qed.

Lemma eeprom_spins : forall arrivals q d1 d2, Forall byte q -> Forall (Forall byte) arrivals ->
  first_good (frames (q ++ concat arrivals)) = None -> eeprom_wait q arrivals d1 d2 = None.
Proof.
  induction arrivals as [|a rest IH]; intros q d1 d2 Bq Ba H; [reflexivity|].
  cbn [eeprom_wait]. inversion Ba; subst.
  assert (Bqa : Forall byte (q ++ a)) by (apply Forall_app; auto).
  cbn [concat] in H. rewrite app_assoc in H. set (w := q ++ a) in *.
  destruct (list4 w) as [S|(c & e1 & e2 & s & r & E)].
  - rewrite receive_short by exact S. assert (H' : eeprom_wait w rest d1 d2 = None) by (apply IH; assumption).
    destruct w; exact H'.
  - rewrite E in *. inversion Bqa as [|? ? X1 Y1]; subst. inversion Y1 as [|? ? X2 Y2]; subst.
    inversion Y2 as [|? ? X3 Y3]; subst. inversion Y3 as [|? ? X4 Y4]; subst.
    rewrite receive_frame by assumption. cbn [frame_result fst]. cbn [app frames first_good] in H.
    destruct (s =? (c + e1 + e2) mod 256); [discriminate|]. apply IH; assumption.
Qed.

Lemma u8_hi : forall t, 0 <= t < 65536 -> u8 (Z.shiftr t 8) = t / 256.
Proof. intros t H. rewrite Z.shiftr_div_pow2 by lia. change (2 ^ 8) with 256. apply u8_small. lia. Qed.

Lemma autonomous_l : forall q arrivals t out, 0 <= t < 65536 ->
  set_autonomous q arrivals t = (out, Some true) ->
  out = [68; 2; 170; 240] ++ [68; 0; t mod 256; (68 + t mod 256) mod 256] ++ [68; 1; t / 256; (69 + t / 256) mod 256].
Proof.
  intros q arrivals t out Ht H. unfold set_autonomous, write_eeprom in H.
  destruct (eeprom_wait q arrivals 2 170) as [[[q1 a1] [|]]|]; try discriminate H.
  destruct (eeprom_wait q1 a1 0 (u8 t)) as [[[q2 a2] [|]]|]; try discriminate H.
  injection H as <- _. rewrite u8_hi by lia. unfold send_command.
  rewrite !checksum_l by (unfold byte, u8; lia). unfold u8.
  cbn [app]. repeat f_equal; lia.
Qed.

(** ** Framing is never recovered *)
Definition shifted (d : Z * Z) (rest : list Z) : list Z :=
  fst d :: snd d :: (34 + fst d + snd d) mod 256 :: rest.
Lemma no_resync_l : forall rs n d, Forall reading (d :: rs) ->
  Forall (fun r => snd r = None) (poll_distance n (shifted d (flat_map reply rs))).
Proof.
  induction rs as [|e rs IH]; intros n d F.
  - assert (E : end_distance (shifted d []) = (shifted d [], RPending, None)).
    { rewrite end_distance_short; [reflexivity|]. cbn. lia. }
    cbn [flat_map]. induction n as [|n IHn]; [constructor|]. cbn [poll_distance]. rewrite E. constructor; [reflexivity|exact IHn].
  - destruct n as [|n]; [constructor|].
    inversion F as [|? ? [R1 R2] F']; subst. cbn [poll_distance flat_map reply app].
    unfold shifted. rewrite end_distance_l by (unfold byte in *; try lia; apply Z.mod_pos_bound; lia).
    replace (fst d =? 34) with false by lia. cbn [andb].
    destruct (_ =? _); constructor; try reflexivity; apply (IH n e F').
Qed.
Lemma reply_received : forall d rest, reading d -> snd d <> 255 ->
  end_distance (reply d ++ rest) = (rest, RSuccess, Some (256 * fst d + snd d)).
Proof.
  intros d rest [R1 R2] N. cbn [reply app]. rewrite end_distance_l by (unfold byte in *; try lia; apply Z.mod_pos_bound; lia).
  rewrite Z.eqb_refl. replace (fst d =? 255) with false by lia. replace (snd d =? 255) with false by lia. reflexivity.
Qed.

(** ** Measurements *)
Lemma measure_distance_l : forall temp d deg, reading d -> snd d <> 255 -> 0 <= deg <= 270 ->
  end_distance (sensor temp d begin_distance) = ([], RSuccess, Some (256 * fst d + snd d)) /\
  end_distance (sensor temp d (begin_distance_deg deg)) = ([], RSuccess, Some (256 * fst d + snd d)).
Proof.
  intros temp d deg Hd N Hg. pose proof (reply_received d [] Hd N) as E. rewrite app_nil_r in E. split; [exact E|].
  destruct (degrees_l deg Hg) as (k & -> & Hk & _). cbn [sensor].
  replace (34 + k =? (34 + k + 0) mod 256) with true by (rewrite Z.add_0_r, Z.mod_small by lia; lia). exact E.
Qed.
Lemma measure_temperature_l : forall high low d, 0 <= high < 16 -> byte low ->
  end_temperature (sensor (high, low) d begin_temperature) = ([], RSuccess, Some (256 * high + low)) /\
  end_temperature (sensor (240 + high, low) d begin_temperature) = ([], RSuccess, Some (- (256 * high + low))).
Proof.
  intros high low d Hh Hl. change (sensor (high, low) d begin_temperature) with [17; high; low; (17 + high + low) mod 256].
  change (sensor (240 + high, low) d begin_temperature) with [17; 240 + high; low; (17 + (240 + high) + low) mod 256].
  assert (B : forall x, byte (x mod 256)) by (intros x; unfold byte; apply Z.mod_pos_bound; lia).
  assert (H17 : byte 17) by (unfold byte; lia). assert (Hb : byte high) by (unfold byte; lia). assert (Hb2 : byte (240 + high)) by (unfold byte; lia).
  split.
  - rewrite end_temperature_l by auto. rewrite Z.eqb_refl. change (17 =? 17) with true. cbv iota.
    replace (high <? 16) with true by lia. rewrite (Z.mod_small high) by lia. rewrite Z.mul_1_l. reflexivity.
  - rewrite end_temperature_l by auto. rewrite Z.eqb_refl. change (17 =? 17) with true. cbv iota.
    replace (240 + high <? 16) with false by lia. replace ((240 + high) mod 16) with high by lia. reflexivity.
Qed.

(** ** The modes *)
Lemma wait_l : forall as_ q n d1 d2 c e1 e2 rest, (1 <= n)%nat -> byte c -> byte e1 -> byte e2 ->
  q ++ concat as_ = send_command c e1 e2 ++ rest ->
  exists q' as' n', eeprom_wait q (as_ ++ repeat [] n) d1 d2 = Some (q', as' ++ repeat [] n', (c =? 68) && (e1 =? d1) && (e2 =? d2)) /\
    (n <= n' + 1)%nat /\ q' ++ concat as' = rest.
Proof.
  induction as_ as [|a as_ IH]; intros q n d1 d2 c e1 e2 rest Hn Hc H1 H2 E.
  - cbn [concat app] in *. rewrite app_nil_r in E. destruct n as [|n]; [lia|]. cbn [repeat eeprom_wait]. rewrite app_nil_r, E.
    rewrite send_receive_l by assumption. exists rest, [], n. cbn [app concat]. rewrite app_nil_r. split; [reflexivity|]. split; [lia|reflexivity].
  - cbn [app concat eeprom_wait] in *. rewrite app_assoc in E. destruct (Nat.lt_ge_cases (length (q ++ a)) 4) as [L|L].
    + rewrite receive_short by exact L. destruct (IH (q ++ a) n d1 d2 c e1 e2 rest Hn Hc H1 H2 E) as (q' & as' & n' & A & B & C).
      exists q', as', n'. split; [|split; assumption]. destruct (q ++ a); exact A.
    + assert (X : exists t, q ++ a = send_command c e1 e2 ++ t /\ rest = t ++ concat as_).
      { destruct (q ++ a) as [|x0 [|x1 [|x2 [|x3 t]]]]; cbn [length] in L; try lia. unfold send_command in *. cbn [app] in E.
        injection E as -> -> -> -> <-. exists t. split; reflexivity. }
      destruct X as (t & -> & ->). rewrite send_receive_l by assumption. exists t, as_, n. split; [reflexivity|]. split; [lia|reflexivity].
Qed.
Lemma store_l : forall mem a b, byte a -> byte b -> store mem (68, a, b, checksum 68 a b) = fun x => if x =? a then b else mem x.
Proof. intros mem a b Ha Hb. unfold store. rewrite checksum_l by (assumption || (unfold byte; lia)). rewrite !Z.eqb_refl. reflexivity. Qed.
Lemma eeprom_cmd : forall mem a b rest, byte a -> byte b ->
  eeprom_after mem (send_command 68 a b ++ rest) = eeprom_after (fun x => if x =? a then b else mem x) rest.
Proof. intros mem a b rest Ha Hb. unfold eeprom_after, send_command. cbn [app frames fold_left]. rewrite store_l by assumption. reflexivity. Qed.

Lemma byte_lo : forall t, 0 <= t < 65536 -> byte (u8 t) /\ byte (u8 (Z.shiftr t 8)) /\ 256 * u8 (Z.shiftr t 8) + u8 t = t /\ u8 t = t mod 256.
Proof.
  intros t H. unfold u8, byte. rewrite Z.shiftr_div_pow2 by lia. change (2 ^ 8) with 256. rewrite (Z.mod_small (t / 256)) by lia. lia.
Qed.
Lemma echo_true : forall a b, (68 =? 68) && (a =? a) && (b =? b) = true.
Proof. intros a b. rewrite !Z.eqb_refl. reflexivity. Qed.

Lemma autonomous_answered : forall t arrivals n, 0 <= t < 65536 -> (3 <= n)%nat ->
  concat arrivals = send_command 68 2 170 ++ send_command 68 0 (u8 t) ++ send_command 68 1 (u8 (Z.shiftr t 8)) ->
  set_autonomous [] (arrivals ++ repeat [] n) t =
    (send_command 68 2 170 ++ send_command 68 0 (u8 t) ++ send_command 68 1 (u8 (Z.shiftr t 8)), Some true).
Proof.
  intros t arrivals n Ht Hn E. destruct (byte_lo t Ht) as (B1 & B2 & _ & _). unfold set_autonomous, write_eeprom.
  assert (K : forall v, 0 <= v < 256 -> byte v) by (intros; assumption).
  destruct (wait_l arrivals [] n 2 170 68 2 170 _ ltac:(lia) (K 68 ltac:(lia)) (K 2 ltac:(lia)) (K 170 ltac:(lia)) E) as (q1 & a1 & n1 & -> & N1 & E1).
  rewrite echo_true.
  destruct (wait_l a1 q1 n1 0 (u8 t) 68 0 (u8 t) _ ltac:(lia) (K 68 ltac:(lia)) (K 0 ltac:(lia)) B1 E1) as (q2 & a2 & n2 & -> & N2 & E2).
  rewrite echo_true.
  rewrite <- (app_nil_r (send_command 68 1 (u8 (Z.shiftr t 8)))) in E2.
  destruct (wait_l a2 q2 n2 1 (u8 (Z.shiftr t 8)) 68 1 (u8 (Z.shiftr t 8)) _ ltac:(lia) (K 68 ltac:(lia)) (K 1 ltac:(lia)) B2 E2) as (q3 & a3 & n3 & -> & N3 & E3).
  rewrite echo_true. reflexivity.
Qed.
Lemma autonomous_cells : forall mem t, 0 <= t < 65536 ->
  let mem' := eeprom_after mem (send_command 68 2 170 ++ send_command 68 0 (u8 t) ++ send_command 68 1 (u8 (Z.shiftr t 8))) in
  mem' 2 = 170 /\ threshold_of mem' = t /\ forall a, a <> 0 -> a <> 1 -> a <> 2 -> mem' a = mem a.
Proof.
  intros mem t Ht. cbv zeta. destruct (byte_lo t Ht) as (B1 & B2 & B3 & _).
  assert (K : forall v, 0 <= v < 256 -> byte v) by (intros; assumption).
  rewrite eeprom_cmd by (try apply K; lia). rewrite eeprom_cmd by (assumption || (apply K; lia)).
  rewrite <- (app_nil_r (send_command 68 1 _)). rewrite eeprom_cmd by (assumption || (apply K; lia)).
  unfold eeprom_after, threshold_of. cbn [frames fold_left]. split; [reflexivity|]. split; [exact B3|].
  intros a A0 A1 A2. destruct (Z.eqb_spec a 1); [contradiction|]. destruct (Z.eqb_spec a 0); [contradiction|].
  destruct (Z.eqb_spec a 2); [contradiction|]. reflexivity.
Qed.
(** Another well-formed frame where the second echo is due. *)
Lemma autonomous_half : forall t arrivals n c e1 e2 rest, 0 <= t < 65536 -> (2 <= n)%nat -> byte c -> byte e1 -> byte e2 ->
  (c, e1, e2) <> (68, 0, t mod 256) ->
  concat arrivals = send_command 68 2 170 ++ send_command c e1 e2 ++ rest ->
  set_autonomous [] (arrivals ++ repeat [] n) t = (send_command 68 2 170 ++ send_command 68 0 (u8 t), Some false).
Proof.
  intros t arrivals n c e1 e2 rest Ht Hn Hc H1 H2 D E. destruct (byte_lo t Ht) as (B1 & _ & _ & B4). unfold set_autonomous, write_eeprom.
  assert (K : forall v, 0 <= v < 256 -> byte v) by (intros; assumption).
  destruct (wait_l arrivals [] n 2 170 68 2 170 _ ltac:(lia) (K 68 ltac:(lia)) (K 2 ltac:(lia)) (K 170 ltac:(lia)) E) as (q1 & a1 & n1 & -> & N1 & E1).
  rewrite echo_true.
  destruct (wait_l a1 q1 n1 0 (u8 t) c e1 e2 _ ltac:(lia) Hc H1 H2 E1) as (q2 & a2 & n2 & -> & N2 & E2).
  replace ((c =? 68) && (e1 =? 0) && (e2 =? u8 t)) with false; [reflexivity|].
  symmetry. apply not_true_is_false. intros X. apply D. rewrite <- B4. f_equal; [f_equal|]; lia.
Qed.
Lemma half_cells : forall mem t, 0 <= t < 65536 ->
  let mem' := eeprom_after mem (send_command 68 2 170 ++ send_command 68 0 (u8 t)) in
  mem' 2 = 170 /\ threshold_of mem' = 256 * mem 1 + t mod 256.
Proof.
  intros mem t Ht. cbv zeta. destruct (byte_lo t Ht) as (B1 & _ & _ & B4).
  assert (K : forall v, 0 <= v < 256 -> byte v) by (intros; assumption).
  rewrite eeprom_cmd by (apply K; lia). rewrite <- (app_nil_r (send_command 68 0 _)). rewrite eeprom_cmd by (assumption || (apply K; lia)).
  unfold eeprom_after, threshold_of. cbn [frames fold_left]. split; [reflexivity|]. rewrite <- B4. reflexivity.
Qed.
Lemma passive_l : forall mem arrivals n, (1 <= n)%nat -> concat arrivals = send_command 68 2 187 ->
  exists out, set_passive [] (arrivals ++ repeat [] n) = (out, Some true) /\ out = [68; 2; 187; 1] /\ eeprom_after mem out 2 = 187 /\
    forall a, a <> 2 -> eeprom_after mem out a = mem a.
Proof.
  intros mem arrivals n Hn E. exists (send_command 68 2 187). unfold set_passive, write_eeprom.
  assert (K : forall v, 0 <= v < 256 -> byte v) by (intros; assumption).
  rewrite <- (app_nil_r (send_command 68 2 187)) in E.
  destruct (wait_l arrivals [] n 2 187 68 2 187 _ Hn (K 68 ltac:(lia)) (K 2 ltac:(lia)) (K 187 ltac:(lia)) E) as (q1 & a1 & n1 & -> & N1 & E1).
  split; [reflexivity|]. split; [reflexivity|]. rewrite <- (app_nil_r (send_command 68 2 187)). rewrite eeprom_cmd by (apply K; lia).
  split; [reflexivity|]. intros a A. unfold eeprom_after. cbn [frames fold_left]. destruct (Z.eqb_spec a 2); [contradiction|reflexivity].
Qed.
Lemma send_frame : forall c a b, byte c -> byte a -> byte b -> send_command c a b = frame_of c a b.
Proof. intros c a b Hc Ha Hb. unfold send_command, frame_of. rewrite checksum_l by assumption. reflexivity. Qed.
Lemma auto_frames : forall t, 0 <= t < 65536 -> send_command 68 2 170 = frame_of 68 2 170 /\
  send_command 68 0 (u8 t) = frame_of 68 0 (t mod 256) /\ send_command 68 1 (u8 (Z.shiftr t 8)) = frame_of 68 1 (t / 256).
Proof.
  intros t Ht. destruct (byte_lo t Ht) as (B1 & B2 & _ & B4). pose proof (u8_hi t Ht) as U.
  assert (K : forall v, 0 <= v < 256 -> byte v) by (intros; assumption).
  rewrite !send_frame by (assumption || (apply K; lia)). rewrite U, B4. auto.
Qed.
(** Any three well-formed replies. *)
Lemma answer_send : forall r, bytes3 r -> answer r = let '(c, a, b) := r in send_command c a b.
Proof. intros [[c a] b] (Hc & Ha & Hb). cbn [answer]. symmetry. apply send_frame; assumption. Qed.
Lemma echoes_flip : forall a b r, (let '(c, x, y) := r in (c =? 68) && (x =? a) && (y =? b)) = echoes (68, a, b) r.
Proof. intros a b [[c x] y]. cbn [echoes]. rewrite (Z.eqb_sym c), (Z.eqb_sym x), (Z.eqb_sym y). reflexivity. Qed.
Lemma autonomous_replies_l : forall t arrivals n r1 r2 r3 rest, 0 <= t < 65536 -> (3 <= n)%nat -> bytes3 r1 -> bytes3 r2 -> bytes3 r3 ->
  concat arrivals = answer r1 ++ answer r2 ++ answer r3 ++ rest ->
  set_autonomous [] (arrivals ++ repeat [] n) t =
    let c1 := (68, 2, 170) in let c2 := (68, 0, t mod 256) in let c3 := (68, 1, t / 256) in
    if negb (echoes c1 r1) then (answer c1, Some false)
    else if negb (echoes c2 r2) then (answer c1 ++ answer c2, Some false)
    else (answer c1 ++ answer c2 ++ answer c3, Some (echoes c3 r3)).
Proof.
  intros t arrivals n r1 r2 r3 rest Ht Hn B1 B2 B3 E. cbv zeta.
  destruct (auto_frames t Ht) as (F1 & F2 & F3). destruct (byte_lo t Ht) as (_ & _ & _ & BL). pose proof (u8_hi t Ht) as U.
  rewrite !answer_send in E by assumption. unfold set_autonomous, write_eeprom.
  destruct r1 as [[c1 x1] y1], r2 as [[c2 x2] y2], r3 as [[c3 x3] y3].
  destruct B1 as (B11 & B12 & B13), B2 as (B21 & B22 & B23), B3 as (B31 & B32 & B33).
  destruct (wait_l arrivals [] n 2 170 c1 x1 y1 _ ltac:(lia) B11 B12 B13 E) as (q1 & a1 & n1 & -> & N1 & E1).
  rewrite (echoes_flip 2 170 (c1, x1, y1)). rewrite F1, F2, F3.
  destruct (echoes (68, 2, 170) (c1, x1, y1)); cbn [negb]; [|reflexivity].
  destruct (wait_l a1 q1 n1 0 (u8 t) c2 x2 y2 _ ltac:(lia) B21 B22 B23 E1) as (q2 & a2 & n2 & -> & N2 & E2).
  rewrite (echoes_flip 0 (u8 t) (c2, x2, y2)), BL. destruct (echoes (68, 0, t mod 256) (c2, x2, y2)); cbn [negb]; [|reflexivity].
  destruct (wait_l a2 q2 n2 1 (u8 (Z.shiftr t 8)) c3 x3 y3 _ ltac:(lia) B31 B32 B33 E2) as (q3 & a3 & n3 & -> & N3 & E3).
  rewrite (echoes_flip 1 (u8 (Z.shiftr t 8)) (c3, x3, y3)), U. reflexivity.
Qed.
Lemma passive_reply_l : forall arrivals n r rest, (1 <= n)%nat -> bytes3 r -> concat arrivals = answer r ++ rest ->
  set_passive [] (arrivals ++ repeat [] n) = (answer (68, 2, 187), Some (echoes (68, 2, 187) r)).
Proof.
  intros arrivals n r rest Hn B E. rewrite answer_send in E by assumption. destruct r as [[c x] y]. destruct B as (B1 & B2 & B3).
  unfold set_passive, write_eeprom. destruct (wait_l arrivals [] n 2 187 c x y _ ltac:(lia) B1 B2 B3 E) as (q1 & a1 & n1 & -> & N1 & E1).
  rewrite (echoes_flip 2 187 (c, x, y)). cbn [answer]. rewrite <- send_frame by (unfold byte; lia). reflexivity.
Qed.
