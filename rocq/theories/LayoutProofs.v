(** MIDI messages in memory: any layout behaves like the one of [MidiModel]. *)
Require Import ZArith List Bool Lia ZifyBool.
Import ListNotations.
From Verif Require Import Base BaseFacts BitModel MidiModel MidiSpec MidiProofs LayoutModel LayoutSpec.
Open Scope Z_scope.
Local Ltac Zify.zify_post_hook ::= idtac.

(** ** Loads and stores *)
Lemma lsum_store : forall be f a n v k, Z.of_nat k <= n -> lsum be (lstore be f a n v) a n k = v mod 256 ^ Z.of_nat k.
Proof.
  intros be f a n v. induction k as [|k IH]; intros H.
  - cbn [lsum]. change (256 ^ Z.of_nat 0) with 1. rewrite Z.mod_1_r. reflexivity.
  - cbn [lsum]. rewrite IH by lia. unfold lstore at 1.
    assert (P : 0 < 256 ^ Z.of_nat k) by (apply Z.pow_pos_nonneg; lia).
    assert (Q : 256 ^ Z.of_nat (S k) = 256 ^ Z.of_nat k * 256) by (rewrite Nat2Z.inj_succ, Z.pow_succ_r by lia; ring).
    rewrite Q, Z.rem_mul_r by lia.
    assert (S : lsig be a n (if be then a + (n - 1 - Z.of_nat k) else a + Z.of_nat k) = Z.of_nat k)
      by (unfold lsig; destruct be; lia).
    rewrite S.
    replace ((a <=? (if be then a + (n - 1 - Z.of_nat k) else a + Z.of_nat k)) &&
             ((if be then a + (n - 1 - Z.of_nat k) else a + Z.of_nat k) <? a + n)) with true by (destruct be; lia).
    ring.
Qed.
Lemma lload_same : forall be f a n v, 0 <= n -> lload be (lstore be f a n v) a n = v mod 256 ^ n.
Proof. intros be f a n v H. unfold lload. rewrite lsum_store by lia. rewrite Z2Nat.id by lia. reflexivity. Qed.
Lemma lsum_ext : forall be f g a n k, Z.of_nat k <= n -> (forall x, a <= x < a + n -> f x = g x) ->
  lsum be f a n k = lsum be g a n k.
Proof.
  intros be f g a n k H E. induction k as [|k IH]; [reflexivity|]. cbn [lsum]. rewrite IH by lia.
  rewrite E by (destruct be; lia). reflexivity.
Qed.
Lemma lload_ext : forall be f g a n, (forall x, a <= x < a + n -> f x = g x) -> lload be f a n = lload be g a n.
Proof.
  intros be f g a n E. unfold lload. destruct (Z.leb_spec 0 n) as [H|H].
  - apply lsum_ext; [lia|exact E].
  - replace (Z.to_nat n) with O by lia. reflexivity.
Qed.
Lemma lload_other : forall be f a n v b m, b + m <= a \/ a + n <= b -> lload be (lstore be f a n v) b m = lload be f b m.
Proof.
  intros be f a n v b m D. apply lload_ext. intros x X. unfold lstore.
  replace ((a <=? x) && (x <? a + n)) with false by lia. reflexivity.
Qed.
Lemma lload_zero : forall be f a n, (forall x, a <= x < a + n -> f x = 0) -> lload be f a n = 0.
Proof.
  intros be f a n E. rewrite (lload_ext be f (fun _ => 0) a n E). unfold lload. generalize (Z.to_nat n) as k.
  induction k as [|k IH]; [reflexivity|]. cbn [lsum]. rewrite IH. lia.
Qed.
Lemma lload_byte : forall be f a, lload be f a 1 = f a.
Proof. intros be f a. unfold lload. change (Z.to_nat 1) with 1%nat. cbn [lsum]. change (256 ^ Z.of_nat 0) with 1.
  change (Z.of_nat 0) with 0. destruct be; [replace (a + (1 - 1 - 0)) with a by lia|replace (a + 0) with a by lia]; lia. Qed.
Lemma lstore_zero : forall be f a n x, a <= x < a + n -> lstore be f a n 0 x = 0.
Proof. intros be f a n x H. unfold lstore. replace ((a <=? x) && (x <? a + n)) with true by lia. reflexivity. Qed.
Lemma lstore_other : forall be f a n v x, x < a \/ a + n <= x -> lstore be f a n v x = f x.
Proof. intros be f a n v x H. unfold lstore. replace ((a <=? x) && (x <? a + n)) with false by lia. reflexivity. Qed.
Lemma pow256 : forall n, 1 <= n -> 256 <= 256 ^ n.
Proof. intros n H. change 256 with (256 ^ 1) at 1. apply Z.pow_le_mono_r; lia. Qed.
Lemma pow256_2 : forall n, 2 <= n -> 65536 <= 256 ^ n.
Proof. intros n H. change 65536 with (256 ^ 2). apply Z.pow_le_mono_r; lia. Qed.
Lemma pow2_8 : forall n, 0 <= n -> 2 ^ (8 * n) = 256 ^ n.
Proof. intros n H. rewrite Z.pow_mul_r by lia. reflexivity. Qed.

Section Lay.
Variable L : layout.
Hypothesis OK : layout_ok L.

Ltac ok := destruct OK as (? & ? & ? & ?).

Lemma ty_st : forall f t, 0 <= t < 256 -> ld_type L (st_type L f t) = t.
Proof. intros f t H. ok. unfold ld_type, st_type. rewrite lload_same by lia. apply Z.mod_small.
  pose proof (pow256 (l_enum L) ltac:(lia)). lia. Qed.
Lemma ty_other : forall f a n v, l_un L <= a -> ld_type L (lstore (l_be L) f a n v) = ld_type L f.
Proof. intros f a n v H. ok. unfold ld_type. apply lload_other. lia. Qed.
Lemma ty_channel : forall f v, ld_type L (st_channel L f v) = ld_type L f.
Proof. intros. apply ty_other. lia. Qed.
Lemma ty_song : forall f v, ld_type L (st_song L f v) = ld_type L f.
Proof. intros. apply ty_other. lia. Qed.
Lemma ty_beats : forall f v, ld_type L (st_beats L f v) = ld_type L f.
Proof. intros. apply ty_other. lia. Qed.
Lemma ty_note : forall f v, ld_type L (st_note L f v) = ld_type L f.
Proof. intros. apply ty_other. ok. lia. Qed.
Lemma ty_velocity : forall f v, ld_type L (st_velocity L f v) = ld_type L f.
Proof. intros. apply ty_other. ok. lia. Qed.
Lemma ty_bend : forall f v, ld_type L (st_bend L f v) = ld_type L f.
Proof. intros. apply ty_other. ok. lia. Qed.

Lemma note_same : forall f v, 0 <= v < 256 -> ld_note L (st_note L f v) = v.
Proof. intros f v H. unfold ld_note, st_note. rewrite lload_same by lia. apply Z.mod_small. lia. Qed.
Lemma velocity_same : forall f v, 0 <= v < 256 -> ld_velocity L (st_velocity L f v) = v.
Proof. intros f v H. unfold ld_velocity, st_velocity. rewrite lload_same by lia. apply Z.mod_small. lia. Qed.
Lemma channel_same : forall f v, 0 <= v < 256 -> ld_channel L (st_channel L f v) = v.
Proof. intros f v H. unfold ld_channel, st_channel. rewrite lload_same by lia. apply Z.mod_small. lia. Qed.
Lemma song_same : forall f v, 0 <= v < 256 -> ld_song L (st_song L f v) = v.
Proof. intros f v H. unfold ld_song, st_song. rewrite lload_same by lia. apply Z.mod_small. lia. Qed.
Lemma beats_same : forall f v, ld_beats L (st_beats L f v) = v mod 65536.
Proof. intros f v. unfold ld_beats, st_beats. rewrite lload_same by lia. reflexivity. Qed.
Lemma bend_same : forall f v, 0 <= v < 32768 -> ld_bend L (st_bend L f v) = v.
Proof.
  intros f v H. ok. unfold ld_bend, st_bend, sn. rewrite lload_same by lia.
  pose proof (pow256_2 (l_int L) ltac:(lia)) as P. rewrite pow2_8 by lia.
  rewrite Z.mod_mod by lia. rewrite Z.mod_small by lia.
  assert (Q : 32768 <= 2 ^ (8 * l_int L - 1)) by (change 32768 with (2 ^ 15); apply Z.pow_le_mono_r; lia).
  destruct (Z.ltb_spec v (2 ^ (8 * l_int L - 1))); lia.
Qed.
Lemma ch_note : forall f v, ld_channel L (st_note L f v) = ld_channel L f.
Proof. intros. ok. unfold ld_channel, st_note. apply lload_other. lia. Qed.
Lemma ch_velocity : forall f v, ld_channel L (st_velocity L f v) = ld_channel L f.
Proof. intros. ok. unfold ld_channel, st_velocity. apply lload_other. lia. Qed.
Lemma ch_bend : forall f v, ld_channel L (st_bend L f v) = ld_channel L f.
Proof. intros. ok. unfold ld_channel, st_bend. apply lload_other. lia. Qed.
Lemma note_velocity : forall f v, ld_note L (st_velocity L f v) = ld_note L f.
Proof. intros. ok. unfold ld_note, st_velocity. apply lload_other. lia. Qed.
Lemma velocity_note : forall f v, ld_velocity L (st_note L f v) = ld_velocity L f.
Proof. intros. ok. unfold ld_velocity, st_note. apply lload_other. lia. Qed.

(** ** The relation to the model with the layout of AVR: the members in use for the type agree. *)
Definition notes (t : Z) : bool := (t =? 144) || (t =? 128) || (t =? 160) || (t =? 176).
Definition agrees (m : message) (f : mem) : Prop :=
  let t := m_type m in
  ld_type L f = t /\ 0 <= t < 256 /\
  (t < 240 -> ld_channel L f = m_b0 m) /\
  (notes t || (t =? 192) = true -> ld_note L f = m_b1 m) /\
  (notes t || (t =? 208) = true -> ld_velocity L f = m_b2 m) /\
  ((t =? 243) || (t =? 241) = true -> ld_song L f = m_b0 m) /\
  (t = 224 -> ld_bend L f = m_bend m /\ 0 <= m_bend m < 32768) /\
  (t = 242 -> ld_beats L f = m_beats m /\ 0 <= m_beats m < 65536).

Lemma type_range : forall b, 0 <= b < 256 -> 0 <= msg_type b < 256.
Proof.
  intros b H. pose proof (classify_l b H) as (_ & E & _). rewrite E. clear E.
  pose proof (Z.div_mod b 16). pose proof (Z.mod_pos_bound b 16). destruct (b <? 128), (b <? 240); lia.
Qed.
Lemma m_bend_set : forall m v, 0 <= v < 32768 -> m_bend (set_bend m v) = v.
Proof.
  intros m v H. unfold m_bend, set_bend. cbn [m_b1 m_b2]. unfold u16, s16.
  change (2 ^ 16) with 65536 in *. rewrite !(Z.mod_small v 65536) by lia.
  pose proof (Z.div_mod v 256 ltac:(lia)). pose proof (Z.mod_pos_bound v 256 ltac:(lia)).
  replace (v mod 256 + 256 * (v / 256)) with v by lia.
  rewrite ?(Z.mod_small v) by lia.
  repeat match goal with |- context[if ?c then _ else _] => destruct c eqn:? end; lia.
Qed.
Lemma m_beats_set : forall m v, m_beats (set_beats m v) = v mod 65536.
Proof.
  intros m v. unfold m_beats, set_beats. cbn [m_b0 m_b1]. unfold u16. change (2 ^ 16) with 65536.
  pose proof (Z.div_mod (v mod 65536) 256 ltac:(lia)). lia.
Qed.

Lemma agrees_get : forall m f, agrees m f ->
  lget_status L f = get_status m /\ lget_data1 L f = get_data1 m /\ lget_data2 L f = get_data2 m.
Proof.
  intros m f (T & R & C & N & V & S & B & P).
  unfold lget_status, get_status, lget_data1, get_data1, lget_data2, get_data2, m_channel. rewrite T. unfold notes in *.
  repeat split.
  - unfold is_system. destruct ((m_type m >=? 240) && (m_type m <=? 255)) eqn:E; [reflexivity|]. rewrite C by lia. reflexivity.
  - cbv zeta. repeat match goal with |- context[if ?c then _ else _] => destruct c eqn:? end; try reflexivity.
    + rewrite N by lia. reflexivity.
    + rewrite V by lia. reflexivity.
    + rewrite S by lia. reflexivity.
    + destruct B as [B _]; [lia|]. rewrite B. reflexivity.
    + destruct P as [P _]; [lia|]. rewrite P. reflexivity.
  - cbv zeta. repeat match goal with |- context[if ?c then _ else _] => destruct c eqn:? end; try reflexivity.
    + rewrite V by lia. reflexivity.
    + destruct B as [B _]; [lia|]. rewrite B. reflexivity.
    + destruct P as [P _]; [lia|]. rewrite P. reflexivity.
Qed.

(** SetStatusByte clears every member that can be in use. *)
Lemma cleared : forall f x, (l_un L <= x < l_un L + 2 \/ l_un L + l_in L <= x < l_un L + l_in L + l_int L) ->
  st_beats L (st_bend L f 0) 0 x = 0.
Proof.
  intros f x H. unfold st_beats, st_bend. destruct (Z_lt_dec x (l_un L + 2)) as [K|K];
    [destruct (Z_le_dec (l_un L) x) as [J|J]|].
  - apply lstore_zero. lia.
  - exfalso. ok. lia.
  - rewrite lstore_other by lia. apply lstore_zero. lia.
Qed.
Lemma agrees_status : forall m f st, 0 <= st < 256 -> agrees (set_status m st) (lset_status L f st).
Proof.
  intros m f st H. pose proof (type_range st H) as T.
  assert (CH : 0 <= Z.land st 15 < 256).
  { split; [apply Z.land_nonneg; lia|]. change 15 with (Z.ones 4). rewrite Z.land_ones by lia.
    pose proof (Z.mod_pos_bound st (2 ^ 4)). lia. }
  unfold lset_status. cbv zeta. set (g := st_beats L (st_bend L (st_type L f (msg_type st)) 0) 0).
  assert (TG : ld_type L g = msg_type st) by (unfold g; rewrite ty_beats, ty_bend; apply ty_st; exact T).
  assert (ZG : forall x, (l_un L <= x < l_un L + 2 \/ l_un L + l_in L <= x < l_un L + l_in L + l_int L) -> g x = 0)
    by (intros x; apply cleared).
  rewrite TG.
  assert (M : set_status m st = mkMsg (msg_type st) (if is_system (msg_type st) then 0 else Z.land st 15) 0 0).
  { unfold set_status. cbv zeta. unfold set_beats, set_bend. cbn [m_type m_b0 m_b1 m_b2].
    destruct (is_system (msg_type st)); reflexivity. }
  rewrite M. unfold agrees. cbv zeta. cbn [m_type m_b0 m_b1 m_b2].
  set (h := if negb (is_system (msg_type st)) then st_channel L g (Z.land st 15) else g).
  assert (TH : ld_type L h = msg_type st) by (unfold h; destruct (negb _); [rewrite ty_channel|]; exact TG).
  assert (ZH : forall x, l_un L + l_in L <= x < l_un L + l_in L + l_int L -> h x = 0).
  { intros x X. unfold h. destruct (negb _); [|apply ZG; lia]. unfold st_channel. rewrite lstore_other by (ok; lia). apply ZG. lia. }
  split; [exact TH|]. split; [exact T|]. split.
  { intros K. unfold is_system. replace ((msg_type st >=? 240) && (msg_type st <=? 255)) with false by lia.
    unfold h, is_system. replace ((msg_type st >=? 240) && (msg_type st <=? 255)) with false by lia.
    cbn [negb]. apply channel_same. exact CH. }
  split. { intros _. unfold ld_note. rewrite lload_byte. apply ZH. ok. lia. }
  split. { intros _. unfold ld_velocity. rewrite lload_byte. apply ZH. ok. lia. }
  split.
  { intros K. replace (is_system (msg_type st)) with true by (unfold is_system; lia).
    unfold h. replace (is_system (msg_type st)) with true by (unfold is_system; lia). cbn [negb].
    unfold ld_song. rewrite lload_byte. apply ZG. lia. }
  split.
  { intros K. unfold m_bend. cbn [m_b1 m_b2]. split; [|unfold s16; cbn; lia].
    unfold ld_bend. rewrite lload_zero by exact ZH. unfold sn. rewrite Z.mod_0_l by (apply Z.pow_nonzero; ok; lia).
    destruct (Z.ltb_spec 0 (2 ^ (8 * l_int L - 1))) as [Q|Q]; [reflexivity|].
    exfalso. pose proof (Z.pow_pos_nonneg 2 (8 * l_int L - 1)). ok. lia. }
  intros K. unfold m_beats. cbn [m_b0 m_b1]. replace (is_system (msg_type st)) with true by (unfold is_system; lia).
  split; [|lia]. unfold h. replace (is_system (msg_type st)) with true by (unfold is_system; lia). cbn [negb].
  unfold ld_beats. apply lload_zero. intros x X. apply ZG. lia.
Qed.

Ltac types :=
  repeat match goal with
  | |- context[if ?c then _ else _] => destruct c eqn:?
  end.

Lemma agrees_data1 : forall m f d, 0 <= d < 256 -> agrees m f -> agrees (set_data1 m d) (lset_data1 L f d).
Proof.
  intros m f d D A. pose proof A as (T & R & C & N & V & S & B & P). unfold notes in *.
  unfold lset_data1, set_data1. cbv zeta. rewrite T. types.
  - unfold agrees, notes. cbv zeta. cbn [m_type m_b0 m_b1 m_b2]. rewrite ty_note, ch_note, velocity_note, note_same by exact D.
    repeat split; try assumption; intros; try lia; auto.
  - unfold agrees, notes. cbv zeta. cbn [m_type m_b0 m_b1 m_b2].
    rewrite ty_velocity, ch_velocity, note_velocity, velocity_same by exact D.
    repeat split; try assumption; intros; try lia; auto.
  - unfold agrees, notes. cbv zeta. cbn [m_type m_b0 m_b1 m_b2]. rewrite ty_song, song_same by exact D.
    repeat split; try assumption; intros; try lia; auto; apply song_same; exact D.
  - unfold agrees, notes. cbv zeta. rewrite m_bend_set by lia. unfold set_bend. cbn [m_type m_b0 m_b1 m_b2].
    rewrite ty_bend, ch_bend, bend_same by lia.
    repeat split; try assumption; intros; try lia; auto.
  - unfold agrees, notes. cbv zeta. rewrite m_beats_set. unfold set_beats. cbn [m_type m_b0 m_b1 m_b2].
    rewrite ty_beats, beats_same. pose proof (Z.mod_pos_bound d 65536 ltac:(lia)).
    repeat split; try assumption; intros; try lia; auto.
  - exact A.
Qed.

Lemma or_small : forall a d n, 0 <= n -> 0 <= a < 2 ^ n -> 0 <= d < 2 ^ n -> 0 <= Z.lor a d < 2 ^ n.
Proof.
  intros a d n Hn A D. split; [apply Z.lor_nonneg; lia|].
  destruct (Z.eq_dec (Z.lor a d) 0) as [E|E]; [rewrite E; apply Z.pow_pos_nonneg; lia|].
  assert (0 <= Z.lor a d) by (apply Z.lor_nonneg; lia).
  apply Z.log2_lt_pow2; [lia|]. rewrite Z.log2_lor by lia.
  apply Z.max_lub_lt.
  - destruct (Z.eq_dec a 0) as [->|Na]; [|apply Z.log2_lt_pow2; lia].
    cbn [Z.log2]. destruct (Z.eq_dec n 0) as [->|]; [|lia]. exfalso. apply E. cbn in D. replace d with 0 by lia. reflexivity.
  - destruct (Z.eq_dec d 0) as [->|Na]; [|apply Z.log2_lt_pow2; lia].
    cbn [Z.log2]. destruct (Z.eq_dec n 0) as [->|]; [|lia]. exfalso. apply E. cbn in A. replace a with 0 by lia. reflexivity.
Qed.

Lemma agrees_data2 : forall m f d, 0 <= d < 256 -> agrees m f -> agrees (set_data2 m d) (lset_data2 L f d).
Proof.
  intros m f d D A. pose proof A as (T & R & C & N & V & S & B & P). unfold notes in *.
  assert (SH : 0 <= Z.shiftl d 7 < 32768) by (rewrite Z.shiftl_mul_pow2 by lia; change (2 ^ 7) with 128; lia).
  unfold lset_data2, set_data2. cbv zeta. rewrite T. types.
  - unfold agrees, notes. cbv zeta. cbn [m_type m_b0 m_b1 m_b2].
    rewrite ty_velocity, ch_velocity, note_velocity, velocity_same by exact D.
    repeat split; try assumption; intros; try lia; auto.
  - destruct B as [B BR]; [lia|]. rewrite B.
    assert (O : 0 <= Z.lor (m_bend m) (Z.shiftl d 7) < 32768) by (apply (or_small _ _ 15); [lia|exact BR|exact SH]).
    unfold agrees, notes. cbv zeta. rewrite m_bend_set by exact O. unfold set_bend. cbn [m_type m_b0 m_b1 m_b2].
    rewrite ty_bend, ch_bend, bend_same by exact O.
    repeat split; try assumption; intros; try lia; auto.
  - destruct P as [P PR]; [lia|]. rewrite P.
    unfold agrees, notes. cbv zeta. rewrite m_beats_set. unfold set_beats. cbn [m_type m_b0 m_b1 m_b2].
    rewrite ty_beats, beats_same. pose proof (Z.mod_pos_bound (Z.lor (m_beats m) (Z.shiftl d 7)) 65536 ltac:(lia)).
    repeat split; try assumption; intros; try lia; auto.
  - exact A.
Qed.

Lemma agrees_new : forall f, agrees m_new (lmsg_new L f).
Proof.
  intros f. ok. unfold agrees, m_new, notes. cbv zeta. cbn [m_type m_b0 m_b1 m_b2].
  assert (Zr : forall x, 0 <= x < l_size L -> lmsg_new L f x = 0)
    by (intros x X; unfold lmsg_new; replace ((0 <=? x) && (x <? l_size L)) with true by lia; reflexivity).
  split; [unfold ld_type; apply lload_zero; intros x X; apply Zr; lia|]. split; [lia|].
  split; [intros _; unfold ld_channel; rewrite lload_byte; apply Zr; lia|].
  repeat split; intros; lia.
Qed.

(** ** The reader *)
Definition ragrees (r : reader) (q : lreader) : Prop :=
  lr_run q = r_run r /\ lr_parse q = r_parse r /\ lr_end q = r_end r /\ agrees (r_msg r) (lr_msg q) /\ 0 <= r_run r < 256.
Definition nagrees (n : note) (p : lnote) : Prop := seen n = lseen L p.

Lemma ps_agrees : forall r q st, 0 <= st < 256 -> ragrees r q ->
  let '(r1, n, s) := process_status r st in
  let '(q1, p, s') := lprocess_status L q st in
  ragrees r1 q1 /\ map seen n = map (lseen L) p /\ s' = s.
Proof.
  intros r q st H A. pose proof A as (U & PA & E & M & R). unfold process_status, lprocess_status. cbv zeta.
  destruct (msg_length st =? 1); [split; [exact A|split; reflexivity]|].
  destruct (msg_length st =? 2);
    [split; [unfold ragrees; cbn [r_run r_parse r_end r_msg lr_run lr_parse lr_end lr_msg]; refine (conj U (conj eq_refl (conj eq_refl (conj _ R)))); apply agrees_status; exact H|split; reflexivity]|].
  destruct (msg_length st =? 3);
    [split; [unfold ragrees; cbn [r_run r_parse r_end r_msg lr_run lr_parse lr_end lr_msg]; refine (conj U (conj eq_refl (conj eq_refl (conj _ R)))); apply agrees_status; exact H|split; reflexivity]|].
  destruct (msg_length st =? -1);
    (split; [unfold ragrees; cbn; refine (conj eq_refl (conj eq_refl (conj eq_refl (conj M _)))); lia|split; reflexivity]).
Qed.
Lemma pd_agrees : forall r q b, 0 <= b < 256 -> ragrees r q ->
  let (r1, s) := process_data r b in let (q1, s') := lprocess_data L q b in ragrees r1 q1 /\ s' = s.
Proof.
  intros r q b H A. pose proof A as (U & PA & E & M & R). unfold process_data, lprocess_data. rewrite PA, E, U.
  destruct (r_parse r); try (split; [exact A|reflexivity]).
  - split; [|reflexivity]. unfold ragrees; cbn. refine (conj eq_refl (conj eq_refl (conj eq_refl (conj _ R)))). apply agrees_data1; assumption.
  - split; [|reflexivity]. unfold ragrees; cbn. refine (conj eq_refl (conj eq_refl (conj eq_refl (conj _ R)))). apply agrees_data2; assumption.
Qed.
Lemma u8_range : forall x, 0 <= u8 x < 256.
Proof. intros x. unfold u8. change (2 ^ 8) with 256. apply Z.mod_pos_bound. lia. Qed.

Lemma finish_agrees : forall r q n p s, ragrees r q -> map seen n = map (lseen L) p ->
  let '(r1, n1, s1) :=
    if s && peq (r_parse r) NotSet then
      (reset_state (mkReader (if is_channel (m_type (r_msg r)) then u8 (Z.lor (m_type (r_msg r)) (m_channel (r_msg r))) else 0)
         (r_parse r) (r_end r) (r_msg r)),
       if negb (peq (r_end r) EOX) then n ++ [NMessage (r_msg r)] else n, s)
    else (r, n, s) in
  let '(q1, p1, s2) :=
    if s && peq (lr_parse q) NotSet then
      (lreset_state (mkLReader (if is_channel (ld_type L (lr_msg q)) then u8 (Z.lor (ld_type L (lr_msg q)) (ld_channel L (lr_msg q))) else 0)
         (lr_parse q) (lr_end q) (lr_msg q)),
       if negb (peq (lr_end q) EOX) then p ++ [LMessage (lr_msg q)] else p, s)
    else (q, p, s) in
  ragrees r1 q1 /\ map seen n1 = map (lseen L) p1 /\ s2 = s1.
Proof.
  intros r q n p s A H. pose proof A as (U & PA & E & M & R). rewrite PA, E.
  destruct (s && peq (r_parse r) NotSet); [|split; [exact A|split; [exact H|reflexivity]]].
  pose proof M as (T & TR & C & _). rewrite T. split; [|split; [|reflexivity]].
  - unfold ragrees, reset_state, lreset_state. cbn [r_run r_parse r_end r_msg lr_run lr_parse lr_end lr_msg].
    assert (K : (if is_channel (m_type (r_msg r)) then u8 (Z.lor (m_type (r_msg r)) (ld_channel L (lr_msg q))) else 0) =
                (if is_channel (m_type (r_msg r)) then u8 (Z.lor (m_type (r_msg r)) (m_channel (r_msg r))) else 0)).
    { destruct (is_channel (m_type (r_msg r))) eqn:I; [|reflexivity]. unfold is_channel in I. rewrite C by lia. reflexivity. }
    refine (conj K (conj eq_refl (conj eq_refl (conj M _)))). destruct (is_channel _); [apply u8_range|lia].
  - destruct (negb _); [|exact H]. rewrite !map_app, H. f_equal. cbn [map seen lseen].
    destruct (agrees_get _ _ M) as (-> & -> & ->). reflexivity.
Qed.

Lemma dispatch_agrees : forall r q b, 0 <= b < 256 -> ragrees r q ->
  let '(r1, n, s) := dispatch r b in
  let '(q1, p, s') := ldispatch L q b in
  ragrees r1 q1 /\ map seen n = map (lseen L) p /\ s' = s.
Proof.
  intros r q b H A. pose proof A as (U & PA & E & M & R). unfold dispatch, ldispatch. cbv zeta. rewrite PA, U.
  pose proof (ps_agrees r q b H A) as PS. pose proof (pd_agrees r q b H A) as PD.
  destruct (r_parse r) eqn:P.
  all: try (destruct (msg_type b >? 0);
    [destruct (is_realtime (msg_type b));
      [destruct (process_status r b) as [[r1 n1] s1]; destruct (lprocess_status L q b) as [[q1 p1] s2];
       destruct PS as (PS1 & PS2 & ->); apply finish_agrees; assumption
      |apply (finish_agrees r q [] [] false); [exact A|reflexivity]]
    |destruct (process_data r b) as [r1 s1]; destruct (lprocess_data L q b) as [q1 s2]; destruct PD as (PD1 & ->);
     apply finish_agrees; [exact PD1|reflexivity]]).
  - destruct ((msg_type b =? 0) && negb (r_run r =? 0)).
    + pose proof (ps_agrees r q (r_run r) R A) as PR.
      destruct (process_status r (r_run r)) as [[r1 n1] s1]. destruct (lprocess_status L q (r_run r)) as [[q1 p1] s2].
      destruct PR as (PR1 & PR2 & ->). destruct s1.
      * pose proof (pd_agrees r1 q1 b H PR1) as PD'.
        destruct (process_data r1 b) as [r2 s3]. destruct (lprocess_data L q1 b) as [q2 s4]. destruct PD' as (PD1 & ->).
        apply finish_agrees; assumption.
      * apply finish_agrees; assumption.
    + destruct (msg_type b >? 0).
      * destruct (process_status r b) as [[r1 n1] s1]; destruct (lprocess_status L q b) as [[q1 p1] s2].
        destruct PS as (PS1 & PS2 & ->). apply finish_agrees; assumption.
      * apply (finish_agrees r q [] [] false); [exact A|reflexivity].
  - apply (finish_agrees r q [] [] false); [exact A|reflexivity].
Qed.

Lemma read_agrees : forall bytes r q, Forall (fun b => 0 <= b < 256) bytes -> ragrees r q ->
  map (map seen) (snd (read_all r bytes)) = map (map (lseen L)) (snd (lread_all L q bytes)).
Proof.
  induction bytes as [|b bytes IH]; intros r q F A; [reflexivity|].
  inversion F as [|? ? Hb F']; subst. cbn [read_all lread_all].
  pose proof (dispatch_agrees r q b Hb A) as D. destruct (dispatch r b) as [[r1 n] s]. destruct (ldispatch L q b) as [[q1 p] s'].
  destruct D as (D1 & D2 & _). specialize (IH r1 q1 F' D1).
  destruct (read_all r1 bytes) as [r2 ns]. destruct (lread_all L q1 bytes) as [q2 ps]. cbn [snd map] in *. rewrite D2, IH. reflexivity.
Qed.
Lemma init_agrees : forall f, ragrees r_init (lr_init L f).
Proof. intros f. unfold ragrees, r_init, lr_init. cbn [r_run r_parse r_end r_msg lr_run lr_parse lr_end lr_msg].
  refine (conj eq_refl (conj eq_refl (conj eq_refl (conj (agrees_new f) _)))). lia. Qed.

(** ** Building messages *)
Lemma has_data_range : forall st, has_data st -> 0 <= st < 256.
Proof. intros st [H|H]; lia. Qed.
Lemma build_agrees : forall m f st d1 d2, has_data st -> data_byte d1 -> data_byte d2 ->
  agrees (let m := set_data1 (set_status m st) d1 in if data_count st =? 2 then set_data2 m d2 else m) (lbuild L f st d1 d2).
Proof.
  intros m f st d1 d2 H D1 D2. pose proof (has_data_range st H). unfold data_byte in *. unfold lbuild. cbv zeta.
  assert (A : agrees (set_data1 (set_status m st) d1) (lset_data1 L (lset_status L f st) d1))
    by (apply agrees_data1; [lia|]; apply agrees_status; assumption).
  destruct (data_count st =? 2); [|exact A]. apply agrees_data2; [lia|exact A].
Qed.
Lemma lroundtrip_l : forall f st d1 d2, has_data st -> data_byte d1 -> data_byte d2 ->
  let g := lbuild L f st d1 d2 in
  lget_status L g = st /\ lget_data1 L g = d1 /\ lget_data2 L g = (if data_count st =? 2 then d2 else 0) /\
  ld_type L g = (if st <? 240 then 16 * (st / 16) else st) /\
  (st < 240 -> ld_channel L g = st mod 16) /\
  (st < 208 -> ld_note L g = d1) /\ (st < 192 -> ld_velocity L g = d2) /\
  (208 <= st < 224 -> ld_velocity L g = d1) /\
  (224 <= st < 240 -> ld_bend L g = d1 + 128 * d2) /\
  (st = 241 \/ st = 243 -> ld_song L g = d1) /\ (st = 242 -> ld_beats L g = d1 + 128 * d2).
Proof.
  intros f st d1 d2 H D1 D2 g. pose proof (build_agrees m_new f st d1 d2 H D1 D2) as A. fold g in A.
  pose proof (message_fields_l m_new st d1 d2 H D1 D2) as F. pose proof (message_roundtrip_l m_new st d1 d2 H D1 D2) as G.
  cbv zeta in *. set (m := if data_count st =? 2 then set_data2 (set_data1 (set_status m_new st) d1) d2
            else set_data1 (set_status m_new st) d1) in *.
  destruct (agrees_get _ _ A) as (G1 & G2 & G3).
  assert (K : get_status m = st /\ get_data1 m = d1 /\ get_data2 m = (if data_count st =? 2 then d2 else 0)).
  { destruct G as (Ga & Gb & Gc & Gd & Ge & _). unfold m. destruct (data_count st =? 2) eqn:Q.
    - repeat split; assumption.
    - repeat split; [exact Ga|exact Gb|]. rewrite <- Ge. unfold set_data2.
      assert (TT : m_type (set_data1 (set_status m_new st) d1) = (if st <? 240 then 16 * (st / 16) else st))
        by (destruct F as [F _]; unfold m in F; exact F).
      rewrite TT. cbv zeta. clear - Q H. unfold data_count, kind_of in Q. destruct H as [H|H].
      + replace (st <? 128) with false in Q by lia. replace (st <? 240) with true in * by lia.
        assert (12 <= st / 16 < 14).
        { destruct ((192 <=? st) && (st <? 224)) eqn:X; [|discriminate]. split; [apply Z.div_le_lower_bound; lia|apply Z.div_lt_upper_bound; lia]. }
        assert (st / 16 = 12 \/ st / 16 = 13) as [->| ->] by lia; reflexivity.
      + assert (st = 241 \/ st = 242 \/ st = 243) as [->|[->| ->]] by lia; reflexivity || discriminate. }
  destruct K as (K1 & K2 & K3). rewrite G1, G2, G3. destruct A as (T & R & C & N & V & S & B & P).
  destruct F as (F1 & F2 & F3 & F4 & F5 & F6 & F7 & F8). unfold m_channel, m_note, m_velocity, m_song in *. unfold notes in *.
  clearbody m g. clear G. rewrite T. rewrite F1 in C, N, V, S, B, P. rewrite F1. clear F1 G1 G2 G3 T R.
  pose proof (Z.div_mod st 16 ltac:(lia)) as DM. pose proof (Z.mod_pos_bound st 16 ltac:(lia)) as MB.
  split; [exact K1|]. split; [exact K2|]. split; [exact K3|]. split; [reflexivity|].
  assert (X8 : 128 <= st) by (clear - H; destruct H; lia). 
  assert (W : forall lo hi, 16 * lo <= st < 16 * hi -> lo <= st / 16 < hi)
    by (clear; intros lo hi Q; split; [apply Z.div_le_lower_bound; lia|apply Z.div_lt_upper_bound; lia]).
  split. { intros X. rewrite C; [apply F2; exact X|]. replace (st <? 240) with true by (clear - X; lia). clear - X DM MB. lia. }
  split. { intros X. rewrite N; [apply F3; exact X|]. replace (st <? 240) with true by (clear - X; lia).
    pose proof (W 8 13 ltac:(clear - X X8; lia)) as Q. clear - Q.
    assert (st / 16 = 8 \/ st / 16 = 9 \/ st / 16 = 10 \/ st / 16 = 11 \/ st / 16 = 12) as E by lia.
    destruct E as [E|[E|[E|[E|E]]]]; rewrite E; reflexivity. }
  split. { intros X. rewrite V; [apply F4; exact X|]. replace (st <? 240) with true by (clear - X; lia).
    pose proof (W 8 12 ltac:(clear - X X8; lia)) as Q. clear - Q.
    assert (st / 16 = 8 \/ st / 16 = 9 \/ st / 16 = 10 \/ st / 16 = 11) as E by lia.
    destruct E as [E|[E|[E|E]]]; rewrite E; reflexivity. }
  split. { intros X. rewrite V; [apply F5; exact X|]. replace (st <? 240) with true by (clear - X; lia).
    pose proof (W 13 14 ltac:(clear - X; lia)) as Q. clear - Q.
    assert (st / 16 = 13) as E by lia. rewrite E. reflexivity. }
  split. { intros X. destruct B as [B _]; [|rewrite B; apply F6; exact X]. replace (st <? 240) with true by (clear - X; lia).
    pose proof (W 14 15 ltac:(clear - X; lia)) as Q. clear - Q. lia. }
  split. { intros X. rewrite S; [apply F7; exact X|]. destruct X as [-> | ->]; reflexivity. }
  intros X. destruct P as [P _]; [rewrite X; reflexivity|]. rewrite P. apply F8. exact X.
Qed.

(** ** The writer *)
Lemma write_agrees : forall m f run, agrees m f -> lwrite_msg L run f = write_msg run m.
Proof.
  intros m f run A. destruct (agrees_get _ _ A) as (G1 & G2 & G3). destruct A as (T & _).
  unfold lwrite_msg, write_msg. rewrite T, G1, G2, G3. reflexivity.
Qed.
Lemma write_all_agrees : forall ms fs run, Forall2 agrees ms fs -> lwrite_all L run fs = write_all run (map WMessage ms).
Proof.
  intros ms fs run F. revert run. induction F as [|m f ms fs A F IH]; intros run; [reflexivity|].
  cbn [lwrite_all map write_all]. rewrite (write_agrees m f run A). destruct (write_msg run m) as [run' out].
  rewrite IH. reflexivity.
Qed.

(** ** CopyTo *)
Lemma copy_members : forall f g, same_members L (lcopy L f g) f.
Proof.
  intros f g. ok. assert (K : forall x, 0 <= x < l_size L -> lcopy L f g x = f x)
    by (intros x X; unfold lcopy; replace ((0 <=? x) && (x <? l_size L)) with true by lia; reflexivity).
  assert (W : forall a n, 0 <= a -> a + n <= l_size L -> lload (l_be L) (lcopy L f g) a n = lload (l_be L) f a n).
  { intros a n A N. apply lload_ext. intros x X. apply K. lia. }
  unfold same_members, ld_type, ld_channel, ld_note, ld_velocity, ld_bend, ld_beats, ld_song.
  repeat split; try (apply W; lia). f_equal. apply W; lia.
Qed.
Lemma members_get : forall f g, same_members L f g ->
  lget_status L f = lget_status L g /\ lget_data1 L f = lget_data1 L g /\ lget_data2 L f = lget_data2 L g.
Proof.
  intros f g (T & C & N & V & B & P & S). unfold lget_status, lget_data1, lget_data2. rewrite T, C, N, V, B, P, S. auto.
Qed.
End Lay.

(** ** From board to board *)
Lemma stream_bytes : forall rs s, stream rs s -> Forall (fun b => 0 <= b < 256) (map fst s).
Proof.
  assert (K : forall st d1 d2, data_byte d1 -> data_byte d2 -> Forall (fun b => 0 <= b < 256) (map fst (body st d1 d2))).
  { intros st d1 d2 A B. unfold data_byte, body in *. destruct (data_count st =? 1); cbn [map fst];
      repeat (apply Forall_cons; [lia|]); constructor. }
  intros rs s S. induction S as [rs|rs st d1 d2 s H A B S IH|rs d1 d2 s N A B S IH|rs s S IH].
  - constructor.
  - cbn [map fst]. rewrite map_app. apply Forall_cons; [destruct H; lia|]. apply Forall_app. split; [apply K; assumption|exact IH].
  - rewrite map_app. apply Forall_app. split; [apply K; assumption|exact IH].
  - cbn [map fst]. apply Forall_cons; [lia|exact IH].
Qed.
Lemma stream_bytes_l : forall s t, stream 0 s -> weave s t -> Forall (fun b => 0 <= b < 256) (map fst t).
Proof.
  intros s t S W. pose proof (stream_bytes 0 s S) as F. clear S. induction W as [|x s t W IH|b s t R W IH].
  - constructor.
  - cbn [map] in *. inversion F; subst. constructor; [assumption|]. apply IH. assumption.
  - cbn [map fst]. constructor; [|apply IH; exact F]. unfold realtime in R. lia.
Qed.

Definition bytes_ok (m : message) : Prop := 0 <= m_b0 m < 256 /\ 0 <= m_b1 m < 256 /\ 0 <= m_b2 m < 256.
Lemma bytes16 : forall v, 0 <= u16 v mod 256 < 256 /\ 0 <= u16 v / 256 < 256.
Proof.
  intros v. unfold u16. change (2 ^ 16) with 65536. pose proof (Z.mod_pos_bound v 65536 ltac:(lia)).
  split; [apply Z.mod_pos_bound; lia|]. split; [apply Z.div_pos; lia|apply Z.div_lt_upper_bound; lia].
Qed.
Lemma bytes_status : forall m st, 0 <= st < 256 -> bytes_ok (set_status m st).
Proof.
  intros m st H. unfold set_status. cbv zeta. unfold set_beats, set_bend. cbn [m_type m_b0 m_b1 m_b2].
  assert (0 <= Z.land st 15 < 256).
  { split; [apply Z.land_nonneg; lia|]. change 15 with (Z.ones 4). rewrite Z.land_ones by lia.
    pose proof (Z.mod_pos_bound st (2 ^ 4)). lia. }
  destruct (negb _); unfold bytes_ok; cbn; lia.
Qed.
Lemma bytes_data1 : forall m d, 0 <= d < 256 -> bytes_ok m -> bytes_ok (set_data1 m d).
Proof.
  intros m d D (A & B & C). pose proof (bytes16 d) as (P & Q). unfold set_data1, set_bend, set_beats. cbv zeta.
  repeat match goal with |- context[if ?c then _ else _] => destruct c end; repeat split; cbn [m_b0 m_b1 m_b2]; lia.
Qed.
Lemma bytes_data2 : forall m d, 0 <= d < 256 -> bytes_ok m -> bytes_ok (set_data2 m d).
Proof.
  intros m d D (A & B & C). unfold set_data2, set_bend, set_beats. cbv zeta.
  pose proof (bytes16 (Z.lor (m_bend m) (Z.shiftl d 7))) as (P & Q).
  pose proof (bytes16 (Z.lor (m_beats m) (Z.shiftl d 7))) as (P' & Q').
  repeat match goal with |- context[if ?c then _ else _] => destruct c end; repeat split; cbn [m_b0 m_b1 m_b2]; lia.
Qed.

Definition made (st d1 d2 : Z) : message :=
  let m := set_data1 (set_status m_new st) d1 in if data_count st =? 2 then set_data2 m d2 else m.
Lemma made_valid : forall st d1 d2, has_data st -> data_byte d1 -> data_byte d2 -> msg_valid (made st d1 d2).
Proof.
  intros st d1 d2 H D1 D2. pose proof (has_data_range st H) as R. pose proof (message_fields_l m_new st d1 d2 H D1 D2) as F.
  cbv zeta in F. fold (made st d1 d2) in F. destruct F as (F1 & F2 & _ & _ & F5 & _).
  assert (B : bytes_ok (made st d1 d2)).
  { unfold data_byte in *. unfold made. cbv zeta. destruct (data_count st =? 2);
      repeat (apply bytes_data2; [lia|]); (apply bytes_data1; [lia|]); apply bytes_status; exact R. }
  set (m := made st d1 d2) in *. clearbody m. destruct B as (B0 & B1 & B2). unfold m_channel, m_velocity in *.
  destruct H as [H|H].
  - left. exists (st / 16). rewrite F1. replace (st <? 240) with true by (clear - H; lia).
    assert (Q : 8 <= st / 16 <= 14).
    { clear - H. split; [apply Z.div_le_lower_bound; lia|]. assert (st / 16 < 15) by (apply Z.div_lt_upper_bound; lia). lia. }
    split; [exact Q|]. split; [reflexivity|]. rewrite F2 by (clear - H; lia).
    split; [apply Z.mod_pos_bound; lia|]. split; [exact B1|]. split; [exact B2|].
    intros E. rewrite F5; [unfold data_byte in D1; clear - D1; lia|].
    pose proof (Z.div_mod st 16 ltac:(lia)). pose proof (Z.mod_pos_bound st 16 ltac:(lia)). rewrite E in *. lia.
  - right. rewrite F1. replace (st <? 240) with false by (clear - H; lia). auto.
Qed.
Lemma made_seen : forall st d1 d2, has_data st -> data_byte d1 -> data_byte d2 ->
  w_seen (WMessage (made st d1 d2)) = RMsg st d1 (if data_count st =? 2 then d2 else 0).
Proof.
  intros st d1 d2 H D1 D2.
  assert (OK : layout_ok lay_avr) by (unfold layout_ok; cbn; lia).
  pose proof (build_agrees lay_avr OK m_new (fun _ => 0) st d1 d2 H D1 D2) as A. change (agrees lay_avr (made st d1 d2) (lbuild lay_avr (fun _ => 0) st d1 d2)) in A.
  pose proof (lroundtrip_l lay_avr OK (fun _ => 0) st d1 d2 H D1 D2) as G. cbv zeta in G.
  destruct (agrees_get lay_avr _ _ A) as (G1 & G2 & G3). destruct G as (K1 & K2 & K3 & K4 & _). destruct A as (T & _).
  cbn [w_seen]. rewrite <- G1, <- G2, <- G3, <- T, K1, K2, K3, K4. clear - H.
  replace (246 <=? (if st <? 240 then 16 * (st / 16) else st)) with false; [reflexivity|].
  pose proof (Z.div_mod st 16 ltac:(lia)). pose proof (Z.mod_pos_bound st 16 ltac:(lia)). destruct H; destruct (st <? 240); lia.
Qed.

Lemma link_l : forall A B msgs f, layout_ok A -> layout_ok B ->
  Forall (fun m => has_data (fst (fst m)) /\ data_byte (snd (fst m)) /\ data_byte (snd m)) msgs ->
  forall mems, length mems = length msgs ->
  map (lseen B) (concat (snd (lread_all B (lr_init B f)
    (lwrite_all A 0 (map (fun p => lbuild A (fst p) (fst (fst (snd p))) (snd (fst (snd p))) (snd (snd p))) (combine mems msgs)))))) =
  map (fun m => RMsg (fst (fst m)) (snd (fst m)) (if data_count (fst (fst m)) =? 2 then snd m else 0)) msgs.
Proof.
  intros A B msgs f OA OB F mems Lm.
  set (ms := map (fun m => made (fst (fst m)) (snd (fst m)) (snd m)) msgs).
  assert (G : Forall2 (agrees A) ms (map (fun p => lbuild A (fst p) (fst (fst (snd p))) (snd (fst (snd p))) (snd (snd p))) (combine mems msgs))).
  { unfold ms. clear f ms OB B. revert mems Lm. induction F as [|m msgs (H & D1 & D2) F IH]; intros mems Lm.
    - destruct mems; [constructor|discriminate].
    - destruct mems as [|e mems]; [discriminate|]. cbn [combine map fst snd]. constructor.
      + apply (build_agrees A OA m_new e _ _ _ H D1 D2).
      + apply IH. cbn in Lm. lia. }
  rewrite (write_all_agrees A ms _ 0 G).
  assert (V : Forall w_valid (map WMessage ms)).
  { unfold ms. rewrite map_map. apply Forall_map. apply Forall_forall. intros m I. rewrite Forall_forall in F.
    destruct (F m I) as (H & D1 & D2). left. apply made_valid; assumption. }
  destruct (writer_legal_l _ V) as (s & t & S & W & E & _).
  assert (BY : Forall (fun b => 0 <= b < 256) (write_all 0 (map WMessage ms))) by (rewrite <- E; exact (stream_bytes_l s t S W)).
  rewrite concat_map. rewrite <- (read_agrees B OB _ r_init (lr_init B f) BY (init_agrees B OB f)).
  rewrite <- concat_map. rewrite (writer_reader_l _ V). unfold ms. rewrite !map_map.
  apply map_ext_in. intros m I. rewrite Forall_forall in F. destruct (F m I) as (H & D1 & D2). apply made_seen; assumption.
Qed.
