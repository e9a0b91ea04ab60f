(** Program memory: reading back what was stored. *)
Require Import ZArith List Bool Lia ZifyBool.
Import ListNotations.
From Verif Require Import Base BaseFacts ArrayModel RealModel FlashModel FlashSpec ArrayProofs.
Open Scope Z_scope.

Lemma byte4 : forall v, u32 (v mod 256 + 256 * (v / 256 mod 256) + 65536 * (v / 65536 mod 256 + 256 * (v / 16777216 mod 256))) = u32 v.
Proof.
  intros v. unfold u32.
  assert (E : v = v mod 256 + 256 * (v / 256 mod 256) + 65536 * (v / 65536 mod 256 + 256 * (v / 16777216 mod 256)) + 4294967296 * (v / 4294967296)).
  { replace (v / 65536) with (v / 256 / 256) by (rewrite Z.div_div by lia; reflexivity).
    replace (v / 16777216) with (v / 256 / 256 / 256) by (rewrite !Z.div_div by lia; reflexivity).
    replace (v / 4294967296) with (v / 256 / 256 / 256 / 256) by (rewrite !Z.div_div by lia; reflexivity).
    pose proof (Z.div_mod v 256 ltac:(lia)) as E0. set (a := v / 256) in *.
    pose proof (Z.div_mod a 256 ltac:(lia)) as E1. set (b := a / 256) in *.
    pose proof (Z.div_mod b 256 ltac:(lia)) as E2. set (c := b / 256) in *.
    pose proof (Z.div_mod c 256 ltac:(lia)) as E3. set (d := c / 256) in *.
    clearbody a b c d. generalize dependent (v mod 256). generalize dependent (a mod 256). generalize dependent (b mod 256). generalize dependent (c mod 256).
    clear. intros. lia. }
  rewrite E at 5. symmetry. rewrite (Z.mul_comm 4294967296). apply Z.mod_add. lia.
Qed.
Lemma byte2 : forall v, u16 (v mod 256 + 256 * (v / 256 mod 256)) = u16 v.
Proof.
  intros v. unfold u16.
  assert (E : v = v mod 256 + 256 * (v / 256 mod 256) + 65536 * (v / 65536)).
  { replace (v / 65536) with (v / 256 / 256) by (rewrite Z.div_div by lia; reflexivity).
    pose proof (Z.div_mod v 256 ltac:(lia)) as E0. set (a := v / 256) in *.
    pose proof (Z.div_mod a 256 ltac:(lia)) as E1. set (b := a / 256) in *.
    clearbody a b. generalize dependent (v mod 256). generalize dependent (a mod 256). clear. intros. lia. }
  rewrite E at 3. symmetry. rewrite (Z.mul_comm 65536). apply Z.mod_add. lia.
Qed.

Lemma conv_id : forall t v, in_type t v -> conv t v = v.
Proof.
  intros t v H. unfold in_type in H.
  change (2 ^ 8) with 256 in H. change (2 ^ 7) with 128 in H. change (2 ^ 16) with 65536 in H.
  change (2 ^ 15) with 32768 in H. change (2 ^ 32) with 4294967296 in H. change (2 ^ 31) with 2147483648 in H.
  destruct t; cbn [conv].
  - apply u8_small; lia.
  - apply s8_small; lia.
  - apply u16_small; lia.
  - apply s16_small; lia.
  - apply u32_small; lia.
  - apply s32_small; lia.
  - apply u32_small; lia.
Qed.
Lemma s16_u16 : forall x y, u16 x = u16 y -> s16 x = s16 y.
Proof. intros x y H. unfold s16. unfold u16 in H. rewrite H. reflexivity. Qed.
Lemma s32_u32 : forall x y, u32 x = u32 y -> s32 x = s32 y.
Proof. intros x y H. unfold s32. unfold u32 in H. rewrite H. reflexivity. Qed.
Lemma s8_u8 : forall x y, u8 x = u8 y -> s8 x = s8 y.
Proof. intros x y H. unfold s8. unfold u8 in H. rewrite H. reflexivity. Qed.

Lemma size_width : forall t, size_of t = width t.
Proof. intros []; reflexivity. Qed.
Lemma pm_read_l : forall flash t a v, 0 <= a -> a + width t <= 65536 -> in_type t v -> stored flash a t v ->
  pm_read flash t a = v.
Proof.
  intros flash t a v A0 A1 V S1. rewrite <- (conv_id t v V).
  assert (B : forall k, 0 <= k < width t -> pgm_byte flash (a + k) = v / 2 ^ (8 * k) mod 256).
  { intros k K. unfold pgm_byte. rewrite u16_small by lia. apply S1. exact K. }
  assert (B0 : pgm_byte flash a = v mod 256).
  { replace a with (a + 0) by lia. rewrite B by (destruct t; cbn; lia). change (2 ^ (8 * 0)) with 1. rewrite Z.div_1_r. reflexivity. }
  assert (M : u8 (v mod 256) = u8 v) by (unfold u8; apply Z.mod_mod; lia).
  unfold pm_read. destruct t; cbn [conv width] in *; unfold pgm_dword, pgm_word.
  - rewrite B0. exact M.
  - rewrite B0. apply s8_u8. exact M.
  - rewrite B0, B by lia. change (2 ^ (8 * 1)) with 256. apply byte2.
  - rewrite B0, B by lia. change (2 ^ (8 * 1)) with 256. apply s16_u16, byte2.
  - rewrite B0. replace (a + 2 + 1) with (a + 3) by lia. rewrite !B by lia. change (2 ^ (8 * 1)) with 256. change (2 ^ (8 * 2)) with 65536. change (2 ^ (8 * 3)) with 16777216. apply byte4.
  - rewrite B0. replace (a + 2 + 1) with (a + 3) by lia. rewrite !B by lia. change (2 ^ (8 * 1)) with 256. change (2 ^ (8 * 2)) with 65536. change (2 ^ (8 * 3)) with 16777216. apply s32_u32, byte4.
  - rewrite B0. replace (a + 2 + 1) with (a + 3) by lia. rewrite !B by lia. change (2 ^ (8 * 1)) with 256. change (2 ^ (8 * 2)) with 65536. change (2 ^ (8 * 3)) with 16777216. apply byte4.
Qed.

Lemma fl_get_l : forall flash t dflt a items i, 0 <= a -> a + Z.of_nat (length items) * width t <= 65536 ->
  Forall (in_type t) items -> laid_out flash a t items ->
  fl_get flash t dflt (Z.of_nat (length items)) a i = (if (0 <=? i) && (i <? Z.of_nat (length items)) then nth (Z.to_nat i) items dflt else dflt).
Proof.
  intros flash t dflt a items i A0 A1 F L. unfold fl_get, st_valid. rewrite size_width.
  replace (i >=? 0) with (0 <=? i) by lia. destruct ((0 <=? i) && (i <? Z.of_nat (length items))) eqn:E; [|reflexivity].
  assert (P : (Z.to_nat i < length items)%nat) by lia.
  destruct (nth_error items (Z.to_nat i)) as [v|] eqn:N; [|apply nth_error_None in N; lia].
  rewrite (nth_error_nth _ _ _ N). pose proof (L _ _ N) as S1. rewrite Z2Nat.id in S1 by lia.
  assert (SZ : 1 <= width t <= 4) by (destruct t; cbn; lia).
  assert (R : 0 <= i * width t /\ (i + 1) * width t <= Z.of_nat (length items) * width t).
  { split; [apply Z.mul_nonneg_nonneg; lia|]. apply Z.mul_le_mono_nonneg_r; lia. }
  rewrite Z.mul_add_distr_r in R.
  rewrite u16_small by lia. apply pm_read_l; [lia|lia| |exact S1].
  eapply Forall_forall; [exact F|]. eapply nth_error_In. exact N.
Qed.

(** ** Strings *)
Lemma copy_zeros : forall flash n cap target str i, 0 <= i -> i + Z.of_nat n <= cap ->
  exists m, strncpy_loop flash cap target str i true n = Some m /\
    (forall j, m j = if (i <=? j) && (j <? i + Z.of_nat n) then 0 else target j).
Proof.
  intros flash. induction n as [|n IH]; intros cap target str i I0 I1; cbn [strncpy_loop].
  - exists target. split; [reflexivity|]. intros j. replace ((i <=? j) && (j <? i + Z.of_nat 0)) with false by lia. reflexivity.
  - assert (B : inb i cap = true) by (apply inb_true; lia). rewrite B. cbn [Z.eqb].
    destruct (IH cap (upd target i 0) str (i + 1) ltac:(lia) ltac:(lia)) as (m & E & M). exists m. split; [exact E|].
    intros j. rewrite M. unfold upd. destruct (Z.eqb_spec j i) as [->|N].
    + replace ((i + 1 <=? i) && (i <? i + 1 + Z.of_nat n)) with false by lia.
      replace ((i <=? i) && (i <? i + Z.of_nat (S n))) with true by lia. reflexivity.
    + replace ((i + 1 <=? j) && (j <? i + 1 + Z.of_nat n)) with ((i <=? j) && (j <? i + Z.of_nat (S n))) by lia. reflexivity.
Qed.
Lemma copy_string : forall flash n cap target str i s, 0 <= i -> i + Z.of_nat n <= cap -> 0 <= str ->
  str + i + Z.of_nat (length s) < 65536 -> c_string flash (str + i) s ->
  exists m, strncpy_loop flash cap target str i false n = Some m /\
    (forall j, m j = if (i <=? j) && (j <? i + Z.of_nat n) then nth (Z.to_nat (j - i)) s 0 else target j).
Proof.
  intros flash. induction n as [|n IH]; intros cap target str i s I0 I1 S0 S1 (F & C & Z0); cbn [strncpy_loop].
  - exists target. split; [reflexivity|]. intros j. replace ((i <=? j) && (j <? i + Z.of_nat 0)) with false by lia. reflexivity.
  - assert (B : inb i cap = true) by (apply inb_true; lia). rewrite B.
    unfold pgm_byte. rewrite u16_small by lia. destruct s as [|c s].
    + cbn [length Z.of_nat] in Z0. rewrite Z.add_0_r in Z0. rewrite Z0. cbn [Z.eqb].
      destruct (copy_zeros flash n cap (upd target i 0) str (i + 1) ltac:(lia) ltac:(lia)) as (m & E & M). exists m. split; [exact E|].
      intros j. rewrite M. unfold upd. destruct (Z.eqb_spec j i) as [->|N].
      * replace ((i + 1 <=? i) && (i <? i + 1 + Z.of_nat n)) with false by lia.
        replace ((i <=? i) && (i <? i + Z.of_nat (S n))) with true by lia. destruct (Z.to_nat (i - i)); reflexivity.
      * replace ((i + 1 <=? j) && (j <? i + 1 + Z.of_nat n)) with ((i <=? j) && (j <? i + Z.of_nat (S n))) by lia.
        destruct (Z.to_nat (j - i)); reflexivity.
    + cbn [length cells] in *. injection C as C0 C1. rewrite C0. inversion F as [|? ? Fc Fs]; subst.
      replace (flash (str + i) =? 0) with false by lia.
      destruct (IH cap (upd target i (flash (str + i))) str (i + 1) s ltac:(lia) ltac:(lia) S0 ltac:(lia)) as (m & E & M).
      { split; [exact Fs|]. split; [rewrite Z.add_assoc; exact C1|]. rewrite <- Z0. f_equal. lia. }
      exists m. split; [exact E|]. intros j. rewrite M. unfold upd. destruct (Z.eqb_spec j i) as [->|N].
      * replace ((i + 1 <=? i) && (i <? i + 1 + Z.of_nat n)) with false by lia.
        replace ((i <=? i) && (i <? i + Z.of_nat (S n))) with true by lia. rewrite Z.sub_diag. reflexivity.
      * replace ((i + 1 <=? j) && (j <? i + 1 + Z.of_nat n)) with ((i <=? j) && (j <? i + Z.of_nat (S n))) by lia.
        destruct ((i <=? j) && (j <? i + Z.of_nat (S n))) eqn:Q; [|reflexivity].
        replace (Z.to_nat (j - i)) with (S (Z.to_nat (j - (i + 1)))) by lia. reflexivity.
Qed.

Lemma text_some : forall s rest, Forall (fun c => 1 <= c < 256) s -> text_of (s ++ 0 :: rest) = Some s.
Proof.
  induction s as [|c s IH]; intros rest F; [reflexivity|]. inversion F; subst. cbn [app text_of].
  replace (c =? 0) with false by lia. rewrite IH by assumption. reflexivity.
Qed.
Lemma text_none : forall s, Forall (fun c => 1 <= c < 256) s -> text_of s = None.
Proof.
  induction s as [|c s IH]; intros F; [reflexivity|]. inversion F; subst. cbn [text_of].
  replace (c =? 0) with false by lia. rewrite IH by assumption. reflexivity.
Qed.
Lemma cells_nth : forall (m : Z -> Z) s n i, (forall j, 0 <= j < Z.of_nat n -> m (i + j) = nth (Z.to_nat j) s 0) ->
  cells m i n = firstn n s ++ repeat 0 (n - length s).
Proof.
  intros m s n. revert s. induction n as [|n IH]; intros s i H; [reflexivity|]. cbn [cells].
  assert (H0 : m i = nth 0 s 0) by (pose proof (H 0 ltac:(lia)) as H0; rewrite Z.add_0_r in H0; exact H0).
  destruct s as [|c s].
  - cbn [firstn length app nth] in *. rewrite Nat.sub_0_r. cbn [repeat]. rewrite H0. f_equal.
    rewrite (IH [] (i + 1)); [cbn [length]; rewrite Nat.sub_0_r; destruct n; reflexivity|].
    intros j J. rewrite <- Z.add_assoc, H by lia. destruct (Z.to_nat (1 + j)), (Z.to_nat j); reflexivity.
  - cbn [firstn length app nth Nat.sub] in *. rewrite H0. f_equal. apply IH. intros j J. rewrite <- Z.add_assoc, H by lia.
    replace (Z.to_nat (1 + j)) with (S (Z.to_nat j)) by lia. reflexivity.
Qed.

Lemma string_read_l : forall flash cap target str n s, 0 <= n <= cap -> 0 <= str -> str + Z.of_nat (length s) < 65536 ->
  c_string flash str s ->
  exists m, string_read flash cap target str n = Some m /\
    cells m 0 (Z.to_nat n) = firstn (Z.to_nat n) s ++ repeat 0 (Z.to_nat n - length s) /\
    (forall j, ~ (0 <= j < n) -> m j = target j) /\
    text_of (cells m 0 (Z.to_nat n)) = if Z.of_nat (length s) <? n then Some s else None.
Proof.
  intros flash cap target str n s N S0 S1 C.
  destruct (copy_string flash (Z.to_nat n) cap target str 0 s ltac:(lia) ltac:(lia) S0 ltac:(lia)) as (m & E & M).
  { rewrite Z.add_0_r. exact C. }
  exists m. split; [exact E|].
  assert (CE : cells m 0 (Z.to_nat n) = firstn (Z.to_nat n) s ++ repeat 0 (Z.to_nat n - length s)).
  { apply cells_nth. intros j J. rewrite M. replace ((0 <=? 0 + j) && (0 + j <? 0 + Z.of_nat (Z.to_nat n))) with true by lia.
    f_equal. lia. }
  split; [exact CE|]. split.
  - intros j J. rewrite M. replace ((0 <=? j) && (j <? 0 + Z.of_nat (Z.to_nat n))) with false by lia. reflexivity.
  - rewrite CE. destruct C as (F & _). destruct (Z.of_nat (length s) <? n) eqn:Q.
    + rewrite firstn_all2 by lia. destruct (Z.to_nat n - length s)%nat eqn:D; [lia|]. cbn [repeat]. apply text_some. exact F.
    + replace (Z.to_nat n - length s)%nat with 0%nat by lia. cbn [repeat]. rewrite app_nil_r. apply text_none.
      apply Forall_forall. intros x I. rewrite Forall_forall in F. apply F. 
      rewrite <- (firstn_skipn (Z.to_nat n) s). apply in_or_app. auto.
Qed.

Lemma far_l : exists flash a items, 65536 <= a /\ Forall (in_type U8) items /\ laid_out flash a U8 items /\
  fl_get flash U8 0 (Z.of_nat (length items)) (u16 a) 0 <> nth 0 items 0.
Proof.
  exists (fun a => if a =? 65536 then 7 else 0), 65536, [7]. split; [lia|]. split; [repeat constructor; cbn; lia|]. split.
  - intros [|[|i]] v E; try discriminate. injection E as <-. intros k K. cbn [width] in K. replace k with 0 by lia. reflexivity.
  - vm_compute. discriminate.
Qed.

Lemma fl_index_l : forall flash t dflt a items item fuel, 0 <= a -> a + Z.of_nat (length items) * width t <= 65536 ->
  t <> Float -> Forall (in_type t) items -> laid_out flash a t items -> (length items <= 127)%nat -> (length items < fuel)%nat ->
  exists r, fl_index_of flash t dflt (Z.of_nat (length items)) a item fuel = Some r /\
    ((r = -1 /\ ~ In item items) \/
     (0 <= r < Z.of_nat (length items) /\ nth_error items (Z.to_nat r) = Some item /\ ~ In item (firstn (Z.to_nat r) items))).
Proof.
  intros flash t dflt a items item fuel A0 A1 _ F L N FU.
  assert (K : forall k i, Z.of_nat (length items) - i < Z.of_nat k -> 0 <= i <= Z.of_nat (length items) -> ~ In item (firstn (Z.to_nat i) items) ->
    exists r, st_index_loop Z.eqb dflt (Z.of_nat (length items)) (fun i => fl_get flash t dflt (Z.of_nat (length items)) a i) item i k = Some r /\
    ((r = -1 /\ ~ In item items) \/
     (0 <= r < Z.of_nat (length items) /\ nth_error items (Z.to_nat r) = Some item /\ ~ In item (firstn (Z.to_nat r) items)))).
  { induction k as [|k IH]; intros i I0 I1 NI; [lia|]. cbn [st_index_loop].
    destruct (Z.ltb_spec i (Z.of_nat (length items))) as [I2|I2].
    - unfold st_get. rewrite (fl_get_l flash t dflt a items i A0 A1 F L). unfold st_valid.
      replace (i >=? 0) with true by lia. replace (0 <=? i) with true by lia. replace (i <? Z.of_nat (length items)) with true by lia. cbn [andb].
      destruct (nth_error items (Z.to_nat i)) as [v|] eqn:NE; [|apply nth_error_None in NE; lia].
      rewrite (nth_error_nth _ _ _ NE). destruct (Z.eqb_spec v item) as [->|NV].
      + rewrite s8_small by lia. exists i. split; [reflexivity|]. right. split; [lia|]. auto.
      + rewrite u8_small by lia. apply IH; [lia|lia|]. replace (Z.to_nat (i + 1)) with (S (Z.to_nat i)) by lia.
        assert (FS : firstn (S (Z.to_nat i)) items = firstn (Z.to_nat i) items ++ [v]).
        { clear - NE. revert NE. generalize (Z.to_nat i). intros k. revert items. induction k as [|k IH]; intros [|x l] NE; cbn [nth_error firstn app] in *; try discriminate.
          - injection NE as ->. reflexivity.
          - f_equal. apply IH. exact NE. }
        rewrite FS. intros I3. apply in_app_or in I3. destruct I3 as [I3|[I3|[]]]; auto.
    - exists (-1). split; [reflexivity|]. left. split; [reflexivity|]. rewrite firstn_all2 in NI by lia. exact NI. }
  unfold fl_index_of, st_index_of. apply K; [lia|lia|]. intros [].
Qed.

Lemma rne_nonneg : forall n d, 0 <= n -> 0 < d -> 0 <= rne n d.
Proof.
  intros n d N D. unfold rne. pose proof (Z.div_pos n d N D).
  destruct (2 * (n mod d) <? d); [|destruct (d <? 2 * (n mod d)); [|destruct (Z.even (n / d))]]; lia.
Qed.
Lemma fl_int_nonneg : forall p s i, 0 <= i -> 0 <= fl_int p s i.
Proof.
  intros p s i I. unfold fl_int, fl. apply Z.mul_nonneg_nonneg; [|apply Z.pow_nonneg; lia].
  apply rne_nonneg; [apply Z.mul_nonneg_nonneg; [exact I|apply Z.pow_nonneg; lia]|].
  rewrite Z.mul_1_l. apply Z.pow_pos_nonneg; [lia|]. unfold spacing. lia.
Qed.
Lemma double_l : forall flash a, (forall k, 0 <= flash k < 256) -> 0 <= pm_read_double flash a.
Proof.
  intros flash a F. unfold pm_read_double. apply fl_int_nonneg. unfold pgm_dword, pgm_word, pgm_byte.
  pose proof (F (u16 a)). pose proof (F (u16 (a + 1))). pose proof (F (u16 (a + 2))). pose proof (F (u16 (a + 2 + 1))). lia.
Qed.
