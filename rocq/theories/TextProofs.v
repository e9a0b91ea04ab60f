Require Import ZArith List Bool Lia ZifyBool.
Import ListNotations.
From Verif Require Import Base BaseFacts TextModel TextSpec.
Open Scope Z_scope.

Lemma digit_value_char : forall d, 0 <= d < 36 -> digit_value (digit_char d) = d.
Proof. intros d H. unfold digit_value, digit_char. destruct (d <? 10) eqn:E; destruct (_ <? 65) eqn:E2; lia. Qed.

Lemma value_snoc : forall b s c, value b (s ++ [c]) = value b s * b + digit_value c.
Proof. intros. unfold value. rewrite fold_left_app. reflexivity. Qed.

Lemma digit_range : forall b c, 2 <= b <= 36 -> is_digit b c -> 0 <= digit_value c < b.
Proof. intros b c Hb (d & Hd & ->). rewrite digit_value_char; lia. Qed.
Lemma digit_inj : forall b c c', 2 <= b <= 36 -> is_digit b c -> is_digit b c' -> digit_value c = digit_value c' -> c = c'.
Proof.
  intros b c c' Hb (d & Hd & ->) (d' & Hd' & ->) E. rewrite !digit_value_char in E by lia. congruence.
Qed.

Lemma value_nonneg : forall b s, 2 <= b <= 36 -> Forall (is_digit b) s -> 0 <= value b s.
Proof.
  intros b s Hb. induction s as [|c s IH] using rev_ind; intros F.
  - cbn. lia.
  - apply Forall_app in F. destruct F as [F1 F2]. inversion F2; subst.
    rewrite value_snoc. pose proof (digit_range b c Hb H1). specialize (IH F1). nia.
Qed.

Lemma digit_zero : forall b c, 2 <= b <= 36 -> is_digit b c -> digit_value c = 0 -> c = 48.
Proof. intros b c Hb (d & Hd & ->) E. rewrite digit_value_char in E by lia. subst d. reflexivity. Qed.

(** The value of a digit list that does not start with zero is positive. *)
Lemma value_pos : forall b s, 2 <= b <= 36 -> Forall (is_digit b) s -> s <> [] -> hd 0 s <> 48 -> 1 <= value b s.
Proof.
  intros b s Hb. induction s as [|c s IH] using rev_ind; intros F N L; [congruence|].
  apply Forall_app in F. destruct F as [F1 F2]. inversion F2; subst. rewrite value_snoc.
  pose proof (digit_range b c Hb H1) as R. destruct s as [|x s].
  - cbn in *. assert (digit_value c <> 0) by (intros Z0; apply L; apply (digit_zero b); auto). lia.
  - specialize (IH F1 ltac:(discriminate) L). nia.
Qed.

Lemma radix_inj : forall b x d x' d', 0 <= d < b -> 0 <= d' < b -> x * b + d = x' * b + d' -> x = x' /\ d = d'.
Proof.
  intros b x d x' d' H H' E.
  assert (x = x') by (assert (x < x' \/ x = x' \/ x' < x) as [K|[K|K]] by lia; [exfalso|exact K|exfalso]; nia).
  subst. lia.
Qed.

Lemma numeral_unique : forall b s s' v, 2 <= b <= 36 -> numeral b v s -> numeral b v s' -> s = s'.
Proof.
  intros b s s' v Hb. revert s' v. induction s as [|c s IH] using rev_ind; intros s' v (N & F & L & V) (N' & F' & L' & V').
  - congruence.
  - destruct s' as [|c' s' _] using rev_ind; [congruence|].
    apply Forall_app in F. destruct F as [F1 F2]. apply Forall_app in F'. destruct F' as [F1' F2'].
    inversion F2 as [|? ? D _]; subst. inversion F2' as [|? ? D' _]; subst.
    rewrite !value_snoc in V'.
    pose proof (digit_range b c Hb D) as R. pose proof (digit_range b c' Hb D') as R'.
    assert (value b s = value b s' /\ digit_value c = digit_value c') as [Ev Ed] by (apply (radix_inj b); auto).
    assert (c = c') by (apply (digit_inj b); auto). subst c'.
    destruct s as [|x s]; destruct s' as [|x' s'].
    + reflexivity.
    + exfalso. cbn [value fold_left] in Ev.
      assert (1 <= value b (x' :: s')).
      { apply value_pos; auto; [discriminate|]. cbn. intros ->. specialize (L' eq_refl). destruct s'; discriminate. }
      unfold value in *. cbn [fold_left] in *. lia.
    + exfalso.
      assert (1 <= value b (x :: s)).
      { apply value_pos; auto; [discriminate|]. cbn. intros ->. specialize (L eq_refl). destruct s; discriminate. }
      unfold value in *. cbn [fold_left] in *. lia.
    + f_equal. apply (IH (x' :: s') (value b (x :: s))).
      * repeat split; auto; [discriminate|]. cbn. intros ->. specialize (L eq_refl). destruct s; discriminate.
      * repeat split; auto; [discriminate|]. cbn. intros ->. specialize (L' eq_refl). destruct s'; discriminate.
Qed.

(** ** The loop *)
Lemma digit_code : forall w b v, 2 <= b <= 36 -> 0 <= v -> 8 <= w ->
  let c := s8 ((v - b * (v / b)) mod 2 ^ w) in
  s8 (if c <? 10 then c + 48 else c + 65 - 10) = digit_char (v mod b).
Proof.
  intros w b v Hb Hv Hw c.
  assert (P : 2 ^ 8 <= 2 ^ w) by (apply Z.pow_le_mono_r; lia). change (2 ^ 8) with 256 in P.
  assert (E : v - b * (v / b) = v mod b) by (rewrite Z.mod_eq by lia; lia).
  assert (R : 0 <= v mod b < b) by (apply Z.mod_pos_bound; lia).
  assert (C : c = v mod b).
  { unfold c. rewrite E. rewrite Z.mod_small by lia. apply s8_small. lia. }
  rewrite C. unfold digit_char. destruct (v mod b <? 10) eqn:D; rewrite s8_small by lia; lia.
Qed.

Fixpoint digits (fuel : nat) (b v : Z) : list Z :=
  match fuel with
  | O => []
  | S k => (if v / b =? 0 then [] else digits k b (v / b)) ++ [digit_char (v mod b)]
  end.

Lemma wi_loop_l : forall fuel w b buf pos v, 2 <= b <= 36 -> 0 <= v -> 8 <= w -> 0 <= pos -> pos < Z.of_nat fuel ->
  1 <= pos \/ 1 <= v ->
  if v <? b ^ pos
  then exists buf', wi_loop fuel w b buf pos v = Some (buf', pos - Z.of_nat (length (digits fuel b v))) /\
       0 <= pos - Z.of_nat (length (digits fuel b v)) /\
       cells buf' (pos - Z.of_nat (length (digits fuel b v))) (length (digits fuel b v)) = digits fuel b v /\
       (forall i, pos <= i -> buf' i = buf i) /\
       numeral b v (digits fuel b v)
  else wi_loop fuel w b buf pos v = None.
Proof.
  induction fuel as [|k IH]; intros w b buf pos v Hb Hv Hw Hp Hf H1; [lia|].
  pose proof (digit_code w b v Hb Hv Hw) as DC. cbv zeta in DC.
  cbn [wi_loop digits]. cbv zeta. rewrite DC.
  set (c := digit_char (v mod b)).
  assert (R : 0 <= v mod b < b) by (apply Z.mod_pos_bound; lia).
  assert (Dc : is_digit b c) by (exists (v mod b); split; [exact R|reflexivity]).
  assert (Vc : digit_value c = v mod b) by (apply digit_value_char; lia).
  assert (Q : 0 <= v / b) by (apply Z.div_pos; lia).
  assert (VQ : v = b * (v / b) + v mod b) by (apply Z.div_mod; lia).
  destruct (pos - 1 <? 0) eqn:P0.
  - assert (pos = 0) by lia. subst pos. change (b ^ 0) with 1.
    replace (v <? 1) with false by lia. reflexivity.
  - assert (PW : b ^ pos = b * b ^ (pos - 1)).
    { rewrite <- Z.pow_succ_r by lia. f_equal. lia. }
    assert (PP : 0 < b ^ (pos - 1)) by (apply Z.pow_pos_nonneg; lia).
    assert (LT : (v <? b ^ pos) = (v / b <? b ^ (pos - 1))).
    { rewrite PW. destruct (v / b <? b ^ (pos - 1)) eqn:E.
      - assert (v / b <= b ^ (pos - 1) - 1) by lia. assert (v < b * b ^ (pos - 1)) by nia. lia.
      - assert (b ^ (pos - 1) <= v / b) by lia. assert (b * b ^ (pos - 1) <= v) by nia. lia. }
    rewrite LT. destruct (v / b =? 0) eqn:Z0.
    + assert (Vz : v / b = 0) by lia. rewrite Vz. replace (0 <? b ^ (pos - 1)) with true by lia.
      exists (upd buf (pos - 1) c). cbn [app length Z.of_nat Pos.of_succ_nat cells].
      split; [reflexivity|]. split; [lia|]. split; [rewrite upd_same; reflexivity|].
      split; [intros i Hi; apply upd_other; lia|].
      split; [discriminate|]. split; [constructor; [exact Dc|constructor]|]. split.
      * cbn. intros ->. reflexivity.
      * change [c] with ([] ++ [c]). rewrite value_snoc, Vc. cbn [value fold_left]. unfold value. cbn [fold_left]. lia.
    + specialize (IH w b (upd buf (pos - 1) c) (pos - 1) (v / b) Hb Q Hw ltac:(lia) ltac:(lia) ltac:(right; lia)).
      destruct (v / b <? b ^ (pos - 1)) eqn:E; [|exact IH].
      destruct IH as (buf' & I1 & I2 & I3 & I4 & I5).
      set (ds := digits k b (v / b)) in *.
      assert (Len : length (ds ++ [c]) = S (length ds)) by (rewrite app_length; cbn; lia).
      assert (Pe : pos - Z.of_nat (length (ds ++ [c])) = pos - 1 - Z.of_nat (length ds)) by lia.
      exists buf'. rewrite Pe, Len. split; [exact I1|]. split; [exact I2|].
      split.
      { rewrite cells_snoc, I3. f_equal.
        replace (pos - 1 - Z.of_nat (length ds) + Z.of_nat (length ds)) with (pos - 1) by lia.
        rewrite I4 by lia. rewrite upd_same. reflexivity. }
      split; [intros i Hi; rewrite I4 by lia; apply upd_other; lia|].
      destruct I5 as (N & F & L & V).
      split; [destruct ds; discriminate|].
      split; [apply Forall_app; split; [exact F|constructor; [exact Dc|constructor]]|].
      split.
      { intros Hh. exfalso. destruct ds as [|x ds']; [congruence|]. cbn in Hh. subst x.
        specialize (L eq_refl). rewrite L in V. cbn in V. unfold value in V. cbn in V. lia. }
      rewrite value_snoc, V, Vc. lia.
Qed.

Lemma digit_nonzero : forall b c, 2 <= b <= 36 -> is_digit b c -> c <> 0.
Proof. intros b c Hb (d & Hd & ->). unfold digit_char. destruct (d <? 10) eqn:?; lia. Qed.

Lemma str_out_l : forall s buf pos n, cells buf pos (length s) = s -> Forall (fun c => c <> 0) s ->
  buf (pos + Z.of_nat (length s)) = 0 -> (length s < n)%nat -> str_out n buf pos = Some s.
Proof.
  induction s as [|c s IH]; intros buf pos n C F Z0 L; (destruct n as [|n]; [cbn in L; lia|]).
  - cbn [length Z.of_nat] in Z0. rewrite Z.add_0_r in Z0. cbn. rewrite Z0. reflexivity.
  - cbn [cells length] in C. injection C as C1 C2. inversion F; subst.
    cbn [str_out]. replace (buf pos =? 0) with false by lia.
    rewrite (IH buf (pos + 1) n); auto.
    + replace (pos + 1 + Z.of_nat (length s)) with (pos + Z.of_nat (length (buf pos :: s))) by (cbn [length]; lia). exact Z0.
    + cbn [length] in L. lia.
Qed.

Lemma write_internal_l : forall w size v b, 8 <= w -> 2 <= size -> b <= 36 -> 0 <= v ->
  if v <? eff_base b ^ (size - 1)
  then exists s, write_internal w size v b = Some s /\ numeral (eff_base b) v s
  else write_internal w size v b = None.
Proof.
  intros w size v b Hw Hs Hb Hv. unfold write_internal. fold (eff_base b). cbv zeta.
  assert (Hb' : 2 <= eff_base b <= 36) by (unfold eff_base; destruct (b <? 2) eqn:?; lia).
  set (buf := upd (fun _ => 0) (size - 1) 0).
  pose proof (wi_loop_l (Z.to_nat size) w (eff_base b) buf (size - 1) v Hb' Hv Hw ltac:(lia) ltac:(lia) ltac:(left; lia)) as H.
  destruct (v <? eff_base b ^ (size - 1)); [|rewrite H; reflexivity].
  destruct H as (buf' & I1 & I2 & I3 & I4 & I5). rewrite I1.
  set (ds := digits (Z.to_nat size) (eff_base b) v) in *. exists ds. split; [|exact I5].
  apply str_out_l; auto.
  - destruct I5 as (_ & F & _). eapply Forall_impl; [|exact F]. intros c. apply digit_nonzero. exact Hb'.
  - replace (size - 1 - Z.of_nat (length ds) + Z.of_nat (length ds)) with (size - 1) by lia.
    rewrite I4 by lia. unfold buf. apply upd_same.
  - lia.
Qed.

Lemma write_internal_iff : forall w size v b s, 8 <= w -> 2 <= size -> b <= 36 -> 0 <= v ->
  v < eff_base b ^ (size - 1) -> (write_internal w size v b = Some s <-> numeral (eff_base b) v s).
Proof.
  intros w size v b s Hw Hs Hb Hv L. pose proof (write_internal_l w size v b Hw Hs Hb Hv) as H.
  replace (v <? eff_base b ^ (size - 1)) with true in H by lia. destruct H as (s' & E & N). rewrite E.
  assert (Hb' : 2 <= eff_base b <= 36) by (unfold eff_base; destruct (b <? 2) eqn:?; lia).
  split.
  - intros K. injection K as <-. exact N.
  - intros K. f_equal. apply (numeral_unique (eff_base b) s' s v); auto.
Qed.

Lemma write_internal_none : forall w size v b, 8 <= w -> 2 <= size -> b <= 36 -> 0 <= v ->
  (write_internal w size v b = None <-> eff_base b ^ (size - 1) <= v).
Proof.
  intros w size v b Hw Hs Hb Hv. pose proof (write_internal_l w size v b Hw Hs Hb Hv) as H.
  destruct (v <? eff_base b ^ (size - 1)) eqn:E.
  - destruct H as (s & K & _). rewrite K. split; [discriminate|lia].
  - split; [lia|intros _; exact H].
Qed.

Lemma pow_mono_base : forall a b n, 0 <= a <= b -> a ^ n <= b ^ n.
Proof. intros a b n H. apply Z.pow_le_mono_l. exact H. Qed.

(** Bases above three always fit. *)
Lemma fits16 : forall b v, 4 <= b -> v < 65536 -> v < b ^ 10.
Proof. intros b v Hb Hv. pose proof (pow_mono_base 4 b 10 ltac:(lia)) as P. change (4 ^ 10) with 1048576 in P. lia. Qed.
Lemma fits32 : forall b v, 4 <= b -> v < 4294967296 -> v < b ^ 20.
Proof. intros b v Hb Hv. pose proof (pow_mono_base 4 b 20 ltac:(lia)) as P. change (4 ^ 20) with 1099511627776 in P. lia. Qed.

Lemma fit10_16 : forall v, v < 65536 -> v < eff_base 10 ^ (11 - 1).
Proof. intros v H. change (eff_base 10 ^ (11 - 1)) with 10000000000. lia. Qed.
Lemma fit10_32 : forall v, v < 4294967296 -> v < eff_base 10 ^ (21 - 1).
Proof. intros v H. change (eff_base 10 ^ (21 - 1)) with 100000000000000000000. lia. Qed.

Lemma text_uint_l : forall iw b v s, iw = 16 \/ iw = 32 -> b <= 36 ->
  (0 <= v < 65536 -> v < eff_base b ^ 10 -> (tw_uint16 iw b v = Some s <-> numeral (eff_base b) v s)) /\
  (0 <= v < 256 -> v < eff_base b ^ 10 -> (tw_uint8 iw b v = Some s <-> numeral (eff_base b) v s)) /\
  (0 <= v < 4294967296 -> v < eff_base b ^ 20 -> (tw_uint32 b v = Some s <-> numeral (eff_base b) v s)).
Proof.
  intros iw b v s Hi Hb. unfold tw_uint16, tw_uint8, tw_uint32, write_int, write_long.
  split; [|split]; intros Hv Hl.
  - rewrite u16_small by lia. apply write_internal_iff; lia.
  - rewrite u16_small by lia. apply write_internal_iff; lia.
  - rewrite u32_small by lia. apply write_internal_iff; lia.
Qed.

Lemma text_int16_l : forall iw neg v s, iw = 16 \/ iw = 32 -> -32768 <= v < 32768 -> (iw = 16 -> v <> -32768) ->
  (tw_int16 iw 10 neg v = Some s <-> signed_numeral neg v s).
Proof.
  intros iw neg v s Hi Hv Hm. unfold tw_int16, signed_numeral. change (10 =? 10) with true. cbv iota.
  destruct (v <? 0) eqn:E.
  - unfold negate. replace (v =? - 2 ^ (Z.max iw 16 - 1)) with false.
    + rewrite u16_small by lia.
      assert (K : forall t, write_int iw (- v) 10 = Some t <-> numeral 10 (- v) t).
      { intros t. apply (write_internal_iff iw 11 (- v) 10 t); try lia; apply fit10_16; lia. }
      unfold cons_opt. destruct (write_int iw (- v) 10) as [t|] eqn:W.
      * split.
        -- intros J. injection J as <-. exists t. split; [reflexivity|]. apply K. reflexivity.
        -- intros (t' & -> & N). apply K in N. congruence.
      * split; [discriminate|]. intros (t' & -> & N). apply K in N. discriminate.
    + destruct Hi as [-> | ->]; [specialize (Hm eq_refl); change (- 2 ^ (Z.max 16 16 - 1)) with (-32768)|change (- 2 ^ (Z.max 32 16 - 1)) with (-2147483648)]; lia.
  - rewrite u16_small by lia. apply (write_internal_iff iw 11 v 10 s); try lia; apply fit10_16; lia.
Qed.

Lemma text_int32_l : forall iw neg v s, iw = 16 \/ iw = 32 -> -2147483648 < v < 2147483648 ->
  (tw_int32 iw 10 neg v = Some s <-> signed_numeral neg v s).
Proof.
  intros iw neg v s Hi Hv. unfold tw_int32, signed_numeral. change (10 =? 10) with true. cbv iota.
  destruct (v <? 0) eqn:E.
  - unfold negate. replace (v =? - 2 ^ (Z.max iw 32 - 1)) with false by (destruct Hi as [-> | ->]; [change (- 2 ^ (Z.max 16 32 - 1)) with (-2147483648)|change (- 2 ^ (Z.max 32 32 - 1)) with (-2147483648)]; lia).
    rewrite u32_small by lia.
    assert (K : forall t, write_long (- v) 10 = Some t <-> numeral 10 (- v) t).
    { intros t. apply (write_internal_iff 32 21 (- v) 10 t); try lia; apply fit10_32; lia. }
    unfold cons_opt. destruct (write_long (- v) 10) as [t|] eqn:W.
    * split.
      -- intros J. injection J as <-. exists t. split; [reflexivity|]. apply K. reflexivity.
      -- intros (t' & -> & N). apply K in N. congruence.
    * split; [discriminate|]. intros (t' & -> & N). apply K in N. discriminate.
  - rewrite u32_small by lia. apply (write_internal_iff 32 21 v 10 s); try lia; apply fit10_32; lia.
Qed.

(** Other bases: the two's complement bit pattern. *)
Lemma text_int_other_l : forall iw b neg v s, iw = 16 \/ iw = 32 -> b <= 36 -> b <> 10 ->
  (-32768 <= v < 32768 -> v mod 65536 < eff_base b ^ 10 ->
     (tw_int16 iw b neg v = Some s <-> numeral (eff_base b) (v mod 65536) s)) /\
  (-2147483648 <= v < 2147483648 -> v mod 4294967296 < eff_base b ^ 20 ->
     (tw_int32 iw b neg v = Some s <-> numeral (eff_base b) (v mod 4294967296) s)).
Proof.
  intros iw b neg v s Hi Hb N. unfold tw_int16, tw_int32. replace (b =? 10) with false by lia. cbv iota.
  split; intros Hv L.
  - apply write_internal_iff; try lia; unfold u16; lia.
  - apply write_internal_iff; try lia; unfold u32; lia.
Qed.

Lemma text_overrun_l : forall iw b v, iw = 16 \/ iw = 32 -> 2 <= b <= 36 ->
  (0 <= v < 65536 -> (tw_uint16 iw b v = None <-> (b = 2 /\ 1024 <= v) \/ (b = 3 /\ 59049 <= v))) /\
  (0 <= v < 4294967296 -> (tw_uint32 b v = None <-> (b = 2 /\ 1048576 <= v) \/ (b = 3 /\ 3486784401 <= v))).
Proof.
  intros iw b v Hi Hb. unfold tw_uint16, tw_uint32, write_int, write_long.
  assert (Eb : eff_base b = b) by (unfold eff_base; replace (b <? 2) with false by lia; reflexivity).
  split; intros Hv.
  - rewrite u16_small by lia. rewrite write_internal_none by lia. rewrite Eb.
    assert (b = 2 \/ b = 3 \/ 4 <= b) as [->|[->|B4]] by lia;
      [change (2 ^ (11 - 1)) with 1024; lia|change (3 ^ (11 - 1)) with 59049; lia|].
    pose proof (fits16 b v B4). change (11 - 1) with 10. lia.
  - rewrite u32_small by lia. rewrite write_internal_none by lia. rewrite Eb.
    assert (b = 2 \/ b = 3 \/ 4 <= b) as [->|[->|B4]] by lia;
      [change (2 ^ (21 - 1)) with 1048576; lia|change (3 ^ (21 - 1)) with 3486784401; lia|].
    pose proof (fits32 b v B4). change (21 - 1) with 20. lia.
Qed.

Lemma text_char_l : forall iw neg c s, iw = 16 \/ iw = 32 -> -128 <= c < 128 ->
  (tw_char iw 10 neg c = Some s <-> signed_numeral neg c s).
Proof.
  intros iw neg c s Hi Hc. unfold tw_char. rewrite s8_small by lia. apply text_int16_l; try assumption; lia.
Qed.
Lemma text_char_never_l : forall iw c, iw = 16 \/ iw = 32 -> 0 <= c < 128 -> tw_char iw 10 45 c <> Some [c].
Proof.
  intros iw c Hi Hc H. apply text_char_l in H; [|assumption|lia]. unfold signed_numeral in H.
  replace (c <? 0) with false in H by lia. destruct H as (_ & F & _ & V).
  inversion F as [|? ? D _]; subst. destruct D as (d & Hd & E).
  unfold value in V. cbn [fold_left] in V. rewrite E in V. rewrite digit_value_char in V by lia.
  unfold digit_char in V. destruct (d <? 10) eqn:?; lia.
Qed.

Lemma text_str_l : forall mem pos s n, cells mem pos (length s) = s -> Forall (fun c => c <> 0) s ->
  mem (pos + Z.of_nat (length s)) = 0 -> (length s < n)%nat -> tw_str n mem pos = Some s.
Proof. intros. apply str_out_l; auto. Qed.

(** ** Reals in exact arithmetic *)
Lemma rounding_l : forall k a b, rounding k (a, b) = (a, b * 10 ^ Z.of_nat k).
Proof.
  induction k as [|k IH]; intros a b.
  - cbn [rounding Z.of_nat]. rewrite Z.pow_0_r, Z.mul_1_r. reflexivity.
  - cbn [rounding fst snd]. rewrite IH. rewrite Nat2Z.inj_succ, Z.pow_succ_r by lia. f_equal. lia.
Qed.

Lemma one_digit : forall iw x, iw = 16 \/ iw = 32 -> 0 <= x < 10 -> write_int iw x 10 = Some [digit_char x].
Proof.
  intros iw x Hi Hx. unfold write_int. apply write_internal_iff; try lia; [apply fit10_16; lia|].
  change (eff_base 10) with 10. split; [discriminate|]. split.
  - constructor; [|constructor]. exists x. split; [lia|reflexivity].
  - split; [cbn; intros ->; reflexivity|]. unfold value. cbn [fold_left]. rewrite digit_value_char; lia.
Qed.

Lemma fold_value : forall b s a, fold_left (fun a c => a * b + digit_value c) s a = a * b ^ Z.of_nat (length s) + value b s.
Proof.
  intros b s a. unfold value. revert a. induction s as [|c s IH] using rev_ind; intros a.
  - cbn [fold_left length Z.of_nat]. rewrite Z.pow_0_r. lia.
  - rewrite !fold_left_app. cbn [fold_left]. rewrite (IH a). rewrite app_length. cbn [length].
    rewrite Nat2Z.inj_add. change (Z.of_nat 1) with 1. rewrite Z.pow_add_r by lia. change (b ^ 1) with (b ^ Z.succ 0).
    rewrite Z.pow_succ_r, Z.pow_0_r by lia. lia.
Qed.
Lemma value_cons : forall b c s, value b (c :: s) = digit_value c * b ^ Z.of_nat (length s) + value b s.
Proof. intros. unfold value at 1. cbn [fold_left]. rewrite fold_value. lia. Qed.

Lemma decimals_l : forall k iw n d, iw = 16 \/ iw = 32 -> 0 <= n < d ->
  exists s, decimals k iw (n, d) = Some s /\ length s = k /\ Forall (is_digit 10) s /\
            value 10 s = (n * 10 ^ Z.of_nat k) / d.
Proof.
  induction k as [|k IH]; intros iw n d Hi H.
  - exists []. cbn [decimals length Z.of_nat]. repeat split; auto. rewrite Z.pow_0_r, Z.mul_1_r.
    rewrite Z.div_small by lia. reflexivity.
  - cbn [decimals fst snd].
    assert (Q : 0 <= n * 10 / d < 10).
    { split; [apply Z.div_pos; lia|]. apply Z.div_lt_upper_bound; lia. }
    rewrite u16_small by lia. rewrite one_digit by assumption.
    set (x := n * 10 / d) in *.
    assert (E : n * 10 = d * x + (n * 10) mod d) by (apply Z.div_mod; lia).
    assert (R : 0 <= (n * 10) mod d < d) by (apply Z.mod_pos_bound; lia).
    destruct (IH iw (n * 10 - x * d) d Hi ltac:(lia)) as (s & S1 & S2 & S3 & S4).
    rewrite S1. exists (digit_char x :: s). split; [reflexivity|]. split; [cbn; congruence|]. split.
    + constructor; [exists x; split; [lia|reflexivity]|exact S3].
    + rewrite value_cons, digit_value_char by lia. rewrite S2, S4.
      rewrite Nat2Z.inj_succ, Z.pow_succ_r by lia.
      replace (n * (10 * 10 ^ Z.of_nat k)) with ((n * 10 - x * d) * 10 ^ Z.of_nat k + (x * 10 ^ Z.of_nat k) * d) by lia.
      rewrite Z.div_add by lia. lia.
Qed.

Lemma digits_unique : forall s s', length s = length s' -> Forall (is_digit 10) s -> Forall (is_digit 10) s' ->
  value 10 s = value 10 s' -> s = s'.
Proof.
  induction s as [|c s IH] using rev_ind; intros s' L F F' V.
  - destruct s'; [reflexivity|discriminate].
  - destruct s' as [|c' s' _] using rev_ind; [rewrite app_length in L; cbn in L; lia|].
    rewrite !app_length in L. cbn in L. rewrite !value_snoc in V.
    apply Forall_app in F. destruct F as [F1 F2]. apply Forall_app in F'. destruct F' as [F1' F2'].
    inversion F2; subst. inversion F2'; subst.
    destruct (radix_inj 10 (value 10 s) (digit_value c) (value 10 s') (digit_value c')) as [E1 E2]; auto;
      try (apply (digit_range 10); [lia|assumption]).
    rewrite (IH s'); auto; [|lia]. f_equal. f_equal. apply (digit_inj 10); auto. lia.
Qed.

Lemma write_real_l : forall iw neg sep k n d s, iw = 16 \/ iw = 32 -> 0 <= k < 256 -> 0 < d ->
  (2 * Z.abs n * 10 ^ k + d) / (2 * d) < 4294967296 * 10 ^ k ->
  (write_real iw neg sep (n, d) k = Some s <-> decimal_numeral neg sep k n d s).
Proof.
  intros iw neg sep k n d s Hi Hk Hd Hr. unfold write_real. cbn [fst snd]. cbv zeta.
  rewrite rounding_l. rewrite Z2Nat.id by lia.
  replace (if n <? 0 then (- n, d) else (n, d)) with (Z.abs n, d) by (destruct (n <? 0) eqn:E; f_equal; lia).
  unfold fr_add. cbn [fst snd].
  set (T := 10 ^ k) in *. assert (PT : 0 < T) by (apply Z.pow_pos_nonneg; lia).
  set (N := Z.abs n * (2 * T) + 1 * d). set (D := d * (2 * T)).
  assert (PD : 0 < D) by (unfold D; nia).
  assert (EN : 2 * Z.abs n * T + d = N) by (unfold N; lia). rewrite EN in Hr.
  set (sc := N / (2 * d)) in *.
  assert (Esc : N / D = sc / T).
  { unfold sc, D. rewrite Z.div_div by lia. f_equal. lia. }
  assert (N0 : 0 <= N) by (unfold N; nia).
  assert (S0 : 0 <= sc) by (unfold sc; apply Z.div_pos; lia).
  assert (I0 : 0 <= sc / T < 4294967296).
  { split; [apply Z.div_pos; lia|]. apply Z.div_lt_upper_bound; [lia|]. lia. }
  rewrite Esc. replace (sc / T >=? 4294967296) with false by lia.
  set (ii := sc / T) in *.
  assert (Rm : 0 <= N - ii * D < D).
  { rewrite <- Esc. rewrite Z.mul_comm. rewrite <- Z.mod_eq by lia. apply Z.mod_pos_bound. lia. }
  assert (W : forall t, write_long ii 10 = Some t <-> numeral 10 ii t).
  { intros t. apply (write_internal_iff 32 21 ii 10 t); try lia. apply fit10_32; lia. }
  assert (Wx : exists t, write_long ii 10 = Some t).
  { pose proof (write_internal_l 32 21 ii 10 ltac:(lia) ltac:(lia) ltac:(lia) ltac:(lia)) as H.
    replace (ii <? eff_base 10 ^ (21 - 1)) with true in H by (pose proof (fit10_32 ii ltac:(lia)); lia).
    destruct H as (t & H & _). exists t. exact H. }
  destruct Wx as (ip & Wip). rewrite Wip.
  unfold decimal_numeral. fold T. rewrite EN. fold sc. fold ii. cbv zeta.
  destruct (k >? 0) eqn:K.
  - replace (k =? 0) with false by lia.
    destruct (decimals_l (Z.to_nat k) iw (N - ii * D) D Hi Rm) as (fp & F1 & F2 & F3 & F4). rewrite F1.
    rewrite Z2Nat.id in F4 by lia. fold T in F4.
    assert (FV : value 10 fp = sc mod T).
    { rewrite F4. unfold D. replace (d * (2 * T)) with (2 * d * T) by lia.
      rewrite Z.div_mul_cancel_r by lia.
      replace (N - ii * (2 * d * T)) with (N + (- (ii * T)) * (2 * d)) by lia.
      rewrite Z.div_add by lia. fold sc.
      rewrite Z.mod_eq by lia. fold ii. lia. }
    split.
    + intros E. injection E as <-. exists ip, fp. split; [apply W; exact Wip|]. split; [|reflexivity].
      split; [lia|]. split; [exact F3|exact FV].
    + intros (ip' & fp' & N1 & (G1 & G2 & G3) & ->). apply W in N1. rewrite Wip in N1. injection N1 as <-.
      rewrite (digits_unique fp fp'); auto; [lia|congruence].
  - replace (k =? 0) with true by lia.
    split.
    + intros E. injection E as <-. exists ip, []. split; [apply W; exact Wip|]. split.
      * assert (k = 0) by lia. subst k. split; [reflexivity|]. split; [constructor|].
        change T with 1. rewrite Z.mod_1_r. reflexivity.
      * rewrite app_nil_r. reflexivity.
    + intros (ip' & fp' & N1 & _ & ->). apply W in N1. rewrite Wip in N1. injection N1 as <-.
      rewrite app_nil_r. reflexivity.
Qed.
