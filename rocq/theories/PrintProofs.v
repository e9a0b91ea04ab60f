(** Proofs for text on a serial port. *)
Require Import ZArith List Bool Lia ZifyBool.
Import ListNotations.
From Verif Require Import Base BaseFacts TextModel TextSpec TextProofs RealModel RealSpec RealProofs ArduinoModel ArduinoSpec ArduinoProofs
  PrintModel PrintSpec.
Open Scope Z_scope.
Ltac Zify.zify_post_hook ::= idtac.

Lemma string_l : forall t, Forall is_char t -> tw_string t = Some t.
Proof.
  intros t F. unfold tw_string. apply text_str_l.
  - clear F. assert (G : forall u v, cells (string_at (u ++ v)) (Z.of_nat (length u)) (length v) = v).
    { intros u v. revert u. induction v as [|c v IH]; intro u; [reflexivity|]. cbn [length cells]. f_equal.
      - unfold string_at. rewrite Nat2Z.id, app_nth2, Nat.sub_diag by lia. reflexivity.
      - specialize (IH (u ++ [c])). rewrite <- app_assoc, app_length in IH. cbn [app length] in IH.
        replace (Z.of_nat (length u) + 1) with (Z.of_nat (length u + 1)) by lia. exact IH. }
    exact (G [] t).
  - eapply Forall_impl; [|exact F]. intros c C. unfold is_char in C. lia.
  - unfold string_at. replace (Z.to_nat (0 + Z.of_nat (length t))) with (length t) by lia. apply nth_overflow. lia.
  - lia.
Qed.

Lemma digit_is_char : forall b c, b <= 36 -> is_digit b c -> is_char c.
Proof. intros b c B [d [D ->]]. unfold is_char, digit_char. destruct (d <? 10) eqn:E; lia. Qed.
Lemma digits_are_chars : forall b t, b <= 36 -> Forall (is_digit b) t -> Forall is_char t.
Proof. intros b t B F. eapply Forall_impl; [|exact F]. intros c C. exact (digit_is_char b c B C). Qed.
Lemma numeral_chars : forall b v t, b <= 36 -> numeral b v t -> Forall is_char t.
Proof. intros b v t B (_ & F & _). exact (digits_are_chars b t B F). Qed.
Lemma signed_chars : forall neg v t, is_char neg -> signed_numeral neg v t -> Forall is_char t.
Proof.
  intros neg v t N H. unfold signed_numeral in H. destruct (v <? 0).
  - destruct H as [u [-> H]]. constructor; [exact N|]. apply (numeral_chars 10 (- v)); [lia|exact H].
  - apply (numeral_chars 10 v); [lia|exact H].
Qed.

Lemma eff_range : forall b, 0 <= b <= 36 -> 2 <= eff_base b <= 36.
Proof. intros b B. unfold eff_base. destruct (b <? 2) eqn:E; lia. Qed.

(** Existence of the text, from the characterisations of C35. *)
Lemma int_exists : forall w size v b, 8 <= w -> 2 <= size -> 0 <= b <= 36 -> 0 <= v -> v < eff_base b ^ (size - 1) ->
  exists t, write_internal w size v b = Some t.
Proof.
  intros w size v b W S B V L. destruct (write_internal w size v b) as [t|] eqn:E; [eauto|].
  apply write_internal_none in E; [lia|lia|lia|lia|lia].
Qed.
Lemma u16_id : forall v, 0 <= v < 65536 -> u16 v = v.
Proof. intros v V. unfold u16. apply Z.mod_small. exact V. Qed.
Lemma u32_id : forall v, 0 <= v < 4294967296 -> u32 v = v.
Proof. intros v V. unfold u32. apply Z.mod_small. exact V. Qed.

Section Item.
Variables (iw p s : Z) (f : format).
Hypothesis Hi : iw = 16 \/ iw = 32.
Hypothesis Hp : 24 <= p.
Hypothesis Hs : p + 5 <= s.
Hypothesis Hf : format_ok f.

Lemma int16_l : forall v, -32768 <= v < 32768 -> (if f_base f =? 10 then iw = 16 -> v <> -32768 else v mod 65536 < eff_base (f_base f) ^ 10) ->
  exists t, tw_int16 iw (f_base f) (f_neg f) v = Some t /\
    (if f_base f =? 10 then signed_numeral (f_neg f) v t else numeral (eff_base (f_base f)) (v mod 2 ^ 16) t).
Proof.
  intros v V O. destruct Hf as (B & _ & N & _). destruct (Z.eqb_spec (f_base f) 10) as [E|E].
  - rewrite E. destruct (tw_int16 iw 10 (f_neg f) v) as [t|] eqn:T.
    + exists t. split; [reflexivity|]. apply (text_int16_l iw); assumption.
    + exfalso. unfold tw_int16 in T. cbn [Z.eqb Pos.eqb] in T.
      assert (W : forall u, 0 <= u <= 32768 -> write_int iw (u16 u) 10 <> None).
      { intros u U X. rewrite u16_id in X by lia. unfold write_int in X. apply write_internal_none in X; [|lia|lia|lia|lia].
        change (eff_base 10 ^ (11 - 1)) with 10000000000 in X. lia. }
      destruct (v <? 0) eqn:S0.
      * unfold negate in T. destruct (v =? - 2 ^ (Z.max iw 16 - 1)) eqn:Q.
        -- destruct Hi as [-> | ->]; cbn in Q; [specialize (O eq_refl)|]; lia.
        -- specialize (W (- v)). destruct (write_int iw (u16 (- v)) 10); [discriminate|]. apply W; [lia|reflexivity].
      * specialize (W v). apply W; [lia|exact T].
  - destruct (int_exists iw 11 (v mod 65536) (f_base f)) as [t T].
    + lia.
    + lia.
    + exact B.
    + apply Z.mod_pos_bound. lia.
    + exact O.
    + exists t. assert (T' : tw_int16 iw (f_base f) (f_neg f) v = Some t).
      { unfold tw_int16. rewrite (proj2 (Z.eqb_neq _ _) E). exact T. }
      split; [exact T'|]. apply (text_int_other_l iw (f_base f) (f_neg f) v t Hi ltac:(lia) E); [exact V|exact O|exact T'].
Qed.
Lemma int32_l : forall v, -2147483648 <= v < 2147483648 ->
  (if f_base f =? 10 then v <> -2147483648 else v mod 4294967296 < eff_base (f_base f) ^ 20) ->
  exists t, tw_int32 iw (f_base f) (f_neg f) v = Some t /\
    (if f_base f =? 10 then signed_numeral (f_neg f) v t else numeral (eff_base (f_base f)) (v mod 2 ^ 32) t).
Proof.
  intros v V O. destruct Hf as (B & _ & N & _). destruct (Z.eqb_spec (f_base f) 10) as [E|E].
  - rewrite E. destruct (tw_int32 iw 10 (f_neg f) v) as [t|] eqn:T.
    + exists t. split; [reflexivity|]. apply (text_int32_l iw); [assumption|lia|assumption].
    + exfalso. unfold tw_int32 in T. cbn [Z.eqb Pos.eqb] in T.
      assert (W : forall u, 0 <= u <= 2147483648 -> write_long (u32 u) 10 <> None).
      { intros u U X. rewrite u32_id in X by lia. unfold write_long in X. apply write_internal_none in X; [|lia|lia|lia|lia].
        change (eff_base 10 ^ (21 - 1)) with 100000000000000000000 in X. lia. }
      destruct (v <? 0) eqn:S0.
      * unfold negate in T. destruct (v =? - 2 ^ (Z.max iw 32 - 1)) eqn:Q.
        -- destruct Hi as [-> | ->]; cbn in Q; lia.
        -- specialize (W (- v)). destruct (write_long (u32 (- v)) 10); [discriminate|]. apply W; [lia|reflexivity].
      * specialize (W v). apply W; [lia|exact T].
  - destruct (int_exists 32 21 (v mod 4294967296) (f_base f)) as [t T].
    + lia.
    + lia.
    + exact B.
    + apply Z.mod_pos_bound. lia.
    + exact O.
    + exists t. assert (T' : tw_int32 iw (f_base f) (f_neg f) v = Some t).
      { unfold tw_int32. rewrite (proj2 (Z.eqb_neq _ _) E). exact T. }
      split; [exact T'|]. apply (text_int_other_l iw (f_base f) (f_neg f) v t Hi ltac:(lia) E); [exact V|exact O|exact T'].
Qed.

Lemma signed_text_chars : forall w v t,
  (if f_base f =? 10 then signed_numeral (f_neg f) v t else numeral (eff_base (f_base f)) (v mod 2 ^ w) t) -> Forall is_char t.
Proof.
  intros w v t H. destruct Hf as (B & _ & N & _). destruct (f_base f =? 10).
  - exact (signed_chars _ _ _ N H).
  - apply (numeral_chars (eff_base (f_base f)) (v mod 2 ^ w)); [|exact H]. pose proof (eff_range _ B). lia.
Qed.

Lemma item_l : forall i, item_ok iw p s f i ->
  exists t, tw_item iw p s f i = Some t /\ item_text p s f i t /\ Forall is_char t.
Proof.
  intros i O. pose proof Hf as (B & D & N & SP & NL). pose proof (eff_range _ B) as R.
  assert (U : forall v t, numeral (eff_base (f_base f)) v t -> Forall is_char t).
  { intros v t H. apply (numeral_chars (eff_base (f_base f)) v); [lia|exact H]. }
  destruct i as [c|v|u|v|v|v|v|x]; cbn [item_ok tw_item item_text] in *.
  - assert (C : s8 c = c) by (apply s8_small; lia).
    destruct (int16_l c) as [t [T X]].
    + lia.
    + destruct (Z.eqb_spec (f_base f) 10) as [E|E]; [lia|]. apply O. exact E.
    + exists t. unfold tw_char. rewrite C. split; [exact T|]. split; [exact X|]. exact (signed_text_chars _ _ _ X).
  - destruct O as [O L]. destruct (int_exists iw 11 v (f_base f)) as [t T]; [lia|lia|exact B|lia|exact L|].
    exists t. assert (T' : tw_uint8 iw (f_base f) v = Some t) by (unfold tw_uint8; rewrite u16_id by lia; exact T).
    split; [exact T'|]. assert (X : numeral (eff_base (f_base f)) v t).
    { apply (proj1 (proj2 (text_uint_l iw (f_base f) v t Hi ltac:(lia)))); [lia|exact L|exact T']. }
    split; [exact X|exact (U _ _ X)].
  - exists u. split; [exact (string_l u O)|]. split; [reflexivity|exact O].
  - destruct O as [V O]. destruct (int16_l v V O) as [t [T X]]. exists t. split; [exact T|]. split; [exact X|exact (signed_text_chars _ _ _ X)].
  - destruct O as [O L]. destruct (int_exists iw 11 v (f_base f)) as [t T]; [lia|lia|exact B|lia|exact L|].
    exists t. assert (T' : tw_uint16 iw (f_base f) v = Some t) by (unfold tw_uint16; rewrite u16_id by lia; exact T).
    split; [exact T'|]. assert (X : numeral (eff_base (f_base f)) v t).
    { apply (proj1 (text_uint_l iw (f_base f) v t Hi ltac:(lia))); [lia|exact L|exact T']. }
    split; [exact X|exact (U _ _ X)].
  - destruct O as [V O]. destruct (int32_l v V O) as [t [T X]]. exists t. split; [exact T|]. split; [exact X|exact (signed_text_chars _ _ _ X)].
  - destruct O as [O L]. destruct (int_exists 32 21 v (f_base f)) as [t T]; [lia|lia|exact B|lia|exact L|].
    exists t. assert (T' : tw_uint32 (f_base f) v = Some t) by (unfold tw_uint32; rewrite u32_id by lia; exact T).
    split; [exact T'|]. assert (X : numeral (eff_base (f_base f)) v t).
    { apply (proj2 (proj2 (text_uint_l iw (f_base f) v t Hi ltac:(lia)))); [lia|exact L|exact T']. }
    split; [exact X|exact (U _ _ X)].
  - destruct O as [F A]. destruct (write_real_fl_l p s Hp Hs iw (f_neg f) (f_sep f) (f_digits f) x Hi D F A) as (v & t & T & X & C).
    exists t. split; [exact T|]. split; [exists v; split; assumption|].
    destruct X as (ip & fp & I & (_ & FP & _) & ->). apply Forall_app. split; [destruct (x <? 0); constructor; [exact N|constructor]|].
    apply Forall_app. split; [apply (numeral_chars 10 (v / 10 ^ f_digits f)); [lia|exact I]|].
    destruct (f_digits f =? 0); [constructor|]. constructor; [exact SP|apply (digits_are_chars 10); [lia|exact FP]].
Qed.

(** ** The port *)
Lemma a_out_step : forall cap a o a' v, a_step cap a o = Some (a', v) ->
  a_out a' = match o with AOut c => c | _ => a_out a end.
Proof.
  intros cap a o a' v E. destruct o; cbn [a_step] in E; try (injection E as <- _; reflexivity).
  - destruct (a_in a); injection E as <- _; reflexivity.
  - destruct (a_in a) as [k|]; [destruct (read (a_port a k)) as [q w]|]; injection E as <- _; reflexivity.
  - destruct (a_in a) as [k|]; [|injection E as <- _; reflexivity].
    destruct (clear_loop cap (S (length (s_in (a_port a k)))) nothing 0 (a_port a k)); [|discriminate]. injection E as <- _. reflexivity.
  - destruct (a_out a) as [k|] eqn:O; injection E as <- _; [cbn [set_port a_out]; exact O|exact O].
Qed.
Lemma written_chars : forall k c t, Forall is_char t -> written_to k c (map AWrite t) = if at_port c k then t else [].
Proof.
  intros k c t F. induction F as [|b t B F IH]; [destruct (at_port c k); reflexivity|]. cbn [map written_to]. rewrite IH.
  unfold is_char in B. rewrite Z.mod_small by lia. destruct (at_port c k); reflexivity.
Qed.
Lemma a_out_writes : forall cap t a a' vs, a_run cap a (map AWrite t) = Some (a', vs) -> a_out a' = a_out a.
Proof.
  intros cap t. induction t as [|b t IH]; intros a a' vs E; [injection E as <- _; reflexivity|]. cbn [map a_run] in E.
  destruct (a_step cap a (AWrite b)) as [[a1 v]|] eqn:E1; [|discriminate].
  destruct (a_run cap a1 (map AWrite t)) as [[a2 w]|] eqn:E2; [|discriminate]. injection E as <- _.
  rewrite (IH _ _ _ E2). exact (a_out_step _ _ _ _ _ E1).
Qed.

(** The text of a call. *)
Lemma call_l : forall c, call_ok iw p s f c ->
  exists t, call_text iw p s f c = Some t /\ call_shows p s f c t /\ Forall is_char t.
Proof.
  intros c O. pose proof Hf as (B & D & N & SP & NL). destruct c as [i|i| |o]; cbn [call_ok call_text call_shows] in *.
  - apply item_l. exact O.
  - destruct (item_l i O) as (t & T & X & F). rewrite T, (string_l _ NL). cbn [both]. exists (t ++ f_newline f).
    split; [reflexivity|]. split; [exists t; split; [exact X|reflexivity]|]. apply Forall_app. split; assumption.
  - exists (f_newline f). split; [exact (string_l _ NL)|]. split; [reflexivity|exact NL].
  - exists []. split; [reflexivity|]. split; [reflexivity|constructor].
Qed.

Lemma writes_l : forall cap t a, Forall is_char t -> (forall k, Forall is_byte (s_in (a_port a k))) ->
  exists a' vs, a_run cap a (map AWrite t) = Some (a', vs) /\ (forall k, Forall is_byte (s_in (a_port a' k))) /\ a_out a' = a_out a /\
    forall k, s_out (a_port a' k) = s_out (a_port a k) ++ (if at_port (a_out a) k then t else []).
Proof.
  intros cap t a F I. destruct (adapters_l cap (map AWrite t) a I) as (a' & vs & E & I' & W).
  - clear. induction t; constructor; [exact Logic.I|assumption].
  - exists a', vs. split; [exact E|]. split; [exact I'|]. split; [exact (a_out_writes _ _ _ _ _ E)|].
    intro k. rewrite (proj1 (W k)), (written_chars k (a_out a) t F). reflexivity.
Qed.

Lemma print_l : forall cap cs a, (forall k, Forall is_byte (s_in (a_port a k))) -> Forall (call_ok iw p s f) cs ->
  exists a' ts, print_run iw p s f cap a cs = Some a' /\ (forall k, Forall is_byte (s_in (a_port a' k))) /\ Forall2 (call_shows p s f) cs ts /\
    forall k, s_out (a_port a' k) = s_out (a_port a k) ++ texts_to k (a_out a) cs ts.
Proof.
  intros cap cs. induction cs as [|c cs IH]; intros a I O.
  - exists a, []. split; [reflexivity|]. split; [exact I|]. split; [constructor|]. intro k. cbn [texts_to]. rewrite app_nil_r. reflexivity.
  - inversion O as [|c' cs' O1 O2]; subst. destruct (call_l c O1) as (t & T & X & F).
    assert (P : exists os, call_io iw p s f c = Some os /\
      exists a1 vs, a_run cap a os = Some (a1, vs) /\ (forall k, Forall is_byte (s_in (a_port a1 k))) /\
        forall k rest ts, s_out (a_port a k) ++ texts_to k (a_out a) (c :: rest) (t :: ts) = s_out (a_port a1 k) ++ texts_to k (a_out a1) rest ts).
    { destruct c as [i|i| |o]; cbn [call_io].
      1-3: rewrite T; exists (map AWrite t); split; [reflexivity|]; destruct (writes_l cap t a F I) as (a1 & vs & E & I1 & Q & W);
        exists a1, vs; split; [exact E|]; split; [exact I1|]; intros k rest ts; rewrite W, Q, <- app_assoc; reflexivity.
      exists [o]. split; [reflexivity|]. destruct (adapters_l cap [o] a I) as (a1 & vs & E & I1 & W); [constructor; [exact O1|constructor]|].
      exists a1, vs. split; [exact E|]. split; [exact I1|]. intros k rest ts. rewrite (proj1 (W k)), <- app_assoc.
      assert (Q : a_out a1 = match o with AOut c => c | _ => a_out a end).
      { cbn [a_run] in E. destruct (a_step cap a o) as [[a2 v]|] eqn:E1; [|discriminate]. injection E as <- _. exact (a_out_step _ _ _ _ _ E1). }
      f_equal. rewrite Q. destruct o; cbn [texts_to written_to app]; try reflexivity. rewrite app_nil_r. reflexivity. }
    destruct P as (os & E & a1 & vs & E1 & I1 & W). destruct (IH a1 I1 O2) as (a' & ts & E2 & I2 & S2 & W2).
    exists a', (t :: ts). cbn [print_run]. rewrite E, E1. split; [exact E2|]. split; [exact I2|]. split; [constructor; assumption|].
    intro k. rewrite W2, W. reflexivity.
Qed.

(** ** Reading back *)
Lemma neg_no_digit : forall c t b, ~ is_digit 10 c -> Forall (is_digit b) t -> b <= 10 -> forall d r, t = d :: r -> (d =? c) = false.
Proof.
  intros c t b N F B d r ->. apply Z.eqb_neq. intro E. subst d. apply N. inversion F as [|x y [e [E1 E2]] Z0]; subst. exists e. split; [lia|reflexivity].
Qed.
Lemma read_signed_l : forall neg v t, ~ is_digit 10 neg -> signed_numeral neg v t -> read_signed neg t = v.
Proof.
  intros neg v t N H. unfold signed_numeral in H. destruct (v <? 0) eqn:S0.
  - destruct H as [u [-> (_ & _ & _ & V)]]. cbn [read_signed]. rewrite Z.eqb_refl. lia.
  - destruct H as (E & F & _ & V). destruct t as [|c t]; [congruence|]. cbn [read_signed].
    rewrite (neg_no_digit neg (c :: t) 10 N F ltac:(lia) c t eq_refl). exact V.
Qed.
Lemma as_signed_l : forall w v, 1 <= w -> - 2 ^ (w - 1) <= v < 2 ^ (w - 1) -> as_signed w (v mod 2 ^ w) = v.
Proof.
  intros w v W V. assert (P : 2 ^ w = 2 * 2 ^ (w - 1)). { rewrite <- Z.pow_succ_r by lia. f_equal. lia. }
  unfold as_signed. rewrite P. set (h := 2 ^ (w - 1)) in *. clearbody h. clear P.
  destruct (Z_lt_le_dec v 0) as [L|L].
  - rewrite <- (Z.mod_unique v (2 * h) (-1) (v + 2 * h)) by lia. destruct (_ <? h) eqn:E; lia.
  - rewrite Z.mod_small by lia. destruct (v <? h) eqn:E; lia.
Qed.
Lemma filter_digits : forall sep t, ~ is_digit 10 sep -> Forall (is_digit 10) t -> filter (fun c => negb (c =? sep)) t = t.
Proof.
  intros sep t N F. induction F as [|c t C F IH]; [reflexivity|]. cbn [filter].
  destruct (Z.eqb_spec c sep) as [->|_]; [contradiction|]. cbn [negb]. rewrite IH. reflexivity.
Qed.
Lemma value_app : forall b s1 s2, value b (s1 ++ s2) = value b s1 * b ^ Z.of_nat (length s2) + value b s2.
Proof. intros b s1 s2. unfold value at 1. rewrite fold_left_app. apply fold_value. Qed.

Lemma read_as_l : readable f -> forall i t, item_ok iw p s f i -> item_text p s f i t -> same_item p s f i (read_as f i t).
Proof.
  intros (N & SP & _) i t O X. destruct i as [v|v|u|v|v|v|v|x]; cbn [item_ok item_text read_as same_item] in *.
  - destruct (f_base f =? 10); [exact (read_signed_l _ _ _ N X)|]. destruct X as (_ & _ & _ & ->). apply as_signed_l; [lia|].
    change (2 ^ (16 - 1)) with 32768. lia.
  - destruct X as (_ & _ & _ & X). exact X.
  - exact X.
  - destruct (f_base f =? 10); [exact (read_signed_l _ _ _ N X)|]. destruct X as (_ & _ & _ & ->). apply as_signed_l; [lia|].
    change (2 ^ (16 - 1)) with 32768. lia.
  - destruct X as (_ & _ & _ & X). exact X.
  - destruct (f_base f =? 10); [exact (read_signed_l _ _ _ N X)|]. destruct X as (_ & _ & _ & ->). apply as_signed_l; [lia|].
    change (2 ^ (32 - 1)) with 2147483648. lia.
  - destruct X as (_ & _ & _ & X). exact X.
  - destruct X as (v & (ip & fp & I & FD & E) & C). destruct I as (I1 & I2 & I3 & I4). destruct FD as (F1 & F2 & F3).
    destruct Hf as (_ & D & _).
    assert (V : value 10 (filter (fun c => negb (c =? f_sep f)) (ip ++ (if f_digits f =? 0 then [] else f_sep f :: fp))) = v).
    { rewrite filter_app, (filter_digits _ ip SP I2).
      assert (G : filter (fun c => negb (c =? f_sep f)) (if f_digits f =? 0 then [] else f_sep f :: fp) = fp).
      { destruct (Z.eqb_spec (f_digits f) 0) as [Z0|Z0].
        - destruct fp; [reflexivity|]. cbn [length] in F1. lia.
        - cbn [filter]. rewrite Z.eqb_refl. cbn [negb]. exact (filter_digits _ fp SP F2). }
      rewrite G, value_app, F1, I4, F3. assert (0 < 10 ^ f_digits f) by (apply Z.pow_pos_nonneg; lia).
      rewrite (Z.div_mod v (10 ^ f_digits f)) at 3 by lia. lia. }
    destruct (x <? 0).
    + cbn [app] in E. subst t. rewrite Z.eqb_refl. cbn [tl]. split; [reflexivity|]. rewrite V. exact C.
    + cbn [app] in E. destruct ip as [|c ip]; [congruence|]. cbn [app] in E. subst t.
      rewrite (neg_no_digit (f_neg f) (c :: ip) 10 N I2 ltac:(lia) c ip eq_refl). cbn [app] in V. rewrite V. split; [reflexivity|exact C].
Qed.

(** No text of a line contains the first character of the new-line. *)
Lemma no_newline : readable f -> forall i t c nl, f_newline f = c :: nl -> one_line f i -> item_text p s f i t -> ~ In c t.
Proof.
  intros (N & SP & R) i t c nl E O X. rewrite E in R. destruct R as (R1 & R2 & R3). pose proof Hf as (B & _).
  pose proof (eff_range _ B) as EB.
  assert (G : forall b u, b <= 36 -> Forall (is_digit b) u -> ~ In c u).
  { intros b u BB F H. apply R1. rewrite Forall_forall in F. destruct (F c H) as [d [D1 D2]]. exists d. split; [lia|exact D2]. }
  assert (G1 : forall b v u, b <= 36 -> numeral b v u -> ~ In c u) by (intros b v u BB (_ & F & _); exact (G b u BB F)).
  assert (G2 : forall w v u, (if f_base f =? 10 then signed_numeral (f_neg f) v u else numeral (eff_base (f_base f)) (v mod 2 ^ w) u) -> ~ In c u).
  { intros w v u H. destruct (f_base f =? 10).
    - unfold signed_numeral in H. destruct (v <? 0); [|exact (G1 10 v u ltac:(lia) H)].
      destruct H as [u' [-> H]]. intros [A|A]; [congruence|]. exact (G1 10 (- v) u' ltac:(lia) H A).
    - exact (G1 (eff_base (f_base f)) _ u (proj2 EB) H). }
  destruct i as [v|v|u|v|v|v|v|x]; cbn [item_text] in X.
  - exact (G2 16 v t X).
  - exact (G1 (eff_base (f_base f)) _ t (proj2 EB) X).
  - cbn [one_line] in O. rewrite E in O. subst t. exact O.
  - exact (G2 16 v t X).
  - exact (G1 (eff_base (f_base f)) _ t (proj2 EB) X).
  - exact (G2 32 v t X).
  - exact (G1 (eff_base (f_base f)) _ t (proj2 EB) X).
  - destruct X as (v & (ip & fp & I & (_ & FD & _) & ->) & _). intro H. apply in_app_or in H. destruct H as [H|H].
    + destruct (x <? 0); [|contradiction]. destruct H as [H|[]]. congruence.
    + apply in_app_or in H. destruct H as [H|H]; [exact (G1 10 _ ip ltac:(lia) I H)|].
      destruct (f_digits f =? 0); [contradiction|]. destruct H as [H|H]; [congruence|]. exact (G 10 fp ltac:(lia) FD H).
Qed.
End Item.

(** ** Splitting *)
Lemma starts_app : forall nl more, starts nl (nl ++ more) = true.
Proof. induction nl as [|c nl IH]; intro more; [reflexivity|]. cbn [app starts]. rewrite Z.eqb_refl, IH. reflexivity. Qed.
Lemma starts_whole : forall nl bs, starts nl bs = true -> exists more, bs = nl ++ more.
Proof.
  induction nl as [|c nl IH]; intros bs H; [exists bs; reflexivity|]. destruct bs as [|b bs]; [discriminate|]. cbn [starts] in H.
  apply andb_prop in H. destruct H as [H1 H2]. apply Z.eqb_eq in H1. subst b. destruct (IH bs H2) as [more ->]. exists more. reflexivity.
Qed.
Lemma skip_l : forall nl u cur more, lines_of nl (length u) cur (u ++ more) = lines_of nl 0 cur more.
Proof. intros nl u. induction u as [|b u IH]; intros cur more; [reflexivity|]. cbn [length app lines_of]. apply IH. Qed.
Lemma line_l : forall c nl t cur more, ~ In c t -> lines_of (c :: nl) 0 cur (t ++ (c :: nl) ++ more) = (cur ++ t) :: lines_of (c :: nl) 0 [] more.
Proof.
  intros c nl t. induction t as [|b t IH]; intros cur more H.
  - change ([] ++ (c :: nl) ++ more) with (c :: nl ++ more). cbn [lines_of]. change (c :: nl ++ more) with ((c :: nl) ++ more).
    rewrite starts_app. cbn [length]. rewrite Nat.sub_succ, Nat.sub_0_r, skip_l, app_nil_r. reflexivity.
  - cbn [app lines_of starts]. destruct (Z.eqb_spec c b) as [->|_]; [exfalso; apply H; left; reflexivity|]. cbn [andb].
    change (t ++ c :: nl ++ more) with (t ++ (c :: nl) ++ more). rewrite IH by (intro G; apply H; right; exact G).
    rewrite <- app_assoc. reflexivity.
Qed.
(** An unfinished line gives nothing. *)
Lemma unfinished_l : forall c nl bs cur t more, ~ In c t -> t ++ c :: nl = bs ++ more -> more <> [] -> lines_of (c :: nl) 0 cur bs = [].
Proof.
  intros c nl bs. induction bs as [|b bs IH]; intros cur t more H E M; [reflexivity|]. destruct t as [|d t].
  - cbn [app] in E. injection E as E1 E2. subst b. cbn [lines_of]. destruct (starts (c :: nl) (c :: bs)) eqn:S0.
    { exfalso. apply starts_whole in S0. destruct S0 as [m S0]. injection S0 as S0. subst bs. apply (f_equal (@length Z)) in E2.
      rewrite !app_length in E2. destruct more; [congruence|]. cbn [length] in E2. lia. }
    (* what remains is a part of the new-line after its first character: too short to contain it *)
    clear IH. assert (L : (length bs < length nl)%nat).
    { apply (f_equal (@length Z)) in E2. rewrite app_length in E2. destruct more; [congruence|]. cbn [length] in E2. lia. }
    assert (G : forall u cur', (length u <= length nl)%nat -> lines_of (c :: nl) 0 cur' u = []).
    { induction u as [|e u IHu]; intros cur' U; [reflexivity|]. cbn [lines_of]. destruct (starts (c :: nl) (e :: u)) eqn:S1.
      - exfalso. apply starts_whole in S1. destruct S1 as [m S1]. apply (f_equal (@length Z)) in S1. rewrite app_length in S1. cbn [length] in S1, U. lia.
      - apply IHu. cbn [length] in U. lia. }
    apply G. lia.
  - cbn [app] in E. injection E as E1 E2. subst b. cbn [lines_of starts]. destruct (Z.eqb_spec c d) as [->|_]; [exfalso; apply H; left; reflexivity|].
    cbn [andb]. apply (IH _ t more); [intro G; apply H; right; exact G|exact E2|exact M].
Qed.

Lemma app_split : forall (A : Type) (x y u v : list A), x ++ y = u ++ v ->
  (exists z, u = x ++ z /\ y = z ++ v) \/ (exists z, z <> [] /\ x = u ++ z).
Proof.
  intros A x. induction x as [|a x IH]; intros y u v E.
  - left. exists u. split; [reflexivity|exact E].
  - destruct u as [|b u]; [right; exists (a :: x); split; [discriminate|reflexivity]|]. cbn [app] in E. injection E as <- E.
    destruct (IH y u v E) as [(z & -> & ->)|(z & Z0 & ->)]; [left; exists z; split; reflexivity|right; exists z; split; [exact Z0|reflexivity]].
Qed.
(** Any beginning of a text of whole lines gives the first lines. *)
Lemma lines_prefix : forall c nl ts bs more, Forall (fun t => ~ In c t) ts -> concat (map (fun t => t ++ c :: nl) ts) = bs ++ more ->
  exists n, lines_of (c :: nl) 0 [] bs = firstn n ts /\ (n <= length ts)%nat /\ (more = [] -> n = length ts).
Proof.
  intros c nl ts. induction ts as [|t ts IH]; intros bs more F E.
  - cbn [map concat] in E. symmetry in E. apply app_eq_nil in E. destruct E as [-> ->]. exists O. split; [reflexivity|]. split; [lia|reflexivity].
  - inversion F as [|t' ts' F1 F2]; subst. cbn [map concat] in E. destruct (app_split Z _ _ _ _ E) as [(z & -> & E2)|(z & Z0 & E2)].
    + destruct (IH z more F2 E2) as (n & L & N & M). exists (S n). rewrite <- app_assoc, line_l by exact F1. cbn [app firstn length]. rewrite L.
      split; [reflexivity|]. split; [lia|]. intro H. rewrite (M H). reflexivity.
    + exists O. split; [|split; [lia|]].
      * exact (unfinished_l c nl bs [] t z F1 E2 Z0).
      * intro H. exfalso. subst more. rewrite app_nil_r in E. subst bs. apply (f_equal (@length Z)) in E2. rewrite !app_length in E2.
        destruct z; [congruence|]. cbn [length] in E2. lia.
Qed.

Section Back.
Variables (iw p s : Z) (f : format).
Hypothesis Hi : iw = 16 \/ iw = 32.
Hypothesis Hp : 24 <= p.
Hypothesis Hs : p + 5 <= s.
Hypothesis Hf : format_ok f.
Hypothesis Hr : readable f.

Lemma texts_lines : forall k cs ts, Forall line_call cs -> Forall2 (call_shows p s f) cs ts ->
  exists us, Forall2 (item_text p s f) (line_items cs) us /\ texts_to k (Some k) cs ts = concat (map (fun t => t ++ f_newline f) us).
Proof.
  intros k cs. induction cs as [|c cs IH]; intros ts L H; inversion H as [|c' t cs' ts' S0 S1]; subst.
  - exists []. split; [constructor|reflexivity].
  - inversion L as [|c' cs' L1 L2]; subst. destruct (IH ts' L2 S1) as (us & U & E). destruct c as [i|i| |o]; try contradiction.
    + destruct S0 as (u & X & ->). exists (u :: us). split; [constructor; assumption|]. cbn [texts_to at_port map concat]. rewrite Nat.eqb_refl, E. reflexivity.
    + exists us. split; [exact U|]. destruct o; try contradiction; exact E.
Qed.

Lemma back_l : forall cap k cs a a', (forall k, Forall is_byte (s_in (a_port a k))) -> a_out a = Some k ->
  Forall (call_ok iw p s f) cs -> Forall line_call cs -> Forall (one_line f) (line_items cs) ->
  print_run iw p s f cap a cs = Some a' ->
  forall sent bs more, s_out (a_port a' k) = s_out (a_port a k) ++ sent -> sent = bs ++ more ->
  exists n, (n <= length (line_items cs))%nat /\ (more = [] -> n = length (line_items cs)) /\
    Forall2 (fun i t => same_item p s f i (read_as f i t)) (firstn n (line_items cs)) (lines_of (f_newline f) 0 [] bs).
Proof.
  intros cap k cs a a' I A O L OL E sent bs more W B. destruct (print_l iw p s f Hi Hp Hs Hf cap cs a I O) as (a2 & ts & E2 & _ & SH & W2).
  rewrite E in E2. injection E2 as <-. rewrite W2, A in W. apply app_inv_head in W. destruct (texts_lines k cs ts L SH) as (us & U & T).
  rewrite T in W. pose proof Hr as (_ & _ & R). destruct (f_newline f) as [|c nl] eqn:NL; [contradiction|].
  assert (OK : Forall (item_ok iw p s f) (line_items cs)).
  { clear - O. induction O as [|x cs X O IH]; [constructor|]. destruct x; cbn [line_items flat_map app]; try exact IH. constructor; assumption. }
  assert (F : Forall (fun t => ~ In c t) us).
  { clear - U OL NL Hr Hf. induction U as [|i t is us X U IH]; [constructor|]. inversion OL; subst. constructor; [|apply IH; assumption].
    apply (no_newline p s f Hf Hr i t c nl NL); assumption. }
  rewrite B in W. destruct (lines_prefix c nl us bs more F W) as (n & LN & N & M).
  assert (LE : length (line_items cs) = length us) by (clear - U; induction U; cbn [length]; congruence).
  exists n. rewrite LE. split; [exact N|]. split; [exact M|]. rewrite LN. clear - U OK Hr Hf Hi Hp Hs. revert n.
  induction U as [|i t is us X U IH]; intros [|n]; cbn [firstn]; try constructor.
  - inversion OK; subst. apply (read_as_l iw p s f); assumption.
  - inversion OK; subst. apply IH; assumption.
Qed.
End Back.

(** ** The sketches *)
Lemma put_l : forall cap t a k, a_out a = Some k -> exists a' vs, a_run cap a (map AWrite t) = Some (a', vs) /\ a_out a' = Some k /\
  s_out (a_port a' k) = s_out (a_port a k) ++ map u8 t /\ forall j, j <> k -> a_port a' j = a_port a j.
Proof.
  intros cap t. induction t as [|b t IH]; intros a k A.
  - exists a, []. split; [reflexivity|]. split; [exact A|]. split; [cbn [map]; rewrite app_nil_r; reflexivity|reflexivity].
  - cbn [map a_run a_step]. rewrite A.
    set (a1 := set_port a k (mkSerial (s_in (a_port a k)) (s_out (a_port a k) ++ [u8 b]) (s_lost (a_port a k)))).
    destruct (IH a1 k A) as (a' & vs & E & O & W & F). rewrite E. exists a', (0 :: vs). split; [reflexivity|]. split; [exact O|]. split.
    + rewrite W. unfold a1, set_port. cbn [a_port]. rewrite Nat.eqb_refl. cbn [s_out]. rewrite <- app_assoc. reflexivity.
    + intros j J. rewrite (F j J). unfold a1, set_port. cbn [a_port]. rewrite (proj2 (Nat.eqb_neq j k) J). reflexivity.
Qed.
Lemma setup_gen : forall iw f cap a t1 t2 t3,
  call_text iw 24 149 f (PLine (TStr hello)) = Some t1 -> call_text iw 24 149 f (PLine (TI16 42)) = Some t2 ->
  call_text iw 24 149 f (PLine (TReal pi_f)) = Some t3 ->
  exists a', print_run iw 24 149 f cap a text_setup = Some a' /\
    s_out (a_port a' 0%nat) = s_out (a_port a 0%nat) ++ map u8 (t1 ++ t2 ++ t3) /\ forall k, k <> 0%nat -> a_port a' k = a_port a k.
Proof.
  intros iw f cap a t1 t2 t3 T1 T2 T3. unfold text_setup. remember pi_f as x eqn:X. clear X.
  cbn [print_run call_io a_run a_step]. rewrite T1.
  set (a0 := mkAdapters (a_in a) (Some 0%nat) (a_port a)).
  destruct (put_l cap t1 a0 0%nat eq_refl) as (a1 & v1 & E1 & O1 & W1 & F1). rewrite E1. cbn [print_run call_io]. rewrite T2.
  destruct (put_l cap t2 a1 0%nat O1) as (a2 & v2 & E2 & O2 & W2 & F2). rewrite E2. cbn [print_run call_io]. rewrite T3.
  destruct (put_l cap t3 a2 0%nat O2) as (a3 & v3 & E3 & O3 & W3 & F3). rewrite E3. exists a3. split; [reflexivity|]. split.
  - rewrite W3, W2, W1, !map_app, <- !app_assoc. reflexivity.
  - intros k K. rewrite (F3 k K), (F2 k K), (F1 k K). reflexivity.
Qed.
Lemma setup_l : forall iw cap a, iw = 16 \/ iw = 32 ->
  (exists a', print_run iw 24 149 default_format cap a text_setup = Some a' /\
     s_out (a_port a' 0%nat) = s_out (a_port a 0%nat) ++ hello ++ [10; 13; 52; 50; 10; 13; 51; 46; 49; 52; 10; 13] /\
     forall k, k <> 0%nat -> a_port a' k = a_port a k) /\
  (exists a', print_run iw 24 149 my_format cap a text_setup = Some a' /\
     s_out (a_port a' 0%nat) = s_out (a_port a 0%nat) ++ hello ++ [10; 50; 65; 10; 51; 44; 49; 52; 49; 54; 10] /\
     forall k, k <> 0%nat -> a_port a' k = a_port a k).
Proof.
  intros iw cap a H.
  assert (C1 : forall iw, iw = 16 \/ iw = 32 -> call_text iw 24 149 default_format (PLine (TReal pi_f)) = Some [51; 46; 49; 52; 10; 13])
    by (intros w [-> | ->]; lazy; reflexivity).
  assert (C2 : forall iw, iw = 16 \/ iw = 32 -> call_text iw 24 149 my_format (PLine (TReal pi_f)) = Some [51; 44; 49; 52; 49; 54; 10])
    by (intros w [-> | ->]; lazy; reflexivity).
  split.
  - destruct (setup_gen iw default_format cap a (hello ++ [10; 13]) [52; 50; 10; 13] _ ltac:(lazy; reflexivity)
      ltac:(destruct H as [-> | ->]; lazy; reflexivity) (C1 iw H)) as (a' & E & W & F). exists a'. split; [exact E|]. split; [exact W|exact F].
  - destruct (setup_gen iw my_format cap a (hello ++ [10]) [50; 65; 10] _ ltac:(lazy; reflexivity)
      ltac:(destruct H as [-> | ->]; lazy; reflexivity) (C2 iw H)) as (a' & E & W & F). exists a'. split; [exact E|]. split; [exact W|exact F].
Qed.
