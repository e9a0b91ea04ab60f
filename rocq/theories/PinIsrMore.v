Require Import ZArith List Bool Lia ZifyBool.
Import ListNotations.
From Verif Require RegIsrMore.
From Verif Require Import Base BaseFacts BitModel ShiftModel ShiftSpec ShiftProofs ChainProofs AvrModel AvrSpec RegIsrModel RegIsrSpec
  HdModel HdSpec ChainModel ChainSpec AvrLcdModel AvrLcdSpec AvrLcdProofs PinIsrModel PinIsrSpec PinIsrProofs.
Open Scope Z_scope.
Local Ltac Zify.zify_post_hook ::= idtac.

Lemma look_same : forall c, chip_look c (chip_levels c) = c.
Proof. intros [d k l r o]. unfold chip_look, chip_levels. cbn. destruct k, l; reflexivity. Qed.
Lemma levels_app : forall qs a b ls, levels qs ls (a ++ b) = levels qs ls a ++ levels qs (last (levels qs ls a) ls) b.
Proof.
  intros qs. induction a as [|[q v] a IH]; intros b ls; [reflexivity|]. cbn [app levels]. rewrite IH, last_step. reflexivity.
Qed.
Lemma levels_prefix : forall qs ws ls ps rest, levels qs ls ws = ps ++ rest -> exists w1 w2, ws = w1 ++ w2 /\ ps = levels qs ls w1 /\ (rest = [] -> w2 = []).
Proof.
  intros qs. induction ws as [|[q v] ws IH]; intros ls ps rest E.
  - cbn in E. symmetry in E. apply app_eq_nil in E. destruct E as [-> ->]. exists [], []. auto.
  - destruct ps as [|p ps].
    + exists [], ((q, v) :: ws). split; [reflexivity|]. split; [reflexivity|]. intros ->. discriminate E.
    + cbn [levels app] in E. injection E as E1 E2. destruct (IH _ _ _ E2) as (w1 & w2 & Ew & Ep & Er). exists ((q, v) :: w1), w2.
      split; [cbn; rewrite Ew; reflexivity|]. split; [cbn [levels]; rewrite <- E1, <- Ep; reflexivity|exact Er].
Qed.
Lemma own_map : forall x es, p_own (map (s3_call x) es) = map (fun e => (s3_at x (fst e), snd e)) es.
Proof. intros x. induction es as [|[p v] es IH]; [reflexivity|]. cbn [map s3_call p_own fst snd]. rewrite IH. reflexivity. Qed.
Lemma moments_run : forall es c, last (chip_moments c es) c = chip_run c es.
Proof. induction es as [|e es IH]; intros c; [reflexivity|]. cbn [chip_moments]. rewrite last_step. apply IH. Qed.
Lemma chip_moments_app : forall a b c, chip_moments c (a ++ b) = chip_moments c a ++ chip_moments (chip_run c a) b.
Proof. induction a as [|e a IH]; intros b c; [reflexivity|]. cbn [app chip_moments]. rewrite IH. reflexivity. Qed.
Lemma chip_run_app : forall a b c, chip_run c (a ++ b) = chip_run (chip_run c a) b.
Proof. intros. apply fold_left_app. Qed.
Lemma chips_app : forall a b c, chips c (a ++ b) = chips c a ++ chips (last (chips c a) c) b.
Proof. induction a as [|e a IH]; intros b c; [reflexivity|]. cbn [app chips]. rewrite IH, last_step. reflexivity. Qed.

Section S.
Variable x : s3.
Hypothesis R : s3_real x.
Lemma s3_diff : s_data x <> s_clock x /\ s_data x <> s_latch x /\ s_clock x <> s_latch x.
Proof.
  destruct R as [H _]. unfold s3_pins in H. inversion H as [|? ? N1 H1]; subst. inversion H1 as [|? ? N2 H2]; subst. cbn [In] in *. repeat split; intros E; auto.
Qed.
Lemma put_step : forall c e, put_level (s3_pins x) (s3_at x (fst e)) (snd e) (chip_levels c) = chip_levels (chip_step c e).
Proof.
  intros c [p v]. destruct s3_diff as (D1 & D2 & D3). unfold s3_pins, chip_levels. 
  destruct p; cbn [fst snd s3_at put_level chip_step data clock latch];
  repeat match goal with |- context [same_pin ?p ?q] => first [rewrite (same_refl p) | rewrite (same_neq p q) by congruence] end; reflexivity.
Qed.
Lemma look_step : forall c e, chip_look c (chip_levels (chip_step c e)) = chip_step c e.
Proof. intros [d k l r o] [p v]. destruct p; cbn; destruct k, l; try reflexivity; destruct v; reflexivity. Qed.
Lemma chips_linger : forall es c t, lingers (chip_levels c) t (levels (s3_pins x) (chip_levels c) (p_own (map (s3_call x) es))) ->
  lingers c (chips c t) (chip_moments c es) /\ last t (chip_levels c) = chip_levels (last (chips c t) c).
Proof.
  intros es c t. revert es c. induction t as [|ls t IH]; intros es c H.
  - split; [|reflexivity]. destruct es as [|e es]; [constructor|]. rewrite own_map in H. inversion H.
  - rewrite last_step. cbn [chips]. rewrite last_step. inversion H as [|? ? ? H' E1 E2|? ? ? b H' E1 E2 E3]; subst.
    + rewrite look_same. destruct (IH es c H') as [S L]. split; [constructor; exact S|exact L].
    + destruct es as [|e es]; [discriminate|]. rewrite own_map in E3. cbn [map levels] in E3. rewrite put_step in E3. injection E3 as E3 E4. subst ls b.
      rewrite <- own_map in H'. rewrite look_step. destruct (IH es _ H') as [S L]. split; [constructor; exact S|exact L].
Qed.
Lemma s3_main_l : forall one c m cs es evs, bytes m -> look (s3_pins x) m = chip_levels c -> Forall (pcall_ok (s3_pins x)) cs -> s3_writes x cs es ->
  Forall (leaves (s3_pins x)) (handled evs) ->
  let k0 := k_init m (map p_code cs) in let k := krun one k0 evs in
  exists es1 es2, es = es1 ++ es2 /\ lingers c (chips c (map (look (s3_pins x)) (k_moments one k0 evs))) (chip_moments c es1) /\
    (k_call k = None -> k_prog k = [] -> es2 = []).
Proof.
  intros one c m cs es evs Bm L F W Fh k0 k. destruct (pins_main_l (s3_pins x) (proj2 R) one m cs evs Bm F Fh) as (ps & rest & S & E & Zr).
  rewrite L in S, E. red in W. rewrite W in E. destruct (levels_prefix _ _ _ _ _ E) as (w1 & w2 & Ew & Ep & Er). subst ps.
  rewrite own_map in Ew.
  assert (G : forall (w1 w2 : list ((Z * Z) * bool)) es, map (fun e => (s3_at x (fst e), snd e)) es = w1 ++ w2 -> exists e1 e2, es = e1 ++ e2 /\ w1 = map (fun e => (s3_at x (fst e), snd e)) e1 /\ (w2 = [] -> e2 = [])).
  { clear. induction w1 as [|w w1 IH]; intros w2 es E.
    - exists [], es. split; [reflexivity|]. split; [reflexivity|]. intros ->. destruct es; [reflexivity|discriminate].
    - destruct es as [|e es]; [discriminate|]. cbn [map app] in E. injection E as E1 E2. destruct (IH _ _ E2) as (e1 & e2 & -> & -> & Z). exists (e :: e1), e2. split; [reflexivity|]. split; [cbn [map]; rewrite E1; reflexivity|exact Z]. }
  destruct (G w1 w2 es Ew) as (es1 & es2 & -> & -> & Z2). exists es1, es2. split; [reflexivity|]. split.
  - apply chips_linger. rewrite own_map. exact S.
  - intros K1 K2. apply Z2, Er, Zr; assumption.
Qed.

(** ** Handlers *)
Definition near_chip (c c' : chip) : Prop := clock c' = clock c /\ latch c' = latch c /\ reg c' = reg c /\ outs c' = outs c.
Lemma near_eq : forall c c', near_chip c c' -> c' = {| data := data c'; clock := clock c; latch := latch c; reg := reg c; outs := outs c |}.
Proof. intros c [d k l r o] (E1 & E2 & E3 & E4). cbn in *. subst. reflexivity. Qed.
Lemma near_data : forall c c' v es, near_chip c c' -> map outs (chip_moments c' ((PData, v) :: es)) = map outs (chip_moments c ((PData, v) :: es)) /\
  chip_run c' ((PData, v) :: es) = chip_run c ((PData, v) :: es).
Proof.
  intros c c' v es H. apply near_eq in H. rewrite H. generalize (data c'). intros d. clear H. destruct c as [d0 k l r o]. cbn. auto.
Qed.
Definition starts (es : list event) : Prop := match es with [] => True | (PData, _) :: _ => True | _ => False end.
Lemma near_run : forall c c' es, near_chip c c' -> starts es -> map outs (chip_moments c' es) = map outs (chip_moments c es) /\ near_chip (chip_run c es) (chip_run c' es).
Proof.
  intros c c' [|[[] v] es] H S; try destruct S.
  - split; [reflexivity|exact H].
  - destruct (near_data c c' v es H) as [E1 E2]. split; [exact E1|]. refine (eq_ind _ (near_chip (chip_run c ((PData, v) :: es))) _ _ (eq_sym E2)). repeat split; reflexivity.
Qed.
Lemma reverse_starts : forall iw w b es, 1 <= w -> write_reverse iw w b = Some es -> exists v es', es = (PData, v) :: es'.
Proof.
  intros iw w b es Hw E. unfold write_reverse in E. destruct (Z.to_nat w) as [|n] eqn:Ew; [lia|]. cbn [rev_loop] in E. unfold shift_bit in E.
  destruct (ba_true iw w b 0) as [v|]; [|discriminate]. destruct (rev_loop iw w b (0 + 1) n) as [es'|]; [|discriminate]. injection E as <-. eexists. eexists. reflexivity.
Qed.
Lemma reverses_starts : forall iw w bs es, 1 <= w -> reverses iw w bs = Some es -> starts es.
Proof.
  intros iw w [|b bs] es Hw E; cbn [reverses] in E; [injection E as <-; exact Logic.I|].
  destruct (write_reverse iw w b) as [e|] eqn:Eb; [|discriminate]. destruct (reverses iw w bs) as [es'|]; [|discriminate]. injection E as <-.
  destruct (reverse_starts iw w b e Hw Eb) as (v & e' & ->). exact Logic.I.
Qed.
Lemma reverses_app : forall iw w a b ea eb, reverses iw w a = Some ea -> reverses iw w b = Some eb -> reverses iw w (a ++ b) = Some (ea ++ eb).
Proof.
  intros iw w. induction a as [|v a IH]; intros b ea eb E1 E2; cbn [reverses app] in *; [injection E1 as <-; exact E2|].
  destruct (write_reverse iw w v) as [e|]; [|discriminate]. destruct (reverses iw w a) as [es|] eqn:Ea; [|discriminate]. injection E1 as <-.
  rewrite (IH b es eb eq_refl E2), app_assoc. reflexivity.
Qed.
Lemma pulse_low : forall iw w bs es c, clock c = false -> latch c = false -> reverses iw w bs = Some es -> clock (chip_run c es) = false /\ latch (chip_run c es) = false.
Proof.
  intros iw w. 
  assert (L : forall n b i es c, clock c = false -> latch c = false -> rev_loop iw w b i n = Some es -> clock (chip_run c es) = false /\ latch (chip_run c es) = false).
  { induction n as [|n IH]; intros b i es c H1 H2 E; cbn [rev_loop] in E; [injection E as <-; auto|]. unfold shift_bit in E.
    destruct (ba_true iw w b i) as [v|]; [|discriminate]. destruct (rev_loop iw w b (i + 1) n) as [es'|] eqn:El; [|discriminate]. injection E as <-.
    apply (IH b (i + 1) es' (chip_run c ((PData, v) :: pulse PClock))); [reflexivity|exact H2|exact El]. }
  induction bs as [|b bs IH]; intros es c H1 H2 E; cbn [reverses] in E; [injection E as <-; auto|].
  unfold write_reverse in E. destruct (rev_loop iw w b 0 (Z.to_nat w)) as [e|] eqn:El; [|discriminate]. destruct (reverses iw w bs) as [es'|] eqn:Er; [|discriminate]. injection E as <-.
  rewrite chip_run_app. destruct (L _ _ _ _ c H1 H2 El) as [L1 L2]. apply (IH es' _); [| |reflexivity]; rewrite chip_run_app; [exact L1|reflexivity].
Qed.

Lemma rest_levels : forall ls, rests_at (s3_pins x) (s3_rest x) ls -> map is_out ls = [true; true; true] -> exists d, ls = [Some d; Some false; Some false].
Proof.
  intros ls H E. destruct ls as [|[d|] [|[k|] [|[l|] [|? ?]]]]; try discriminate E. destruct s3_diff as (D1 & D2 & D3).
  pose proof (H (s_clock x) false (or_introl eq_refl)) as H1. pose proof (H (s_latch x) false (or_intror (or_introl eq_refl))) as H2.
  unfold s3_pins in H1, H2. cbn [level_of] in H1, H2. rewrite (same_neq (s_data x)) in H1, H2 by congruence. rewrite same_refl in H1. rewrite (same_neq (s_clock x)) in H2 by congruence. rewrite same_refl in H2.
  injection H1 as ->. injection H2 as ->. exists d. reflexivity.
Qed.
Lemma lingers_map : forall A X (f : A -> X) a l l', lingers a l l' -> lingers (f a) (map f l) (map f l').
Proof. intros A X f a l l' H. induction H; cbn [map]; constructor; assumption. Qed.
Lemma lingers_app : forall A (a : A) l l' m m', lingers a l l' -> lingers (last l' a) m m' -> lingers a (l ++ m) (l' ++ m').
Proof. intros A a l l' m m' H K. apply stut_lingers. apply stut_app; apply lingers_stut; assumption. Qed.
Lemma last_map : forall A X (f : A -> X) l a, last (map f l) (f a) = f (last l a).
Proof. intros A X f. induction l as [|b l IH]; intros a; [reflexivity|]. cbn [map]. rewrite !last_step. apply IH. Qed.
Lemma drift_chip : forall iw w evs c ci t bs, 1 <= w -> near_chip ci c -> clock c = false -> latch c = false -> sends iw w x evs bs ->
  drift (s3_pins x) (s3_rest x) (chip_levels c) evs t ->
  exists es, reverses iw w bs = Some es /\ lingers (outs ci) (map outs (chips c t)) (map outs (chip_moments ci es)) /\ near_chip (chip_run ci es) (last (chips c t) c).
Proof.
  intros iw w evs c ci t bs Hw N H1 H2 S D. remember (chip_levels c) as ls eqn:El. revert c ci bs El N H1 H2 S.
  induction D as [ls|ls ls' evs t O Re D IH|ls cs a evs t Li D IH]; intros c ci bs El N H1 H2 S; cbn [sends] in S.
  - subst bs. exists []. split; [reflexivity|]. split; [constructor|exact N].
  - subst ls. destruct (rest_levels ls' Re O) as (d & ->). set (c1 := {| data := d; clock := clock c; latch := latch c; reg := reg c; outs := outs c |}).
    assert (El : chip_look c [Some d; Some false; Some false] = c1).
    { unfold chip_look, c1. cbn. rewrite H1, H2. reflexivity. }
    assert (N1 : near_chip ci c1) by exact N.
    destruct (IH c1 ci bs) as (es & Es & Lg & Nr); [unfold chip_levels, c1; cbn; rewrite H1, H2; reflexivity|exact N1|exact H1|exact H2|exact S|].
    exists es. split; [exact Es|]. cbn [chips]. rewrite El, last_step. split; [|exact Nr]. cbn [map]. change (outs c1) with (outs c). rewrite (proj2 (proj2 (proj2 N))). constructor. exact Lg.
  - destruct S as (b1 & b2 & es1 & -> & E1 & W & S). subst ls. red in W. rewrite W in Li. destruct (chips_linger es1 c a Li) as [L1 La].
    set (c1 := last (chips c a) c) in *.
    assert (Ec : c1 = chip_run c es1).
    { unfold c1. rewrite (stut_last _ _ _ _ (lingers_stut _ _ _ _ L1)). apply moments_run. }
    destruct (near_run ci c es1 N (reverses_starts iw w b1 es1 Hw E1)) as [Mo N1]. rewrite <- Ec in N1.
    destruct (pulse_low iw w b1 es1 c H1 H2 E1) as [P1 P2]. rewrite <- Ec in P1, P2.
    destruct (IH c1 (chip_run ci es1) b2 La N1 P1 P2 S) as (es2 & E2 & L2 & N2). exists (es1 ++ es2).
    split; [apply reverses_app; assumption|]. rewrite chips_app, chip_moments_app, !map_app. fold c1. split.
    + apply lingers_app; [|rewrite last_map, moments_run; exact L2].
      rewrite <- Mo, <- (proj2 (proj2 (proj2 N))). apply lingers_map. exact L1.
    + rewrite chip_run_app. replace (last (chips c a ++ chips c1 t) c) with (last (chips c1 t) c1); [exact N2|].
      unfold c1. clear. generalize (chips c a). intros l. revert c. induction l as [|b l IH]; intros c0; [reflexivity|]. cbn [app]. rewrite !last_step.
      rewrite <- IH. reflexivity.
Qed.
(** The levels of clock and latch in a handler. *)
Lemma level_put : forall qs q p v ls, level_of q qs (put_level qs p v ls) = if same_pin q p then match level_of q qs ls with Some _ => Some v | None => None end else level_of q qs ls.
Proof.
  induction qs as [|y qs IH]; intros q p v ls; [cbn; destruct (same_pin q p); reflexivity|]. destruct ls as [|l ls]; [cbn; destruct (same_pin q p); reflexivity|].
  cbn [put_level level_of]. destruct (same_pin y q) eqn:E.
  - apply same_eq in E. subst y. destruct (same_pin q p); reflexivity.
  - apply IH.
Qed.
Lemma level_events : forall es ls c, level_of (s_clock x) (s3_pins x) ls = Some (clock c) -> level_of (s_latch x) (s3_pins x) ls = Some (latch c) ->
  let ls' := last (levels (s3_pins x) ls (map (fun e => (s3_at x (fst e), snd e)) es)) ls in
  level_of (s_clock x) (s3_pins x) ls' = Some (clock (chip_run c es)) /\ level_of (s_latch x) (s3_pins x) ls' = Some (latch (chip_run c es)).
Proof.
  destruct s3_diff as (D1 & D2 & D3).
  induction es as [|[p v] es IH]; intros ls c H1 H2; [split; assumption|]. cbv zeta. cbn [map levels fst snd]. rewrite last_step.
  apply (IH _ (chip_step c (p, v))); rewrite level_put; destruct p; cbn [s3_at chip_step clock latch];
    repeat match goal with |- context [same_pin ?p ?q] => first [rewrite (same_refl p) | rewrite (same_neq p q) by congruence] end; rewrite ?H1, ?H2; reflexivity.
Qed.
Lemma sends_returns : forall iw w evs bs, sends iw w x evs bs -> Forall (returns (s3_pins x) (s3_rest x)) evs.
Proof.
  intros iw w. induction evs as [|[|cs] evs IH]; intros bs S; [constructor| |]; cbn [sends] in S.
  - constructor; [exact Logic.I|]. exact (IH bs S).
  - destruct S as (b1 & b2 & es & -> & E & W & S). constructor; [|exact (IH b2 S)]. intros ls H. red in W. rewrite W, own_map.
    set (c0 := {| data := false; clock := false; latch := false; reg := []; outs := [] |}).
    assert (H1 : level_of (s_clock x) (s3_pins x) ls = Some (clock c0)) by (apply H; left; reflexivity).
    assert (H2 : level_of (s_latch x) (s3_pins x) ls = Some (latch c0)) by (apply H; right; left; reflexivity).
    destruct (level_events es ls c0 H1 H2) as [G1 G2]. destruct (pulse_low iw w b1 es c0 eq_refl eq_refl E) as [P1 P2].
    rewrite P1 in G1. rewrite P2 in G2. intros q v [I|[I|[]]]; injection I as <- <-; assumption.
Qed.
Lemma s3_isr_l : forall one iw w c m prog evs bs, 1 <= w -> bytes m -> look (s3_pins x) m = chip_levels c -> clock c = false -> latch c = false ->
  Forall (leaves (s3_pins x)) prog -> Forall (pev_ok (s3_pins x)) evs -> sends iw w x evs bs ->
  let seen := chips c (map (look (s3_pins x)) (k_moments one (k_init m prog) (map p_ev evs))) in
  exists es, reverses iw w bs = Some es /\ lingers (outs c) (map outs seen) (map outs (chip_moments c es)) /\
    reg (last seen c) = reg (chip_run c es) /\ outs (last seen c) = outs (chip_run c es).
Proof.
  intros one iw w c m prog evs bs Hw Bm L H1 H2 P F S seen.
  assert (Hr : rests_at (s3_pins x) (s3_rest x) (look (s3_pins x) m)).
  { rewrite L. destruct s3_diff as (D1 & D2 & D3). intros q v [I|[I|[]]]; injection I as <- <-; unfold s3_pins, chip_levels; cbn [level_of];
    repeat match goal with |- context [same_pin ?p ?q] => first [rewrite (same_refl p) | rewrite (same_neq p q) by congruence] end; congruence. }
  assert (Sub : forall q v, In (q, v) (s3_rest x) -> In q (s3_pins x)).
  { intros q v [I|[I|[]]]; injection I as <- <-; unfold s3_pins; cbn [In]; auto. }
  pose proof (pins_isr_l one (s3_pins x) (s3_rest x) m prog evs (proj2 R) Sub Bm Hr P F (sends_returns iw w evs bs S)) as D. rewrite L in D.
  destruct (drift_chip iw w evs c c _ bs Hw ltac:(repeat split; reflexivity) H1 H2 S D) as (es & E & Lg & (_ & _ & N3 & N4)). exists es. auto.
Qed.
End S.

(** ** The values *)
Lemma reverses_outs : forall iw w bs c, 1 <= w <= iw -> Forall (fun b => 0 <= b < 2 ^ w) bs -> clock c = false -> latch c = false -> (Z.to_nat w <= length (reg c))%nat ->
  exists es, reverses iw w bs = Some es /\ reg (chip_run c es) = chain_outs w (reg c) bs /\ (bs <> [] -> outs (chip_run c es) = chain_outs w (reg c) bs) /\
    length (reg (chip_run c es)) = length (reg c) /\ clock (chip_run c es) = false /\ latch (chip_run c es) = false.
Proof.
  intros iw w. induction bs as [|b bs IH]; intros c Hw F H1 H2 Hl.
  - exists []. split; [reflexivity|]. split; [reflexivity|]. split; [congruence|]. auto.
  - inversion F as [|? ? Fb F']; subst. destruct (write_reverse_l iw w b c Hw Fb H1 H2 Hl) as (e & pre & E & _ & _ & C1 & C2 & C3 & C4).
    assert (Le : length (reg (chip_run c e)) = length (reg c)).
    { rewrite C3, C4, app_length, rev_length, firstn_length. 
      assert (G : forall n i, length (low_bits b i n) = n) by (induction n as [|n IHn]; intros i; [reflexivity|]; cbn [low_bits length]; rewrite IHn; reflexivity).
      rewrite G. lia. }
    destruct (IH (chip_run c e) Hw F' C1 C2 ltac:(rewrite Le; exact Hl)) as (es & Es & Rg & Ou & Le2 & K1 & K2).
    exists (e ++ es). cbn [reverses]. rewrite E, Es. split; [reflexivity|]. rewrite chip_run_app.
    assert (St : chain_outs w (reg c) (b :: bs) = chain_outs w (reg (chip_run c e)) bs).
    { unfold chain_outs. cbn [fold_left]. rewrite C3, C4. reflexivity. }
    rewrite St. split; [exact Rg|]. split; [|split; [congruence|auto]]. intros _. destruct bs as [|b' bs].
    + cbn [reverses] in Es. injection Es as <-. cbn [chip_run fold_left chain_outs]. unfold chain_outs. cbn [fold_left]. congruence.
    + apply Ou. discriminate.
Qed.
(** ** A display on the chain *)
Lemma setup_unstut : forall l a b, stut l a b -> setup l a -> setup l b.
Proof.
  intros l a b H. induction H as [x|x a b H IH|x y a b H IH]; intros K; [exact K| |]; cbn [setup] in *; destruct K as [K1 K2]; [exact (IH K2)|].
  split; [exact K1|exact (IH K2)].
Qed.
Lemma delivers_unstut : forall lo l a b ns l', stut l a b -> delivers lo l a ns l' -> delivers lo l b ns l'.
Proof.
  intros lo l a b ns l' H (D1 & D2 & D3 & D4). split; [exact D1|]. split; [eapply setup_unstut; eassumption|].
  split; [rewrite <- (stut_last _ _ _ _ H); exact D3|]. intros m. rewrite <- (watch_stut lo _ _ _ H). apply D4.
Qed.
Lemma lines_stut : forall w ix es b, stut (lines_at w ix b) (map (lines_at w ix) (moments b es)) (map (chip_lines w ix) (chip_moments (w_chip b) (pin_events es))) /\
  w_chip (wires_run b es) = chip_run (w_chip b) (pin_events es).
Proof.
  intros w ix. induction es as [|[e|k v] es IH]; intros b; [split; [constructor|reflexivity]| |].
  - destruct (IH (wires_step b (CPin e))) as [I1 I2]. split; [|exact I2]. cbn [moments pin_events chip_moments map].
    change (chip_lines w ix (chip_step (w_chip b) e)) with (lines_at w ix (wires_step b (CPin e))). constructor. exact I1.
  - destruct (IH (wires_step b (CPwm k v))) as [I1 I2]. split; [|exact I2]. cbn [moments pin_events map].
    change (lines_at w ix b) with (lines_at w ix (wires_step b (CPwm k v))). constructor. exact I1.
Qed.
Lemma s3_display_l : forall lo one iw w devs k ix r b h1 h2 x, 1 <= w <= iw -> layout_ok w devs -> nth_error devs k = Some (Display ix) -> 0 <= r < 2 ^ w -> wires_ok w b ->
  calls_ok devs (fun _ => false) (h1 ++ (k, Attach) :: h2) -> s3_real x ->
  exists s1 es1 s2 es2, ch_run iw w devs (ch_new r) h1 = Some (s1, es1) /\ ch_run iw w devs s1 ((k, Attach) :: h2) = Some (s2, es2) /\
    forall m cs evs, let c := w_chip (wires_run b es1) in bytes m -> look (s3_pins x) m = chip_levels c ->
      Forall (pcall_ok (s3_pins x)) cs -> s3_writes x cs (pin_events es2) -> Forall (leaves (s3_pins x)) (handled evs) ->
      let k0 := k_init m (map p_code cs) in let kk := krun one k0 evs in k_call kk = None -> k_prog kk = [] ->
      exists l', delivers lo (chip_lines w ix c) (map (chip_lines w ix) (chips c (map (look (s3_pins x)) (k_moments one k0 evs)))) (sent false (ChainSpec.own k h2)) l'.
Proof.
  intros lo one iw w devs k ix r b h1 h2 x Hw Hl Hk Hr Hb C R.
  destruct (display_l iw w devs Hw Hl lo k ix Hk r b h1 h2 Hr Hb C) as (s1 & es1 & s2 & es2 & E1 & E2 & D).
  exists s1, es1, s2, es2. split; [exact E1|]. split; [exact E2|]. intros m cs evs c Bm L F W Fh k0 kk N1 N2. cbv zeta in D.
  destruct (s3_main_l x R one c m cs (pin_events es2) evs Bm L F W Fh) as (a & z & Ea & Lg & Zr). rewrite (Zr N1 N2), app_nil_r in Ea. subst a.
  destruct (lines_stut w ix es2 (wires_run b es1)) as [St _].
  eexists. eapply delivers_stut; [apply lingers_stut; apply lingers_map; exact Lg|].
  exact (delivers_unstut _ _ _ _ _ _ St D).
Qed.
(** ** Displays on a chain of the handlers *)
Lemma pin_events_app : forall a b, pin_events (a ++ b) = pin_events a ++ pin_events b.
Proof. induction a as [|[e|k v] a IH]; intros b; cbn [app pin_events]; [reflexivity| |]; rewrite IH; reflexivity. Qed.
Lemma pin_events_map : forall es, pin_events (map CPin es) = es.
Proof. induction es as [|e es IH]; [reflexivity|]. cbn [map pin_events]. rewrite IH. reflexivity. Qed.
Lemma ch_write_values : forall iw w r es, ch_write iw w r = Some es -> reverses iw w [r] = Some (pin_events es).
Proof.
  intros iw w r es E. unfold ch_write, bindo in E. cbn [reverses]. destruct (write_reverse iw w r) as [e|]; [|discriminate]. injection E as <-.
  rewrite pin_events_map, app_nil_r. reflexivity.
Qed.
Lemma ch_writes_values : forall iw w rs es, ch_writes iw w rs = Some es -> reverses iw w rs = Some (pin_events es).
Proof.
  intros iw w. induction rs as [|r rs IH]; intros es E; cbn [ch_writes] in E; [injection E as <-; reflexivity|].
  unfold bindo at 1 in E. destruct (ch_write iw w r) as [a|] eqn:E1; [|discriminate]. unfold bindo in E. destruct (ch_writes iw w rs) as [b|] eqn:E2; [|discriminate].
  injection E as <-. rewrite pin_events_app. exact (reverses_app iw w [r] rs _ _ (ch_write_values _ _ _ _ E1) (IH _ eq_refl)).
Qed.
Lemma mo_values : forall iw w i1 i2 r a b x es, mo_lines iw w i1 i2 r a b = Some (x, es) -> exists bs, reverses iw w bs = Some (pin_events es).
Proof.
  intros iw w i1 i2 r a b x es E. unfold mo_lines, bindo in E. destruct (put iw w r i1 a) as [r1|]; [|discriminate]. destruct (put iw w r1 i2 b) as [r2|]; [|discriminate].
  destruct (ch_write iw w r2) as [e|] eqn:E1; [|discriminate]. injection E as <- <-. exists [r2]. exact (ch_write_values _ _ _ _ E1).
Qed.
Lemma ch_step_values : forall iw w devs s k o s' es, ch_step iw w devs s k o = Some (s', es) -> exists bs, reverses iw w bs = Some (pin_events es).
Proof.
  intros iw w devs s k o s' es E. unfold ch_step in E. destruct (nth_error devs k) as [[ix|i1 i2]|]; destruct o as [|o|c]; try discriminate.
  - unfold bindo in E. destruct (w3_attach iw w ix (ch_reg s)) as [a|]; [|discriminate]. destruct (ch_writes iw w (snd a)) as [e|] eqn:E1; [|discriminate].
    injection E as <- <-. exists (snd a). exact (ch_writes_values _ _ _ _ E1).
  - destruct (ch_att s k); [|injection E as <- <-; exists []; reflexivity].
    unfold bindo in E. destruct (w3_op iw w ix (ch_reg s) o) as [a|]; [|discriminate]. destruct (ch_writes iw w (snd a)) as [e|] eqn:E1; [|discriminate].
    injection E as <- <-. exists (snd a). exact (ch_writes_values _ _ _ _ E1).
  - destruct (mo_lines iw w i1 i2 (ch_reg s) false false) as [[x e]|] eqn:E1; cbn [bindo] in E; [|discriminate]. injection E as <- <-. exact (mo_values _ _ _ _ _ _ _ _ _ E1).
  - destruct (ch_att s k); [|discriminate]. destruct (send_args c) as [[a b] p]. destruct (mo_lines iw w i1 i2 (ch_reg s) a b) as [[x e]|] eqn:E1; cbn [bindo] in E; [|discriminate].
    injection E as <- <-. cbn [snd]. rewrite pin_events_app. cbn [pin_events]. rewrite app_nil_r. exact (mo_values _ _ _ _ _ _ _ _ _ E1).
Qed.
Lemma ch_run_values : forall iw w devs h s s' es, ch_run iw w devs s h = Some (s', es) -> exists bs, reverses iw w bs = Some (pin_events es).
Proof.
  intros iw w devs. induction h as [|[k o] h IH]; intros s s' es E; cbn [ch_run] in E; [injection E as <- <-; exists []; reflexivity|].
  destruct (ch_step iw w devs s k o) as [[s1 e1]|] eqn:E1; cbn [bindo fst snd] in E; [|discriminate].
  destruct (ch_run iw w devs s1 h) as [[s2 e2]|] eqn:E2; cbn [bindo fst snd] in E; [|discriminate]. injection E as <- <-.
  destruct (ch_step_values _ _ _ _ _ _ _ _ E1) as [b1 B1]. destruct (IH _ _ _ E2) as [b2 B2]. exists (b1 ++ b2). rewrite pin_events_app. apply reverses_app; assumption.
Qed.
Lemma lines_outs : forall w ix c t u, lingers (outs c) (map outs t) (map outs u) -> lingers (chip_lines w ix c) (map (chip_lines w ix) t) (map (chip_lines w ix) u).
Proof.
  intros w ix c t u H. pose (g o := chip_lines w ix {| data := false; clock := false; latch := false; reg := []; outs := o |}).
  pose proof (lingers_map _ _ g _ _ _ H) as G. rewrite !map_map in G. exact G.
Qed.
Lemma s3_isr_display_l : forall lo one iw w devs k ix r b h1 h2 x, 1 <= w <= iw -> layout_ok w devs -> nth_error devs k = Some (Display ix) -> 0 <= r < 2 ^ w -> wires_ok w b ->
  calls_ok devs (fun _ => false) (h1 ++ (k, Attach) :: h2) -> s3_real x ->
  exists s1 es1 s2 es2 bs, ch_run iw w devs (ch_new r) h1 = Some (s1, es1) /\ ch_run iw w devs s1 ((k, Attach) :: h2) = Some (s2, es2) /\
    reverses iw w bs = Some (pin_events es2) /\
    forall m prog evs, let c := w_chip (wires_run b es1) in bytes m -> look (s3_pins x) m = chip_levels c ->
      Forall (leaves (s3_pins x)) prog -> Forall (pev_ok (s3_pins x)) evs -> sends iw w x evs bs ->
      exists l', delivers lo (chip_lines w ix c) (map (chip_lines w ix) (chips c (map (look (s3_pins x)) (k_moments one (k_init m prog) (map p_ev evs))))) (sent false (ChainSpec.own k h2)) l'.
Proof.
  intros lo one iw w devs k ix r b h1 h2 x Hw Hl Hk Hr Hb C R.
  destruct (display_l iw w devs Hw Hl lo k ix Hk r b h1 h2 Hr Hb C) as (s1 & es1 & s2 & es2 & E1 & E2 & D).
  destruct (ch_run_values _ _ _ _ _ _ _ E1) as [b1 B1]. destruct (ch_run_values _ _ _ _ _ _ _ E2) as [bs B2].
  exists s1, es1, s2, es2, bs. split; [exact E1|]. split; [exact E2|]. split; [exact B2|]. intros m prog evs c Bm L P F S. cbv zeta in D.
  assert (Lo : clock c = false /\ latch c = false).
  { unfold c. rewrite (proj2 (lines_stut w ix es1 b)). destruct Hb as (H1 & H2 & _). exact (pulse_low iw w b1 _ _ H1 H2 B1). }
  destruct (s3_isr_l x R one iw w c m prog evs bs ltac:(lia) Bm L (proj1 Lo) (proj2 Lo) P F S) as (es & E & Lg & _). rewrite B2 in E. injection E as <-.
  destruct (lines_stut w ix es2 (wires_run b es1)) as [St _].
  eexists. eapply delivers_stut; [apply lingers_stut; exact (lines_outs w ix _ _ _ Lg)|]. exact (delivers_unstut _ _ _ _ _ _ St D).
Qed.

(** ** Pins of two owners *)
Lemma own_leaves : forall qs q v, pin_real q -> ~ In q qs -> leaves qs (al_pin q v).
Proof.
  intros qs [p i] v [_ Hi] N. split; [exact Hi|]. intros [p' i'] I'. unfold al_pin. cbn [fst snd] in *. split; intros Na; apply RegIsrMore.write_names in Na; destruct Na as [N1 N2].
  - apply out_inj in N1. subst. contradiction.
  - apply (out_dir p p'). symmetry. exact N1.
Qed.
Lemma calls_leave : forall qs qs' cs, Forall pin_real qs -> no_common qs qs' -> Forall (pcall_ok qs) cs -> else_leaves qs' cs -> Forall (leaves qs') (map p_code cs).
Proof.
  intros qs qs' cs R A F S. induction cs as [|[q v|o] cs IH]; [constructor| |]; inversion F as [|? ? C F']; subst; inversion S as [|? ? C' S']; subst; cbn [map p_code]; constructor; auto.
  cbn [pcall_ok] in C. apply own_leaves; [|apply A; exact C]. rewrite Forall_forall in R. exact (R q C).
Qed.
Lemma evs_leave : forall qs qs' evs, Forall pin_real qs -> no_common qs qs' -> Forall (pev_ok qs) evs -> Forall (pev_leaves qs') evs -> Forall (leaves qs') (handled (map p_ev evs)).
Proof.
  intros qs qs' evs R A F S. induction evs as [|[|cs] evs IH]; [constructor| |]; inversion F as [|? ? C F']; subst; inversion S as [|? ? C' S']; subst; cbn [map p_ev handled]; auto.
  apply Forall_app. split; auto. exact (calls_leave qs qs' cs R A C C').
Qed.
Lemma no_common_sym : forall qs qs', no_common qs qs' -> no_common qs' qs.
Proof. intros qs qs' A q I I'. exact (A q I' I). Qed.
