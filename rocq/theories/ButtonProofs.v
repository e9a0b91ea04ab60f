Require Import ZArith List Bool Lia ZifyBool.
Import ListNotations.
From Verif Require Import Base BaseFacts BitModel BitProofs TimeModel TimeSpec TimeProofs TaskModel TaskSpec TaskProofs
  ButtonModel ButtonSpec.
Open Scope Z_scope.

(** ** The packed states *)
Definition packed (b cur prev : Z) : Prop := 0 <= b < 256 /\ get_state b = cur /\ get_prev b = prev.

Lemma st_set_spec : forall b i v, 0 <= b < 256 -> 0 <= v < 8 -> i = 0 \/ i = 3 ->
  0 <= st_set b i v < 256 /\ st_get (st_set b i v) i = v /\ st_get (st_set b i v) (3 - i) = st_get b (3 - i).
Proof.
  intros b i v Hb Hv Hi. unfold st_set, st_get.
  destruct (ba_set_get_l 16 8 b i v 3) as [b' [E1 [E2 [E3 [E4 E5]]]]]; try (change (2 ^ 8) with 256; lia).
  rewrite E1. rewrite E3. rewrite E5 by lia. change (2 ^ 8) with 256 in E2. split; [exact E2|].
  split; [|reflexivity]. change (2 ^ 3) with 8. apply Z.mod_small. lia.
Qed.
Lemma packed_state : forall b cur prev v, packed b cur prev -> 0 <= v < 8 -> packed (set_state b v) v prev.
Proof.
  intros b cur prev v [H1 [H2 H3]] Hv. destruct (st_set_spec b 0 v H1 Hv (or_introl eq_refl)) as [S1 [S2 S3]].
  split; [exact S1|]. split; [exact S2|]. unfold get_prev in *. change (3 - 0) with 3 in S3. now rewrite <- H3.
Qed.
Lemma packed_prev : forall b cur prev v, packed b cur prev -> 0 <= v < 8 -> packed (set_prev b v) cur v.
Proof.
  intros b cur prev v [H1 [H2 H3]] Hv. destruct (st_set_spec b 3 v H1 Hv (or_intror eq_refl)) as [S1 [S2 S3]].
  split; [exact S1|]. split; [|exact S2]. unfold get_state in *. change (3 - 3) with 0 in S3. now rewrite <- H2.
Qed.
Lemma packed_get : forall b cur prev, packed b cur prev -> get_state b = cur.
Proof. intros b cur prev H. apply H. Qed.
Lemma packed_getp : forall b cur prev, packed b cur prev -> get_prev b = prev.
Proof. intros b cur prev H. apply H. Qed.

Section Button.
Variables (id debounce hold : Z) (inverse : bool).
Hypothesis Hid : 0 < id < 65536.
Hypothesis Hdb : 0 <= debounce < 4294967296.
Hypothesis Hho : 0 <= hold < 4294967296.

Definition rel (p : pstate) (s : button) (d : delays) : Prop :=
  dinv d /\
  match p with
  | PUnknown => pb_task s = 0 /\ packed (pb_states s) 0 0 /\ lookup_id (d_slots d) id = None
  | POpen => pb_task s = 0 /\ (packed (pb_states s) 1 0 \/ packed (pb_states s) 1 4) /\ lookup_id (d_slots d) id = None
  | PClosed h => pb_task s = 0 /\ (packed (pb_states s) 2 0 \/ packed (pb_states s) 2 4) /\
                 lookup_id (d_slots d) id = Some (hold - h)
  | PHold => pb_task s = 0 /\ packed (pb_states s) 3 2 /\ lookup_id (d_slots d) id = None
  | PBounce => pb_task s = 113 /\ (exists q, 0 <= q < 8 /\ packed (pb_states s) 4 q) /\ lookup_id (d_slots d) id = None
  | PDebounce w => pb_task s = 113 /\ (exists q, 0 <= q < 8 /\ packed (pb_states s) 4 q) /\
                   lookup_id (d_slots d) id = Some (debounce - w)
  end.

Lemma rel_report : forall p s d, rel p s d -> p_report p = (get_state (pb_states s), negb (pb_task s =? 0)).
Proof.
  intros p s d [_ H]. destruct p; cbn [p_report].
  - destruct H as [-> [H _]]. now rewrite (packed_get _ _ _ H).
  - destruct H as [-> [[H|H] _]]; now rewrite (packed_get _ _ _ H).
  - destruct H as [-> [[H|H] _]]; now rewrite (packed_get _ _ _ H).
  - destruct H as [-> [H _]]. now rewrite (packed_get _ _ _ H).
  - destruct H as [-> [[q [_ H]] _]]; now rewrite (packed_get _ _ _ H).
  - destruct H as [-> [[q [_ H]] _]]; now rewrite (packed_get _ _ _ H).
Qed.

(** Outcomes of Wait on the own id. *)
Lemma wait_own : forall d t l b, dinv d -> 0 <= t < 4294967296 ->
  dl_wait (d_slots d) (d_delta d) id t = Some (l, b) ->
  dinv (mkDelays l (d_delta d)) /\
  match lookup_id (d_slots d) id with
  | None => b = false /\ lookup_id l id = Some t
  | Some r => if r <=? d_delta d then b = true /\ lookup_id l id = None
              else b = false /\ lookup_id l id = Some (r - d_delta d)
  end.
Proof.
  intros d t l b HI Ht E. pose proof (step_timer d (DWait id t) (mkDelays l (d_delta d)) b HI (conj Hid Ht)) as ST.
  cbn [dl_step] in ST. rewrite E in ST. specialize (ST eq_refl). destruct ST as [I1 [_ I3]]. split; [exact I1|].
  specialize (I3 id Hid). cbn [tm_step d_slots d_delta out_of] in I3. rewrite Z.eqb_refl in I3.
  destruct (lookup_id (d_slots d) id) as [r|].
  - destruct (r <=? d_delta d); injection I3 as L1 Eb; subst b; auto.
  - injection I3 as L1 Eb; subst b; auto.
Qed.
Lemma clear_own : forall d, dinv d ->
  dinv (mkDelays (dl_clear (d_slots d) id) (d_delta d)) /\ lookup_id (dl_clear (d_slots d) id) id = None.
Proof.
  intros d [H1 H2]. destruct (clear_spec (d_slots d) id H1 ltac:(lia)) as [A1 [A2 [A3 A4]]]. split; [split; assumption|exact A3].
Qed.

Lemma convert_cases : forall v, pb_convert inverse v = if xorb v inverse then 2 else 1.
Proof. intros v. unfold pb_convert. now destruct inverse, v. Qed.

(** The hold part, entered with a settled level whose timer is not running. *)
Lemma hold_enter : forall b d (c : bool) q b' d', dinv d -> packed b (if c then 2 else 1) q -> q = 0 \/ q = 4 ->
  lookup_id (d_slots d) id = None ->
  pb_hold id hold b d = Some (b', d') -> rel (p_level c) (mkButton 0 b') d' /\ d_delta d' = d_delta d.
Proof.
  intros b d c q b' d' HI Hp Hq HL E. unfold pb_hold in E. rewrite (packed_get _ _ _ Hp) in E.
  destruct c; cbn [p_level].
  - change (2 =? stClosed) with true in E. cbv iota in E.
    destruct (dl_wait (d_slots d) (d_delta d) id hold) as [[l r]|] eqn:Wt; [|discriminate].
    destruct (wait_own d hold l r HI Hho Wt) as [I1 I2]. rewrite HL in I2. destruct I2 as [-> I2].
    injection E as <- <-. split; [|reflexivity]. split; [exact I1|]. cbn [pb_task pb_states d_slots]. split; [reflexivity|].
    split; [destruct Hq; subst; auto|]. now rewrite Z.sub_0_r.
  - change (1 =? stClosed) with false in E. cbv iota in E. rewrite waiting_lookup, HL in E. injection E as <- <-.
    split; [|reflexivity]. split; [exact HI|]. cbn [pb_task pb_states]. split; [reflexivity|]. split; [destruct Hq; subst; auto|exact HL].
Qed.

(** Sampling a change in a settled state. *)
Lemma sample_change : forall b cur prev ns, packed b cur prev -> 0 <= cur < 8 -> ns = 1 \/ ns = 2 -> cur <> ns ->
  (cur = 3 -> ns = 1) -> packed (pb_sample b ns) ns cur.
Proof.
  intros b cur prev ns Hp Hc Hn N H3. unfold pb_sample. rewrite (packed_get _ _ _ Hp).
  assert (negb (cur =? ns) && negb ((ns =? stClosed) && (cur =? stHold)) = true) as ->.
  { unfold stClosed, stHold. destruct (Z.eqb_spec cur ns); [contradiction|]. destruct (Z.eqb_spec cur 3); [|destruct (ns =? 2); reflexivity].
    assert (ns = 1) as -> by auto. reflexivity. }
  eapply packed_state; [|lia]. eapply packed_prev; [exact Hp|lia].
Qed.
Lemma sample_same : forall b cur prev, packed b cur prev -> pb_sample b cur = b.
Proof. intros b cur prev Hp. unfold pb_sample. rewrite (packed_get _ _ _ Hp). now rewrite Z.eqb_refl. Qed.

(** A meaningful change starts debouncing. *)
Lemma debounce_yes : forall b d ns cur, dinv d -> packed b ns cur -> ns = 1 \/ ns = 2 -> cur = 1 \/ cur = 2 \/ cur = 3 -> cur <> ns ->
  exists b' d', pb_debounce id b d = (b', d', true) /\ rel PBounce (mkButton 113 b') d' /\ d_delta d' = d_delta d.
Proof.
  intros b d ns cur HI Hp Hn Hc N. unfold pb_debounce. rewrite (packed_get _ _ _ Hp), (packed_getp _ _ _ Hp).
  assert (negb (cur =? ns) && negb (ns =? stHold) && negb (cur =? stUnknown) && negb (cur =? stPending) = true) as ->.
  { unfold stHold, stUnknown, stPending. lia. }
  do 2 eexists. split; [reflexivity|]. destruct (clear_own d HI) as [C1 C2]. split; [|reflexivity]. split; [exact C1|].
  cbn [pb_task pb_states d_slots]. split; [reflexivity|]. split; [|exact C2]. exists cur. split; [lia|].
  eapply packed_state; [exact Hp|]. unfold stPending. lia.
Qed.
Lemma debounce_no : forall b d ns q, packed b ns q -> q = 0 \/ q = 4 \/ ns = 3 -> pb_debounce id b d = (b, d, false).
Proof.
  intros b d ns q Hp Hq. unfold pb_debounce. rewrite (packed_get _ _ _ Hp), (packed_getp _ _ _ Hp).
  assert (negb (q =? ns) && negb (ns =? stHold) && negb (q =? stUnknown) && negb (q =? stPending) = false) as ->; [|reflexivity].
  unfold stHold, stUnknown, stPending. lia.
Qed.

Lemma scan_ok : forall p s d v s' d' r, rel p s d -> pb_scan id debounce hold inverse s d v = Some (s', d', r) ->
  rel (p_scan debounce hold p (xorb v inverse) (d_delta d)) s' d' /\ d_delta d' = d_delta d /\ r = negb (pb_task s' =? 0).
Proof.
  intros p s d v s' d' r [HI H] E. unfold pb_scan in E. rewrite convert_cases in E.
  set (c := xorb v inverse) in *. destruct s as [task b]. cbn [pb_task pb_states] in *.
  destruct p; cbn [p_scan].
  - destruct H as [-> [Hp HL]]. change (0 =? 0) with true in E. cbv iota zeta in E.
    assert (Hp' : packed (pb_sample b (if c then 2 else 1)) (if c then 2 else 1) 0).
    { eapply sample_change; eauto; destruct c; lia. }
    rewrite (debounce_no _ _ _ _ Hp') in E by auto.
    destruct (pb_hold id hold (pb_sample b (if c then 2 else 1)) d) as [[b1 d1]|] eqn:Hh; [|discriminate]. injection E as <- <- <-.
    destruct (hold_enter _ _ _ _ _ _ HI Hp' (or_introl eq_refl) HL Hh) as [R1 R2]. auto.
  - destruct H as [-> [Hp HL]]. change (0 =? 0) with true in E. cbv iota zeta in E.
    assert (Hp' : exists q, (q = 0 \/ q = 4) /\ packed b 1 q) by (destruct Hp; eauto). destruct Hp' as [q [Hq Hp']].
    destruct c.
    + assert (Hs : packed (pb_sample b 2) 2 1) by (eapply sample_change; eauto; lia).
      destruct (debounce_yes _ d 2 1 HI Hs) as [b1 [d1 [D1 [D2 D3]]]]; try lia. rewrite D1 in E. injection E as <- <- <-. auto.
    + rewrite (sample_same _ _ _ Hp') in E. rewrite (debounce_no _ _ _ _ Hp') in E by tauto.
      unfold pb_hold in E. rewrite (packed_get _ _ _ Hp') in E. change (1 =? stClosed) with false in E. cbv iota in E.
      rewrite waiting_lookup, HL in E. injection E as <- <- <-. split; [|auto]. split; [exact HI|]. cbn [pb_task pb_states]. auto.
  - destruct H as [-> [Hp HL]]. change (0 =? 0) with true in E. cbv iota zeta in E.
    assert (Hp' : exists q, (q = 0 \/ q = 4) /\ packed b 2 q) by (destruct Hp; eauto). destruct Hp' as [q [Hq Hp']].
    destruct c.
    + rewrite (sample_same _ _ _ Hp') in E. rewrite (debounce_no _ _ _ _ Hp') in E by tauto.
      unfold pb_hold in E. rewrite (packed_get _ _ _ Hp') in E. change (2 =? stClosed) with true in E. cbv iota in E.
      destruct (dl_wait (d_slots d) (d_delta d) id hold) as [[l r0]|] eqn:Wt; [|discriminate].
      destruct (wait_own d hold l r0 HI Hho Wt) as [I1 I2]. rewrite HL in I2.
      destruct (Z.leb_spec (hold - held) (d_delta d)) as [G|G].
      * destruct I2 as [-> I2]. injection E as <- <- <-. assert (hold <=? held + d_delta d = true) as -> by lia.
        split; [|auto]. split; [exact I1|]. cbn [pb_task pb_states d_slots]. split; [reflexivity|]. split; [|exact I2].
        eapply packed_state; [|unfold stHold; lia]. eapply packed_prev; [exact Hp'|lia].
      * destruct I2 as [-> I2]. injection E as <- <- <-. assert (hold <=? held + d_delta d = false) as -> by lia.
        split; [|auto]. split; [exact I1|]. cbn [pb_task pb_states d_slots]. split; [reflexivity|]. split; [exact Hp|].
        rewrite I2. f_equal. lia.
    + assert (Hs : packed (pb_sample b 1) 1 2) by (eapply sample_change; eauto; lia).
      destruct (debounce_yes _ d 1 2 HI Hs) as [b1 [d1 [D1 [D2 D3]]]]; try lia. rewrite D1 in E. injection E as <- <- <-. auto.
  - destruct H as [-> [Hp HL]]. change (0 =? 0) with true in E. cbv iota zeta in E. destruct c.
    + assert (Hs : pb_sample b 2 = b).
      { unfold pb_sample. rewrite (packed_get _ _ _ Hp). reflexivity. }
      rewrite Hs in E. rewrite (debounce_no _ _ _ _ Hp) in E by tauto.
      unfold pb_hold in E. rewrite (packed_get _ _ _ Hp) in E. change (3 =? stClosed) with false in E. cbv iota in E.
      rewrite waiting_lookup, HL in E. injection E as <- <- <-. split; [|auto]. split; [exact HI|]. cbn [pb_task pb_states]. auto.
    + assert (Hs : packed (pb_sample b 1) 1 3) by (eapply sample_change; eauto; lia).
      destruct (debounce_yes _ d 1 3 HI Hs) as [b1 [d1 [D1 [D2 D3]]]]; try lia. rewrite D1 in E. injection E as <- <- <-. auto.
  - destruct H as [-> [Hp HL]]. change (113 =? 0) with false in E. change (113 =? 113) with true in E. cbv iota in E.
    destruct (dl_wait (d_slots d) (d_delta d) id debounce) as [[l r0]|] eqn:Wt; [|discriminate].
    destruct (wait_own d debounce l r0 HI Hdb Wt) as [I1 I2]. rewrite HL in I2. destruct I2 as [-> I2].
    injection E as <- <- <-. split; [|auto]. split; [exact I1|]. cbn [pb_task pb_states d_slots]. split; [reflexivity|].
    split; [exact Hp|]. now rewrite Z.sub_0_r.
  - destruct H as [-> [Hp HL]]. change (113 =? 0) with false in E. change (113 =? 113) with true in E. cbv iota in E.
    destruct (dl_wait (d_slots d) (d_delta d) id debounce) as [[l r0]|] eqn:Wt; [|discriminate].
    destruct (wait_own d debounce l r0 HI Hdb Wt) as [I1 I2]. rewrite HL in I2.
    destruct (Z.leb_spec (debounce - waited) (d_delta d)) as [G|G].
    + destruct I2 as [-> I2]. assert (debounce <=? waited + d_delta d = true) as -> by lia.
      destruct Hp as [q [Hq Hp]]. rewrite (packed_get _ _ _ Hp) in E. cbv zeta in E.
      assert (Hs : packed (set_state (set_prev b 4) (if c then 2 else 1)) (if c then 2 else 1) 4).
      { eapply packed_state; [|destruct c; lia]. eapply packed_prev; [exact Hp|lia]. }
      destruct (pb_hold id hold (set_state (set_prev b 4) (if c then 2 else 1)) (mkDelays l (d_delta d))) as [[b1 d1]|] eqn:Hh; [|discriminate].
      injection E as <- <- <-. destruct (hold_enter _ _ _ _ _ _ I1 Hs (or_intror eq_refl) I2 Hh) as [R1 R2]. auto.
    + destruct I2 as [-> I2]. assert (debounce <=? waited + d_delta d = false) as -> by lia.
      injection E as <- <- <-. split; [|auto]. split; [exact I1|]. cbn [pb_task pb_states d_slots]. split; [reflexivity|].
      split; [exact Hp|]. rewrite I2. f_equal. lia.
Qed.

Lemma rel_env : forall p s d d', rel p s d -> dinv d' -> lookup_id (d_slots d') id = lookup_id (d_slots d) id -> rel p s d'.
Proof. intros p s d d' [_ H] HI E. split; [exact HI|]. destruct p; rewrite E; exact H. Qed.

Lemma run_ok : forall ops p s d outs, rel p s d -> Forall (pb_ok id) ops ->
  pb_run id debounce hold inverse s d ops = Some outs ->
  outs = map p_report (p_run debounce hold p (scans inverse (d_delta d) ops)).
Proof.
  intros ops. induction ops as [|o ops IH]; intros p s d outs HR Hok E; cbn [pb_run] in E.
  - now injection E as <-.
  - inversion_clear Hok as [|? ? H1 H2]. destruct o as [v|x|o].
    + destruct (pb_scan id debounce hold inverse s d v) as [[[s1 d1] r]|] eqn:E1; [|discriminate].
      destruct (pb_run id debounce hold inverse s1 d1 ops) as [outs1|] eqn:E2; [|discriminate]. injection E as <-.
      destruct (scan_ok _ _ _ _ _ _ _ HR E1) as [R1 [R2 ->]]. cbn [scans p_run map]. f_equal.
      * symmetry. eapply rel_report; eauto.
      * pose proof (IH _ s1 d1 outs1 R1 H2 E2) as R3. rewrite R2 in R3. exact R3.
    + cbn [dl_step] in E. cbn [scans].
      assert (I1 : dinv (mkDelays (d_slots d) x)) by (split; [exact (proj1 (proj1 HR))|exact H1]).
      apply (IH p s (mkDelays (d_slots d) x)); auto. eapply rel_env; eauto.
    + destruct (dl_step d o) as [[d1 b]|] eqn:E1; [|discriminate].
      destruct (tt_other_keep id d o d1 b (proj1 HR) Hid H1 E1) as [I1 [I2 I3]]. cbn [scans]. rewrite <- I2.
      apply (IH p s d1); auto. eapply rel_env; eauto.
Qed.
End Button.

Lemma button_refines_l : forall n pre d outs0 id debounce hold inverse ops outs,
  Forall dl_ok pre -> dl_run (dl_init n) pre = Some (d, outs0) -> dl_waiting (d_slots d) id = false ->
  0 < id < 65536 -> 0 <= debounce < 4294967296 -> 0 <= hold < 4294967296 -> Forall (pb_ok id) ops ->
  pb_run id debounce hold inverse pb_init d ops = Some outs ->
  outs = map p_report (p_run debounce hold PUnknown (scans inverse (d_delta d) ops)).
Proof.
  intros n pre d outs0 id debounce hold inverse ops outs Hp Ep Hw Hid Hdb Hho Hok E.
  destruct (run_timer pre _ _ _ (init_inv n) Hp Ep) as [I0 _].
  eapply run_ok; eauto. split; [exact I0|]. cbn [pb_init pb_task pb_states]. split; [reflexivity|]. split.
  - split; [lia|]. split; vm_compute; reflexivity.
  - rewrite waiting_lookup in Hw. destruct (lookup_id (d_slots d) id); [discriminate|reflexivity].
Qed.

(** ** Reading the specification *)
Section Reading.
Variables (debounce hold : Z).
Definition before (s : pstate) (inputs : list (bool * Z)) (i : nat) : pstate := nth i (s :: p_run debounce hold s inputs) PUnknown.

Lemma before_step : forall inputs s i, (i < length inputs)%nat ->
  before s inputs (S i) = p_scan debounce hold (before s inputs i) (fst (nth i inputs (false, 0))) (snd (nth i inputs (false, 0))).
Proof.
  intros inputs. induction inputs as [|[c d] inputs IH]; intros s i Hi; cbn [length] in Hi; [lia|].
  destruct i as [|i]; [reflexivity|].
  change (before s ((c, d) :: inputs) (S (S i))) with (before (p_scan debounce hold s c d) inputs (S i)).
  rewrite IH by lia. reflexivity.
Qed.
Lemma p_run_len : forall inputs s, length (p_run debounce hold s inputs) = length inputs.
Proof. intros inputs. induction inputs as [|[c d] inputs IH]; intros s; cbn; auto. Qed.

Lemma deltas_snoc : forall inputs i k, (i + k < length inputs)%nat ->
  deltas_from inputs i (S k) = deltas_from inputs i k + snd (nth (i + k) inputs (false, 0)).
Proof.
  intros inputs i. unfold deltas_from. revert inputs. induction i as [|i IH]; intros inputs k H.
  - cbn [skipn Nat.add]. revert k H. induction inputs as [|x inputs IH2]; intros k H; cbn [length] in H; [lia|].
    destruct k as [|k]; [cbn; lia|]. rewrite !firstn_cons. cbn [map fold_right nth]. rewrite IH2 by lia. lia.
  - destruct inputs as [|x inputs]; cbn [length] in H; [lia|]. rewrite skipn_cons. cbn [Nat.add nth]. apply IH. lia.
Qed.

Definition rep (s : pstate) (inputs : list (bool * Z)) (i : nat) : Z := fst (p_report (before s inputs i)).

Lemma transitions : forall inputs i, (i < length inputs)%nat ->
  allowed (rep PUnknown inputs i) (fst (nth i inputs (false, 0))) (rep PUnknown inputs (S i)).
Proof.
  intros inputs i Hi. unfold rep. rewrite before_step by assumption. generalize (before PUnknown inputs i). intros p.
  generalize (fst (nth i inputs (false, 0))) (snd (nth i inputs (false, 0))). intros c d.
  unfold allowed. destruct p; cbn [p_report p_scan fst].
  - left. split; [reflexivity|]. now destruct c.
  - right; left. split; [reflexivity|]. now destruct c.
  - right; right; left. split; [reflexivity|]. destruct c; [|reflexivity]. destruct (hold <=? held + d); auto.
  - right; right; right; left. split; [reflexivity|]. now destruct c.
  - right; right; right; right. split; [reflexivity|]. now left.
  - right; right; right; right. split; [reflexivity|]. destruct (debounce <=? waited + d); [right|left; reflexivity]. now destruct c.
Qed.

Lemma pending_start : forall inputs i, (i < length inputs)%nat ->
  rep PUnknown inputs i <> stPending -> rep PUnknown inputs (S i) = stPending -> before PUnknown inputs (S i) = PBounce.
Proof.
  intros inputs i Hi N H. unfold rep in *. rewrite before_step in * by assumption.
  destruct (before PUnknown inputs i); cbn [p_report p_scan fst] in *;
    destruct (fst (nth i inputs (false, 0))); try reflexivity; try discriminate; try (exfalso; now apply N).
  destruct (hold <=? held + snd (nth i inputs (false, 0))); discriminate.
Qed.

Lemma pending_acc : forall inputs i k, (S i + S k <= length inputs)%nat ->
  before PUnknown inputs (S i) = PBounce ->
  (forall j, (j <= k)%nat -> rep PUnknown inputs (S (S i) + j) = stPending) ->
  before PUnknown inputs (S (S i) + k) = PDebounce (deltas_from inputs (S (S i)) k).
Proof.
  intros inputs i k Hk HB. induction k as [|k IH]; intros HP.
  - rewrite Nat.add_0_r. rewrite before_step by lia. rewrite HB. reflexivity.
  - specialize (IH ltac:(lia) (fun j Hj => HP j ltac:(lia))).
    replace (S (S i) + S k)%nat with (S (S (S i) + k)) by lia. rewrite before_step by lia. rewrite IH.
    rewrite deltas_snoc by lia. cbn [p_scan].
    specialize (HP (S k) (le_n _)). unfold rep in HP. replace (S (S i) + S k)%nat with (S (S (S i) + k)) in HP by lia.
    rewrite before_step in HP by lia. rewrite IH in HP. cbn [p_scan] in HP.
    destruct (debounce <=? _); [|reflexivity]. destruct (fst (nth (S (S i) + k) inputs (false, 0))); discriminate.
Qed.

Lemma debounce_time : forall inputs i, (S i < length inputs)%nat ->
  rep PUnknown inputs i <> stPending -> rep PUnknown inputs (S i) = stPending ->
  rep PUnknown inputs (S (S i)) = stPending /\
  forall k, (S (S i) + k < length inputs)%nat ->
    (forall j, (j <= k)%nat -> rep PUnknown inputs (S (S i) + j) = stPending) ->
    rep PUnknown inputs (S (S (S i) + k)) =
      if debounce <=? deltas_from inputs (S (S i)) (S k)
      then (if fst (nth (S (S i) + k) inputs (false, 0)) then stClosed else stOpen) else stPending.
Proof.
  intros inputs i Hi N H. pose proof (pending_start inputs i ltac:(lia) N H) as B. split.
  - unfold rep. rewrite before_step by lia. rewrite B. reflexivity.
  - intros k Hk HP. pose proof (pending_acc inputs i k ltac:(lia) B HP) as B2. unfold rep. rewrite before_step by lia.
    rewrite B2. cbn [p_scan]. rewrite deltas_snoc by lia.
    destruct (debounce <=? _); [|reflexivity]. now destruct (fst (nth (S (S i) + k) inputs (false, 0))).
Qed.

Lemma closed_start : forall inputs i, (i < length inputs)%nat ->
  rep PUnknown inputs i <> stClosed -> rep PUnknown inputs (S i) = stClosed -> before PUnknown inputs (S i) = PClosed 0.
Proof.
  intros inputs i Hi N H. unfold rep in *. rewrite before_step in * by assumption.
  destruct (before PUnknown inputs i); cbn [p_report p_scan fst p_level] in *;
    destruct (fst (nth i inputs (false, 0))); try reflexivity; try discriminate; try (exfalso; now apply N);
    destruct (debounce <=? _); try discriminate; reflexivity.
Qed.
Lemma closed_acc : forall inputs i k, (S i + k <= length inputs)%nat ->
  before PUnknown inputs (S i) = PClosed 0 ->
  (forall j, (j <= k)%nat -> rep PUnknown inputs (S i + j) = stClosed) ->
  before PUnknown inputs (S i + k) = PClosed (deltas_from inputs (S i) k).
Proof.
  intros inputs i k Hk HB. induction k as [|k IH]; intros HP.
  - rewrite Nat.add_0_r. rewrite HB. reflexivity.
  - specialize (IH ltac:(lia) (fun j Hj => HP j ltac:(lia))).
    replace (S i + S k)%nat with (S (S i + k)) by lia. rewrite before_step by lia. rewrite IH.
    rewrite deltas_snoc by lia. cbn [p_scan].
    specialize (HP (S k) (le_n _)). unfold rep in HP. replace (S i + S k)%nat with (S (S i + k)) in HP by lia.
    rewrite before_step in HP by lia. rewrite IH in HP. cbn [p_scan] in HP.
    destruct (fst (nth (S i + k) inputs (false, 0))); [|discriminate]. destruct (hold <=? _); [discriminate|reflexivity].
Qed.
Lemma hold_time : forall inputs i k, (S i + k < length inputs)%nat ->
  rep PUnknown inputs i <> stClosed ->
  (forall j, (j <= k)%nat -> rep PUnknown inputs (S i + j) = stClosed) ->
  rep PUnknown inputs (S (S i + k)) =
    if fst (nth (S i + k) inputs (false, 0))
    then (if hold <=? deltas_from inputs (S i) (S k) then stHold else stClosed) else stPending.
Proof.
  intros inputs i k Hk N HP. assert (H0 : rep PUnknown inputs (S i) = stClosed).
  { specialize (HP O ltac:(lia)). now rewrite Nat.add_0_r in HP. }
  pose proof (closed_start inputs i ltac:(lia) N H0) as B.
  pose proof (closed_acc inputs i k ltac:(lia) B HP) as B2. unfold rep. rewrite before_step by lia.
  rewrite B2. cbn [p_scan]. rewrite deltas_snoc by lia.
  destruct (fst (nth (S i + k) inputs (false, 0))); [|reflexivity]. now destruct (hold <=? _).
Qed.
End Reading.

(** In terms of the reported states: [reports] of the list of states, the initial one included. *)
Lemma rep_reports : forall debounce hold inputs i,
  rep debounce hold PUnknown inputs i = reports ((stUnknown, false) :: map p_report (p_run debounce hold PUnknown inputs)) i.
Proof.
  intros debounce hold inputs i. unfold rep, reports, before.
  change ((stUnknown, false) :: map p_report (p_run debounce hold PUnknown inputs)) with
    (map p_report (PUnknown :: p_run debounce hold PUnknown inputs)).
  change (stUnknown, false) with (p_report PUnknown). now rewrite map_nth.
Qed.

(** ** DigitalInput *)
Lemma di_run_l : forall samples value,
  let (final, rs) := di_run value samples in
  final = last samples value /\ length rs = length samples /\
  (forall i, (i < length samples)%nat ->
     nth i rs false = xorb (nth i samples false) (nth i (value :: samples) false)) /\
  fold_right xorb false rs = xorb value final.
Proof.
  intros samples. induction samples as [|v samples IH]; intros value; cbn [di_run].
  - split; [reflexivity|]. split; [reflexivity|]. split; [intros i Hi; cbn in Hi; lia|]. now destruct value.
  - assert (R : di_read value v = (v, xorb v value)) by (unfold di_read; now destruct value, v). rewrite R.
    specialize (IH v). destruct (di_run v samples) as [final rs]. destruct IH as [I1 [I2 [I3 I4]]].
    split; [|split; [cbn [length]; lia|split]].
    + rewrite I1. destruct samples as [|w samples]; [reflexivity|]. change (last (v :: w :: samples) value) with (last (w :: samples) value).
      clear. revert w. induction samples as [|x samples IH]; intros w; [reflexivity|].
      change (last (w :: x :: samples) v) with (last (x :: samples) v).
      change (last (w :: x :: samples) value) with (last (x :: samples) value). apply IH.
    + intros [|i] Hi; [reflexivity|]. cbn [nth length] in *. now apply I3; lia.
    + cbn [fold_right]. rewrite I4. now destruct v, value, final.
Qed.

(** ** AVR/Button.h *)
Lemma bt_set_l : forall b cur prev ns, packed b cur prev -> 0 <= cur < 8 -> 0 <= ns < 8 ->
  let (b', r) := bt_set_state b ns in
  if negb (cur =? ns) && negb ((ns =? stClosed) && (cur =? stHold))
  then r = true /\ packed b' ns cur else r = false /\ b' = b.
Proof.
  intros b cur prev ns Hp Hc Hn. unfold bt_set_state. rewrite (packed_get _ _ _ Hp).
  destruct (negb (cur =? ns) && negb ((ns =? stClosed) && (cur =? stHold))); [|auto].
  split; [reflexivity|]. eapply packed_state; [|assumption]. eapply packed_prev; eauto.
Qed.

Lemma history_l : forall n pre id debounce hold inverse ops delta outs,
  pb_history n pre id debounce hold inverse ops delta outs ->
  outs = map p_report (p_run debounce hold PUnknown (scans inverse delta ops)).
Proof.
  intros n pre id debounce hold inverse ops delta outs [H1 [H2 [H3 [H4 [H5 [d [outs0 [H6 [H7 [<- H8]]]]]]]]]].
  eapply button_refines_l; eauto.
Qed.

Lemma history_transitions : forall n pre id debounce hold inverse ops delta outs,
  pb_history n pre id debounce hold inverse ops delta outs ->
  let ins := scans inverse delta ops in
  let st := reports ((stUnknown, false) :: outs) in
  length outs = length ins /\
  forall i, (i < length ins)%nat -> allowed (st i) (fst (nth i ins (false, 0))) (st (S i)).
Proof.
  intros n pre id debounce hold inverse ops delta outs H. rewrite (history_l _ _ _ _ _ _ _ _ _ H). cbv zeta. split.
  - now rewrite map_length, p_run_len.
  - intros i Hi. rewrite <- !rep_reports. now apply transitions.
Qed.
Lemma history_debounce : forall n pre id debounce hold inverse ops delta outs,
  pb_history n pre id debounce hold inverse ops delta outs ->
  let ins := scans inverse delta ops in
  let st := reports ((stUnknown, false) :: outs) in
  forall i, (S i < length ins)%nat -> st i <> stPending -> st (S i) = stPending ->
  st (S (S i)) = stPending /\
  forall k, (S (S i) + k < length ins)%nat ->
    (forall j, (j <= k)%nat -> st (S (S i) + j)%nat = stPending) ->
    st (S (S (S i) + k)) =
      if debounce <=? deltas_from ins (S (S i)) (S k)
      then (if fst (nth (S (S i) + k) ins (false, 0)) then stClosed else stOpen) else stPending.
Proof.
  intros n pre id debounce hold inverse ops delta outs H. rewrite (history_l _ _ _ _ _ _ _ _ _ H). cbv zeta.
  intros i Hi N P. rewrite <- rep_reports in N, P |- *.
  destruct (debounce_time debounce hold _ i Hi N P) as [D1 D2]. split; [exact D1|].
  intros k Hk HP. rewrite <- rep_reports. apply D2; [exact Hk|]. intros j Hj. rewrite rep_reports. now apply HP.
Qed.
Lemma history_hold : forall n pre id debounce hold inverse ops delta outs,
  pb_history n pre id debounce hold inverse ops delta outs ->
  let ins := scans inverse delta ops in
  let st := reports ((stUnknown, false) :: outs) in
  forall i k, (S i + k < length ins)%nat -> st i <> stClosed ->
    (forall j, (j <= k)%nat -> st (S i + j)%nat = stClosed) ->
    st (S (S i + k)) =
      if fst (nth (S i + k) ins (false, 0))
      then (if hold <=? deltas_from ins (S i) (S k) then stHold else stClosed) else stPending.
Proof.
  intros n pre id debounce hold inverse ops delta outs H. rewrite (history_l _ _ _ _ _ _ _ _ _ H). cbv zeta.
  intros i k Hk N HP. rewrite <- rep_reports in N |- *. apply hold_time; auto.
  intros j Hj. rewrite rep_reports. now apply HP.
Qed.

Lemma bt_value_l : forall inverse b v, 0 <= b < 256 ->
  get_state (bt_value inverse b v) =
    if xorb inverse v then (if get_state b =? stHold then stHold else stClosed) else stOpen.
Proof.
  intros inverse b v B.
  assert (S1 : 0 <= get_state b < 8) by (unfold get_state, st_get; rewrite ba_get_l by (change (2 ^ 8) with 256; lia); apply Z.mod_pos_bound; reflexivity).
  assert (C : pb_convert inverse v = if xorb inverse v then stClosed else stOpen) by (destruct inverse, v; reflexivity).
  unfold bt_value. rewrite C. set (ns := if xorb inverse v then stClosed else stOpen).
  assert (N : 0 <= ns < 8) by (unfold ns, stClosed, stOpen; destruct (xorb inverse v); lia).
  pose proof (bt_set_l b (get_state b) (get_prev b) ns (conj B (conj eq_refl eq_refl)) S1 N) as H.
  destruct (bt_set_state b ns) as [b' r]. cbn [fst]. revert H. unfold ns.
  destruct (xorb inverse v).
  - rewrite Z.eqb_refl. cbn [andb]. destruct (Z.eqb_spec (get_state b) stHold) as [E|E].
    + rewrite andb_false_r. intros (_ & ->). exact E.
    + rewrite andb_true_r. destruct (Z.eqb_spec (get_state b) stClosed) as [E2|E2]; cbn [negb]; [intros (_ & ->); exact E2|intros (_ & _ & E3 & _); exact E3].
  - change (stOpen =? stClosed) with false. cbn [andb negb]. rewrite andb_true_r.
    destruct (Z.eqb_spec (get_state b) stOpen) as [E2|E2]; cbn [negb]; [intros (_ & ->); exact E2|intros (_ & _ & E3 & _); exact E3].
Qed.
