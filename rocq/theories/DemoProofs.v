Require Import ZArith List Bool Lia ZifyBool.
Import ListNotations.
From Verif Require Import Base BaseFacts HdModel HdSpec HdProofs UiModel PageModel PageSpec PageProofs ArduinoModel ArduinoSpec SketchModel SketchSpec SketchProofs.
From Verif Require Import DelayModel DelaySpec DelayProofs DemoModel DemoSpec.
Open Scope Z_scope.
Ltac Zify.zify_post_hook ::= idtac.

(** ** Blink *)
Section Blink.
Variable timer : Z -> bool.
Variable outside : Z -> bool -> bool.
Variables led ms : Z.
Lemma toggle_l : forall b, p_ddr (b led) = true ->
  p_ddr (fst (p_step timer outside b (PToggle led)) led) = true /\ p_latch (fst (p_step timer outside b (PToggle led)) led) = negb (p_latch (b led)).
Proof.
  intros b D. unfold p_step, digital_read, digital_write. cbv zeta. unfold pwm_off. destruct (timer led); unfold set_pin; cbn [fst]; rewrite ?Z.eqb_refl; cbn [p_ddr p_latch p_pwm]; rewrite ?D; auto.
Qed.
Lemma blink_levels : forall rounds b now, p_ddr (b led) = true -> alternates (negb (p_latch (b led))) (map snd (blink_run timer outside led ms b now rounds)).
Proof.
  induction rounds as [|[gap polls] rest IH]; intros b now D; [exact Logic.I|]. cbn [blink_run]. cbv zeta. cbn [map snd alternates].
  destruct (toggle_l b D) as [D1 L1]. split; [exact L1|]. destruct (wait_ms ms (now + gap) polls) as [c|]; [|exact Logic.I].
  rewrite <- L1. apply IH. exact D1.
Qed.
Lemma blink_head : forall rounds b now u l, rounds_ok ms now rounds -> blink_run timer outside led ms b now rounds = u :: l -> now <= fst u.
Proof. intros [|[gap polls] rest] b now u l R E; [discriminate|]. cbn [blink_run] in E. cbv zeta in E. injection E as <- _. cbn [fst]. destruct R as (G & _). lia. Qed.
Lemma blink_apart : forall rounds b now, 0 <= ms < 4294967296 -> rounds_ok ms now rounds ->
  apart (fun d => ms_cycles ms - 64 < d) (map fst (blink_run timer outside led ms b now rounds)).
Proof.
  induction rounds as [|[gap polls] rest IH]; intros b now M R; [exact Logic.I|]. destruct R as (G & R1 & R2). cbn [blink_run]. cbv zeta. cbn [map fst apart].
  destruct (wait_ms ms (now + gap) polls) as [c|] eqn:W; [|split; exact Logic.I]. split; [|apply IH; assumption].
  set (b1 := fst (p_step timer outside b (PToggle led))). destruct (blink_run timer outside led ms b1 c rest) as [|u l] eqn:E; [exact Logic.I|].
  cbn [map]. apply (blink_head rest b1 c u l R2) in E. pose proof (ms_at_least_l ms (now + gap) polls c M R1 W) as H. lia.
Qed.
Lemma blink_head2 : forall g rounds b now u l, rounds_quick g ms now rounds -> blink_run timer outside led ms b now rounds = u :: l -> fst u <= now + g.
Proof. intros g [|[gap polls] rest] b now u l R E; [discriminate|]. cbn [blink_run] in E. cbv zeta in E. injection E as <- _. cbn [fst]. destruct R as (G & _). lia. Qed.
Lemma blink_close : forall g rounds b now, 0 < ms < 4294967296 -> rounds_ok ms now rounds -> rounds_quick g ms now rounds ->
  apart (fun d => d < ms_cycles (ms + 1) + g) (map fst (blink_run timer outside led ms b now rounds)).
Proof.
  intros g. induction rounds as [|[gap polls] rest IH]; intros b now M R Q; [exact Logic.I|]. destruct R as (G & R1 & R2), Q as (Q0 & Q1 & Q2). cbn [blink_run]. cbv zeta. cbn [map fst apart].
  destruct (wait_ms ms (now + gap) polls) as [c|] eqn:W; [|split; exact Logic.I]. split; [|apply IH; assumption].
  set (b1 := fst (p_step timer outside b (PToggle led))). destruct (blink_run timer outside led ms b1 c rest) as [|u l] eqn:E; [exact Logic.I|].
  cbn [map]. apply (blink_head2 g rest b1 c u l Q2) in E. pose proof (ms_latest_l ms (now + gap) polls c M R1 Q1 W) as H. unfold ms_cycles in *. lia.
Qed.
Lemma blink_count : forall rounds b now, rounds_end ms now rounds -> length (blink_run timer outside led ms b now rounds) = length rounds.
Proof.
  induction rounds as [|[gap polls] rest IH]; intros b now R; [reflexivity|]. destruct R as (c & W & R). cbn [blink_run]. cbv zeta. rewrite W. cbn [length]. rewrite IH by exact R. reflexivity.
Qed.
End Blink.

(** ** Page *)
Section Page.
Variables iw rows : Z.
Hypothesis iw8 : 8 <= iw.
Hypothesis rok : rows_ok rows.
Variable text : Z -> list Z.
Variable edit : Z -> Z.
Definition not_cursor (w : wcall) : bool := match w with WCursor _ _ _ => false | _ => true end.
Lemma lw_filter : forall ws s, lw_run iw rows s ws = dw_run iw rows s (filter not_cursor ws).
Proof.
  induction ws as [|w ws IH]; intros s; [reflexivity|]. destruct w; cbn [filter not_cursor lw_run dw_run lw_call dw_call].
  - destruct (view_run rows (snd s) (map VChar t)) as [a|]; [|reflexivity]. cbn [bindo fst snd]. rewrite IH. reflexivity.
  - destruct (dw_goto rows (snd s) l c) as [a|]; [|reflexivity]. cbn [bindo fst snd]. rewrite IH. reflexivity.
  - cbn [bindo fst snd]. rewrite IH. destruct s as [r v]. cbn [fst snd]. destruct (dw_run iw rows (r, v) (filter not_cursor ws)) as [[[a b] c0]|]; reflexivity.
Qed.
Lemma filter_all : forall ws, forallb not_cursor ws = true -> filter not_cursor ws = ws.
Proof. induction ws as [|w ws IH]; intros H; [reflexivity|]. cbn [forallb] in H. apply andb_prop in H as [H1 H2]. cbn [filter]. rewrite H1, IH by exact H2. reflexivity. Qed.
Lemma columns_clean : forall kids, Forall (control_fits text rows) kids -> forallb not_cursor (columns text edit kids) = true.
Proof.
  induction 1 as [|x r [Hb Hx] F IH]; [reflexivity|]. cbn [columns]. rewrite forallb_app. fold (columns text edit). rewrite IH, andb_true_r.
  destruct (visible (st_of x)); [|reflexivity]. destruct x; [reflexivity|reflexivity|contradiction].
Qed.
Lemma rows_clean : forall lines, Forall (line_fits text rows) lines -> forallb not_cursor (rows_of text edit lines) = true.
Proof.
  induction 1 as [|x r [Hb Hx] F IH]; [reflexivity|]. cbn [rows_of]. rewrite forallb_app. fold (rows_of text edit). rewrite IH, andb_true_r.
  destruct (visible (st_of x)); [|reflexivity]. destruct x as [s p t|s p i lr log|k s p cur kids]; try contradiction. destruct k; try contradiction.
  cbn [forallb not_cursor andb]. change (display text edit DNormal (Box Horizontal s p cur kids)) with (columns text edit kids). apply columns_clean. exact Hb.
Qed.
Lemma cursor_only : forall c, (match c with Box Horizontal _ _ _ kids => Forall (control_fits text rows) kids | Box _ _ _ _ _ => False | _ => True end) ->
  filter not_cursor (display text edit DCursor c) = [].
Proof.
  intros c F. destruct c as [s p t|s p i lr log|k s p cur kids]; [reflexivity| |].
  - cbn [display]. destruct (lr && active s); reflexivity.
  - destruct k; try contradiction. rewrite display_line_cursor. destruct cur as [i|]; [|reflexivity]. destruct (nth_error kids i) as [x|] eqn:E; [|reflexivity].
    rewrite Forall_forall in F. destruct (F x (nth_error_In _ _ E)) as [Hb _]. destruct x as [s' p' t'|s' p' i' lr' log'|]; [reflexivity| |contradiction].
    cbn [display]. destruct (lr' && active s'); reflexivity.
Qed.
Lemma page_clean : forall page, page_fits text rows page -> filter not_cursor (display text edit DNormal page) = rows_of text edit (kids_of page).
Proof.
  intros page F. destruct page as [| |k st p cur lines]; try contradiction. destruct k; try contradiction. cbn [page_fits kids_of] in *.
  rewrite display_page, filter_app, (filter_all (rows_of text edit lines)) by (apply rows_clean; exact F).
  match goal with |- _ ++ filter _ ?x = _ => assert (E : filter not_cursor x = []) end; [|rewrite E, app_nil_r; reflexivity].
  destruct (current_input _) as [f|]; [|reflexivity]. destruct (current_line _) as [line|] eqn:L; [|reflexivity]. cbn [filter not_cursor].
  unfold current_line in L. cbn [cur_of kids_of] in L. destruct cur as [i|]; [|discriminate]. rewrite Forall_forall in F. destruct (F line (nth_error_In _ _ L)) as [Hb _].
  apply cursor_only. destruct line as [| |k ? ? ? ?]; try contradiction. destruct k; try contradiction. exact Hb.
Qed.
Lemma lw_page : forall page r v d, page_fits text rows page -> in_step iw r d ->
  exists v' ds, lw_run iw rows (r, v) (display text edit DNormal page) = Some (r, v', ds) /\ Forall whole ds /\
    let d' := exec_all d (map byte_of ds) in
    in_step iw r d' /\ disp d' = disp d /\ curs d' = curs d /\ blink d' = blink d /\ off d' = off d /\
    forall y x, 0 <= y < rows -> 0 <= x < width rows -> on_screen d' y x = picture (on_screen d) (page_pieces text page) y x.
Proof.
  intros page r v d F S. rewrite lw_filter, page_clean by exact F. destruct page as [| |k st p cur lines]; try contradiction. destruct k; try contradiction. cbn [page_fits kids_of] in *.
  destruct (rows_l iw rows iw8 rok text edit lines F r v d (on_screen d) S ltac:(intros ? ? ? ?; reflexivity)) as (v1 & d1 & E1 & X). exists v1, d1. split; [exact E1|exact X].
Qed.
Lemma page_setup_l : forall page, page_fits text rows page ->
  exists r v ds, page_setup iw rows text edit page = Some (r, v, init7 ++ ds) /\ Forall whole ds /\
  forall d, let d' := exec_all (exec_all d [(false, 40); (false, 1); (false, 2)]) (map byte_of ds) in
    display_plain d' /\ screen_is rows d' (picture no_text (page_pieces text page)).
Proof.
  intros page F. destruct (start2 iw rows iw8) as (r1 & e1 & r & e2 & E1 & E2 & O1 & O2 & X).
  assert (R : forall d, ready iw r d -> exists v ds, lw_run iw rows (r, snd t_new) (display text edit DNormal page) = Some (r, v, ds) /\ Forall whole ds /\
    let d' := exec_all d (map byte_of ds) in display_plain d' /\ screen_is rows d' (picture no_text (page_pieces text page))).
  { intros d (S & M & A & D1 & D2 & D3 & D4). destruct (lw_page page r (snd t_new) d F S) as (v & ds & E & O & S2 & Y1 & Y2 & Y3 & Y4 & H).
    exists v, ds. split; [exact E|]. split; [exact O|]. cbv zeta. split; [unfold display_plain; rewrite Y1, Y2, Y3, Y4; auto|].
    intros y x Hy Hx. rewrite H by assumption. apply (picture_in rows); try assumption. intros a b Ha Hb. unfold on_screen. rewrite M. reflexivity. }
  destruct (R _ (X HdSpec.lcd_new)) as (v & ds & E & O & _).
  exists r, v, (e1 ++ e2 ++ ds). unfold page_setup. cbn [t_run]. rewrite E1. cbn [bindo fst snd]. rewrite E2. cbn [bindo fst snd]. rewrite E. cbn [bindo fst snd].
  rewrite app_nil_r, <- !app_assoc. split; [reflexivity|]. split; [repeat (apply Forall_app; split; try assumption)|].
  intros d. cbv zeta. rewrite app_assoc, map_app, exec_all_app.
  destruct (R _ (X d)) as (v' & ds' & E' & O' & Y). rewrite E in E'. injection E' as <- <-. exact Y.
Qed.
End Page.
