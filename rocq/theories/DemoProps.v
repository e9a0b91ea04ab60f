(** C86: blink and page. *)
Require Import ZArith List Bool Lia.
Import ListNotations.
From Verif Require Import Base HdModel HdSpec HdProofs TextModel UiModel PageModel PageSpec
  ArduinoModel ArduinoSpec SketchModel SketchSpec SketchProofs MotorPinSpec DelayModel DelaySpec DelayProofs DemoModel DemoSpec DemoProofs.
Open Scope Z_scope.

(** Blink.ino after a reset, at any pin and with any delay: the pin changes in every round, first to high, and the
    changes are never more than 4 us closer than the delay. *)
Theorem demo_blink : forall timer outside led ms now rounds, 0 <= ms < 4294967296 -> rounds_ok ms now rounds ->
  let l := blink_run timer outside led ms (blink_new timer outside led reset) now rounds in
  alternates true (map snd l) /\ apart (fun d => ms_cycles ms - 64 < d) (map fst l) /\
  (rounds_end ms now rounds -> length l = length rounds).
Proof.
  intros timer outside led ms now rounds M R l. subst l.
  assert (B : p_ddr (blink_new timer outside led reset led) = true /\ p_latch (blink_new timer outside led reset led) = false).
  { unfold blink_new, p_step, pin_mode, reset, set_pin. cbv zeta. cbn [fst]. rewrite Z.eqb_refl. split; reflexivity. }
  destruct B as [B1 B2]. split; [|split].
  - change true with (negb false). rewrite <- B2. apply blink_levels. exact B1.
  - apply blink_apart; assumption.
  - apply blink_count.
Qed.
Print Assumptions demo_blink.
(** With the clock read every 996 us, and rounds at most [g] cycles apart, the changes are less than a millisecond and
    [g] further apart than the delay. *)
Theorem demo_blink_close : forall timer outside led ms b now rounds g, 0 < ms < 4294967296 -> rounds_ok ms now rounds -> rounds_quick g ms now rounds ->
  apart (fun d => d < ms_cycles (ms + 1) + g) (map fst (blink_run timer outside led ms b now rounds)).
Proof. intros timer outside led ms b now rounds g. apply blink_close. Qed.
Print Assumptions demo_blink_close.

(** Page.ino at any six pins, any page that fits, whatever mode the display was in: the page is on the
    screen and no cursor, also if a control is being edited. *)
Theorem demo_page : forall iw rows lo timer outside x b m text edit page, 8 <= iw -> rows_ok rows -> 0 <= lo < 16 -> mode_ok m ->
  pins_free timer x b -> page_fits text rows page ->
  exists r v os l' taken, page_setup iw rows text edit page = Some (r, v, os) /\
    seen_pins lo timer outside x b m os = (l', M4, taken) /\
    forall d0, let d := exec_all d0 taken in display_plain d /\ screen_is rows d (picture no_text (page_pieces text page)).
Proof.
  intros iw rows lo timer outside x b m text edit page W RO Hlo Hm (P1 & P2 & P3 & P4) F.
  destruct (page_setup_l iw rows W RO text edit page F) as (r & v & ds & E & Wd & X).
  destruct (pins_wire lo timer outside x b m ds Hlo Hm P1 P2 P3 P4 Wd) as (l' & gs & D).
  exists r, v, (init7 ++ ds), l', (gs ++ [(false, 40); (false, 1); (false, 2)] ++ map byte_of ds). split; [exact E|]. split; [exact D|].
  intros d0. cbv zeta. rewrite !exec_all_app. exact (X (exec_all d0 gs)).
Qed.
Print Assumptions demo_page.
(** The same writer in any program: drawing a page any time changes the screen to it and leaves the cursor settings. *)
Theorem demo_page_again : forall iw rows text edit page r v d, 8 <= iw -> rows_ok rows -> page_fits text rows page -> in_step iw r d ->
  exists v' ds, lw_run iw rows (r, v) (display text edit DNormal page) = Some (r, v', ds) /\ Forall whole ds /\
    let d' := exec_all d (map byte_of ds) in
    in_step iw r d' /\ disp d' = disp d /\ curs d' = curs d /\ blink d' = blink d /\ off d' = off d /\
    forall y x, 0 <= y < rows -> 0 <= x < width rows -> on_screen d' y x = picture (on_screen d) (page_pieces text page) y x.
Proof. intros iw rows text edit page r v d W RO F S. apply lw_page; assumption. Qed.
Print Assumptions demo_page_again.

(** Three rounds of Blink with the delay of 200 ms and clock readings every 992 us. *)
Definition readings (t : Z) : list Z := map (fun k => t + 15872 * Z.of_nat k) (seq 1 203).
Example blink_three :
  blink_run (fun _ => false) (fun _ b => b) 13 200 (blink_new (fun _ => false) (fun _ b => b) 13 reset) 100
    [(0, readings 100); (8, readings (100 + 15872 * 202 + 8)); (8, [])] =
  [(100, true); (3206252, false); (6412404, true)].
Proof. lazy. reflexivity. Qed.
(** The page of Page.ino: Line 1 over Line 2. *)
Definition demo_of (k : Z) : ctl := Box Horizontal UiModel.Normal (k - 49) None [Label UiModel.Normal 0 [76; 105; 110; 101; 32; k]].
Definition demo : ctl := Box PageK UiModel.Normal 0 None [demo_of 49; demo_of 50].
Example demo_fits : forall text, page_fits text 2 demo.
Proof.
  intros text. assert (G : forall k, (k = 49 \/ k = 50) -> line_fits text 2 (demo_of k)).
  { intros k K. split; [|intros _; cbn [pos_of demo_of]; lia]. constructor; [|constructor]. split; [exact Logic.I|].
    intros _. cbn [pos_of shown]. split; [lia|]. split; [cbn; lia|]. repeat constructor; lia. }
  constructor; [apply G; auto|]. constructor; [apply G; auto|]. constructor.
Qed.
Example demo_shows : map (picture no_text (page_pieces (fun _ => []) demo) 1) [0; 1; 2; 3; 4; 5; 6] = [76; 105; 110; 101; 32; 50; 32].
Proof. lazy. reflexivity. Qed.
