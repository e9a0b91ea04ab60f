(** C72-C76: the example sketches. *)
Require Import ZArith List Bool Lia.
Import ListNotations.
From Verif Require Import Base HdModel HdSpec HdProofs TextModel UiModel PageModel PageSpec TimeModel TimeSpec TaskModel TaskSpec ButtonModel ButtonSpec
  ArduinoModel ArduinoSpec ArduinoProofs ArduinoProps SketchModel SketchSpec SketchProofs SketchTaskProofs SketchButtonProofs.
Open Scope Z_scope.

(** C72: LCD.ino at any six pins, whatever mode the display was in and whatever it showed: it ends switched on
    with the texts on it, the cursor at the start of the line after.  Up to as many texts as there are rows,
    text k is on row k. *)
Theorem sketch_lcd : forall iw rows lo timer outside x b m ts, 8 <= iw -> rows_ok rows -> 0 <= lo < 16 -> mode_ok m -> pins_free timer x b ->
  Forall (text_fits rows) ts ->
  exists r v os l' taken, t_run iw rows t_new (lcd_setup ts) = Some (r, v, os) /\
    seen_pins lo timer outside x b m os = (l', M4, taken) /\
    forall d0, let d := exec_all d0 taken in
      display_plain d /\ screen_is rows d (picture no_text (line_list rows ts)) /\
      (Z.of_nat (length ts) <= rows -> screen_is rows d (listing ts)) /\
      ac d = cell_address (line_row rows (length ts)) 0.
Proof.
  intros iw rows lo timer outside x b m ts W RO Hlo Hm (P1 & P2 & P3 & P4) F.
  destruct (lcd_setup_l iw rows W RO ts F) as (r & v & ds & E & Wd & X).
  destruct (pins_wire lo timer outside x b m ds Hlo Hm P1 P2 P3 P4 Wd) as (l' & gs & D).
  exists r, v, (init7 ++ ds), l', (gs ++ [(false, 40); (false, 1); (false, 2)] ++ map byte_of ds). split; [exact E|]. split; [exact D|].
  intros d0. cbv zeta. rewrite !exec_all_app. destruct (X (exec_all d0 gs)) as (X1 & X2 & X3). cbv zeta in *.
  split; [exact X1|]. split; [exact X2|]. split; [|exact X3]. intros L y z Hy Hz. rewrite X2 by assumption. apply listing_l; lia.
Qed.
Print Assumptions sketch_lcd.

(** C72, finding: after the last row comes, once, a row that does not exist and is shown at the top, and then
    the top row itself.  On two rows the texts A, B, C, D leave D over B: C is overwritten. *)
Theorem sketch_lcd_refuted :
  (forall rows, 0 < rows -> line_row rows (Z.to_nat rows) = 0 /\ line_row rows (S (Z.to_nat rows)) = 0) /\
  forall iw lo timer outside x b m, 8 <= iw -> 0 <= lo < 16 -> mode_ok m -> pins_free timer x b ->
  exists r v os l' taken, t_run iw 2 t_new (lcd_setup [[65]; [66]; [67]; [68]]) = Some (r, v, os) /\
    seen_pins lo timer outside x b m os = (l', M4, taken) /\
    forall d0, screen_is 2 (exec_all d0 taken) (listing [[68]; [66]]).
Proof.
  split.
  - intros rows H. unfold line_row. rewrite Nat2Z.inj_succ, Z2Nat.id by lia. cbv zeta. split.
    + rewrite Z.mod_small by lia. rewrite Z.eqb_refl. reflexivity.
    + unfold Z.succ. rewrite Z.mod_same by lia. destruct (Z.eqb_spec 0 rows); [lia|reflexivity].
  - intros iw lo timer outside x b m W Hlo Hm P.
    assert (F : Forall (text_fits 2) [[65]; [66]; [67]; [68]]).
    { repeat constructor; try lia; cbn; lia. }
    destruct (sketch_lcd iw 2 lo timer outside x b m _ W ltac:(right; left; reflexivity) Hlo Hm P F) as (r & v & os & l' & taken & E1 & E2 & X).
    exists r, v, os, l', taken. split; [exact E1|]. split; [exact E2|]. intros d0 y z Hy Hz. destruct (X d0) as (_ & X2 & _). rewrite X2 by assumption.
    clear - Hy Hz. assert (C : y = 0 \/ y = 1) by lia. unfold listing.
    destruct (Z.eq_dec z 0) as [->|N]; [destruct C as [-> | ->]; reflexivity|].
    replace (nth (Z.to_nat z) _ 32) with 32.
    2:{ replace (Z.to_nat z) with (S (Z.to_nat (z - 1))) by lia. destruct C as [-> | ->]; cbn; destruct (Z.to_nat (z - 1)); reflexivity. }
    unfold picture, line_list. cbn [length seq combine map fold_left]. unfold put_piece, inside. cbn [fst snd length]. change (0 + Z.of_nat 1) with 1.
    replace (z <? 1) with false by (symmetry; apply Z.ltb_ge; lia). rewrite !andb_false_r. reflexivity.
Qed.
Print Assumptions sketch_lcd_refuted.

(** C72: I2CLCD.ino, as long as every byte is acknowledged.  The display is lit at the end. *)
Theorem sketch_i2c : forall iw rows lo m acks ts l, 8 <= iw -> rows_ok rows -> 0 <= lo < 16 -> mode_ok m -> (forall i, (2 <= acks i)%nat) ->
  Forall (text_fits rows) ts ->
  exists r v os r0 rw tr l' taken, i2c_setup iw rows ts = Some (r, v, os) /\ i2c_new iw = Some r0 /\ i2c_run iw r0 os = Some (rw, tr) /\
    watch lo l m (map i2c_lines (i2c_got tr acks 0)) = (l', M4, taken) /\ Z.testbit (last tr 0) 3 = true /\
    forall d0, let d := exec_all d0 taken in
      display_plain d /\ screen_is rows d (picture no_text (line_list rows ts)) /\
      (Z.of_nat (length ts) <= rows -> screen_is rows d (listing ts)) /\
      ac d = cell_address (line_row rows (length ts)) 0.
Proof.
  intros iw rows lo m acks ts l W RO Hlo Hm A F.
  destruct (lcd_setup_l iw rows W RO ts F) as (r & v & ds & E & Wd & X).
  unfold lcd_setup in E. cbn [t_run] in E.
  destruct (t_call iw rows t_new TInit) as [[s1 e1]|] eqn:E1; [|discriminate]. cbn [bindo fst snd] in E.
  destruct (t_run iw rows s1 (TCtl (CDisplay true) :: map TLine ts)) as [[s2 e2]|] eqn:E2.
  2:{ exfalso. cbn [t_run] in E2. rewrite E2 in E. discriminate. }
  cbn [t_run] in E2. rewrite E2 in E. cbn [bindo fst snd] in E. assert (Es : s2 = (r, v)) by congruence. assert (Ee : e1 ++ e2 = init7 ++ ds) by congruence. subst s2. clear E.
  set (os := map IOp e1 ++ ILight true :: map IOp e2).
  assert (Ok : Forall iop_ok os).
  { pose proof (init_ok ds Wd) as O. rewrite <- Ee in O. apply Forall_app in O. destruct O as [O1 O2].
    assert (G : forall a, Forall dop_ok a -> Forall iop_ok (map IOp a)) by (intros a G; induction G; constructor; assumption).
    apply Forall_app. split; [apply G; exact O1|]. constructor; [exact Logic.I|apply G; exact O2]. }
  assert (Nn : os <> []) by (unfold os; destruct (map IOp e1); discriminate).
  destruct (hd_i2c_l lo iw os W Ok Nn) as (r0 & rw & tr & I1 & I2 & I3 & I4 & I5).
  destruct (I5 l) as (_ & _ & _ & D). specialize (D m). unfold os in D. rewrite inibs_light, Ee in D.
  destruct (init_wire lo m ds Hlo Hm Wd) as (gs & EW). rewrite EW in D. cbn [fst snd] in D.
  exists r, v, os, r0, rw, tr, (i2c_lines rw), (gs ++ [(false, 40); (false, 1); (false, 2)] ++ map byte_of ds).
  split; [unfold i2c_setup; rewrite E1; cbn [bindo fst snd t_run]; rewrite E2; reflexivity|]. split; [exact I1|]. split; [exact I2|].
  split; [rewrite i2c_got_all by exact A; exact D|]. split.
  { rewrite I4. clear. unfold os. generalize true at 1. induction e1 as [|o e IH]; intros w; cbn [map app final_light fold_left light_after].
    - induction e2 as [|o e IH]; [reflexivity|]. exact IH.
    - apply IH. }
  intros d0. cbv zeta. rewrite !exec_all_app. destruct (X (exec_all d0 gs)) as (X1 & X2 & X3). cbv zeta in *.
  split; [exact X1|]. split; [exact X2|]. split; [|exact X3]. intros L y z Hy Hz. rewrite X2 by assumption. apply listing_l; lia.
Qed.
Print Assumptions sketch_i2c.

(** C73: PageController.ino.  After k rounds the screen is the pages shown so far, one over the other: 0, 1, ...,
    and 0 again after the last. *)
Theorem sketch_pages : forall iw rows lo timer outside x b m text edit k pages, 8 <= iw -> rows_ok rows -> 0 <= lo < 16 -> mode_ok m ->
  pins_free timer x b -> pages <> [] -> Forall fresh_page pages -> Forall (page_fits text rows) pages ->
  exists r v os l' taken, t_run iw rows t_new (pages_sketch text edit k pages) = Some (r, v, os) /\
    seen_pins lo timer outside x b m os = (l', M4, taken) /\
    forall d0, let d := exec_all d0 taken in
      display_plain d /\ screen_is rows d (picture no_text (flat_map (page_pieces text) (shown_pages k pages))).
Proof.
  intros iw rows lo timer outside x b m text edit k pages W RO Hlo Hm (P1 & P2 & P3 & P4) N F P.
  destruct (pages_setup_l iw rows W RO text edit k pages N F P) as (r & v & ds & E & Wd & X).
  destruct (pins_wire lo timer outside x b m ds Hlo Hm P1 P2 P3 P4 Wd) as (l' & gs & D).
  exists r, v, (init7 ++ ds), l', (gs ++ [(false, 40); (false, 1); (false, 2)] ++ map byte_of ds). split; [exact E|]. split; [exact D|].
  intros d0. cbv zeta. rewrite !exec_all_app. exact (X (exec_all d0 gs)).
Qed.
Print Assumptions sketch_pages.

(** C73: if all pages write to the same cells, that is exactly the page of the round. *)
Theorem sketch_pages_same : forall text k pages c0, pages <> [] ->
  (forall p q y x, In p pages -> In q pages -> covers text p y x = covers text q y x) ->
  forall y x, picture no_text (flat_map (page_pieces text) (shown_pages k pages)) y x =
  picture no_text (page_pieces text (nth (Nat.modulo k (length pages)) pages c0)) y x.
Proof.
  intros text k pages c0 N C y x. unfold shown_pages. rewrite seq_S, map_app. cbn [map plus].
  assert (L : forall j c, In (nth (Nat.modulo j (length pages)) pages c) pages).
  { intros j c. apply nth_In. apply Nat.mod_upper_bound. destruct pages; [congruence|discriminate]. }
  rewrite same_cover.
  - f_equal. f_equal. apply nth_indep. apply Nat.mod_upper_bound. destruct pages; [congruence|discriminate].
  - intros q Hq. apply C; [|apply L]. apply in_map_iff in Hq. destruct Hq as (j & <- & _). apply L.
Qed.
Print Assumptions sketch_pages_same.

(** C73, finding: turning the page does not clear the screen, and a shorter text leaves the end of the one
    before: Hello, then Hi shows Hillo. *)
Theorem sketch_pages_refuted : exists text pages, Forall fresh_page pages /\ Forall (page_fits text 2) pages /\ length pages = 2%nat /\
  map (picture no_text (page_pieces text (nth 1 pages (Label UiModel.Normal 0 []))) 0) [0; 1; 2; 3; 4] = [72; 105; 32; 32; 32] /\
  map (picture no_text (flat_map (page_pieces text) (shown_pages 1 pages)) 0) [0; 1; 2; 3; 4] = [72; 105; 108; 108; 111].
Proof.
  exists (fun _ => []), (map (fun t => Box PageK UiModel.Normal 0 None [Box Horizontal UiModel.Normal 0 None [Label UiModel.Normal 0 t]])
    [[72; 101; 108; 108; 111]; [72; 105]]).
  cbn [map]. split; [repeat constructor|]. split.
  { assert (G : forall t, printable t -> Z.of_nat (length t) <= width 2 -> page_fits (fun _ => []) 2
      (Box PageK UiModel.Normal 0 None [Box Horizontal UiModel.Normal 0 None [Label UiModel.Normal 0 t]])).
    { intros t H1 H2. constructor; [|constructor]. split; [|intros _; cbn [pos_of]; lia]. constructor; [|constructor]. split; [exact Logic.I|].
      intros _. cbn [pos_of shown]. split; [lia|]. split; [lia|exact H1]. }
    constructor; [|constructor; [|constructor]]; apply G; try (cbn; lia); repeat constructor; lia. }
  split; [reflexivity|]. split; lazy; reflexivity.
Qed.
Print Assumptions sketch_pages_refuted.

(** C74: TimeoutTask.ino with any number of tasks of different ids on pins of their own, and room for all of them:
    each fires by its own beat, undisturbed by the others, however irregular the rounds and across the
    wrap of the clock, and its pin has toggled once for each time. *)
Theorem sketch_tasks : forall timer outside slots ts ticks now dts b,
  Forall task_ok ts -> NoDup (map (fun t => fst (fst t)) ts) -> NoDup (map snd ts) -> (length ts <= slots)%nat -> sane timer b ->
  (forall t, In t ts -> p_pwm (b (snd t)) = None) -> Forall (fun dt => 0 <= dt < 4294967296) dts ->
  exists s fss, tasks_run timer outside (tasks_new timer outside slots ts ticks b) (map u32 (rounds now dts)) = Some (s, fss) /\
    forall i id T pin, nth_error ts i = Some (id, T, pin) ->
      map (fun fs => nth i fs false) fss = task_beat T (rounds now dts) /\
      signal_of (ts_board s pin) = SLevel (xorb (p_latch (b pin)) (odd_count (task_beat T (rounds now dts)))).
Proof. exact tasks_l. Qed.
Print Assumptions sketch_tasks.

(** C74: the beat.  The first round enters the task.  Of the rounds after it, the first starts a wait, and so does
    each round after one in which the task fires; it fires in the first round that is at least the timeout after the
    start. *)
Theorem sketch_beat : forall T now times, exists F, task_beat T (now :: times) = false :: F /\
  forall i, nth i F false = true <-> (i < length times)%nat /\
    exists s, (s < i)%nat /\ starts F s /\ (forall j, (s <= j < i)%nat -> nth j F false = false) /\ T <= nth i times 0 - nth s times 0.
Proof. intros T now times. exists (beat T None times). split; [reflexivity|]. intros i. apply beat_mean_l. Qed.
Print Assumptions sketch_beat.

(** C74, finding: with rounds of equal length the task fires every [wait_rounds + 1] rounds: one round more than the
    timeout takes.  A task of 100 in a loop of 100 toggles its pin every 200. *)
Theorem sketch_period : forall T now dt n i, 0 < dt ->
  nth i (task_beat T (rounds now (repeat dt n))) false = true <->
  (0 < i <= n)%nat /\ Z.of_nat i mod (wait_rounds T dt + 1) = 0.
Proof. exact period_l. Qed.
Print Assumptions sketch_period.
Theorem sketch_period_refuted : forall T dt, 0 < dt -> 0 < T -> T + dt <= (wait_rounds T dt + 1) * dt.
Proof.
  intros T dt D HT. pose proof (proj2 (wait_rounds_ok T dt (wait_rounds T dt) D ltac:(unfold wait_rounds; lia)) eq_refl). lia.
Qed.
Print Assumptions sketch_period_refuted.

(** C75: Task.ino: the counter task never ends; of n + 1 calls the first only enters it, and what is printed is its
    maximum, once for each [max + 1] further calls.
    Finding: it prints "Counted to max" when it has counted to max + 1. *)
Theorem sketch_counter : forall max, 0 <= max < 2147483647 -> forall n, exists m tr,
  task_run (ct_do max) (ct_cond max) m ct_body (Idle 0 (Some (mkCounter 0 [])) (repeat (fun w => w) (S n))) =
    Some (tr, Idle 22 (Some (mkCounter (Z.of_nat n mod (max + 1)) (repeat max (Z.to_nat (Z.of_nat n / (max + 1)))))) []) /\
  returns tr = repeat true (S n).
Proof. exact counter_l. Qed.
Print Assumptions sketch_counter.

(** C75, finding: with the largest long as maximum nothing is printed; the counter overflows instead. *)
Theorem sketch_counter_largest_refuted : forall n, Z.of_nat n <= 2147483648 -> exists m tr,
  task_run (ct_do 2147483647) (ct_cond 2147483647) m ct_body (Idle 0 (Some (mkCounter 0 [])) (repeat (fun w => w) (S n))) =
    Some (tr, Idle 22 (if Z.of_nat n <=? 2147483647 then Some (mkCounter (Z.of_nat n) []) else None) []).
Proof. exact counter_largest_l. Qed.
Print Assumptions sketch_counter_largest_refuted.

(** C76: PushButton.ino.  The lamp after each round, from the contact alone: whatever an unconnected input reads,
    the pull-up settles it.  Each round is (time since the last, contact closed, what a floating input reads). *)
Theorem sketch_button : forall id debounce hold timer pin led b now rs, 0 < id < 65536 -> 0 <= debounce < 4294967296 -> 0 <= hold < 4294967296 ->
  pin <> led -> sane timer b -> p_pwm (b led) = None -> Forall (fun r => 0 <= fst (fst r) < 4294967296) rs ->
  exists bs, button_run timer id debounce hold pin led (button_new timer pin led (u32 now) b) (rounds_at now rs) = Some bs /\
    map (fun b => signal_of (b led)) bs =
    map SLevel (lamp_run (p_latch (b led)) (ButtonSpec.p_run debounce hold PUnknown (map (fun r => (snd (fst r), fst (fst r))) rs))).
Proof. exact button_l. Qed.
Print Assumptions sketch_button.

(** C76: DigitalInput.ino.  From the first high level on the lamp shows the level read last.
    Finding: until then it keeps the level it had. *)
Theorem sketch_follow : forall timer pin led b outs, pin <> led -> sane timer b -> p_pwm (b led) = None ->
  let vs := map (fun out : Z -> bool -> bool => out pin false) outs in
  signal_of (snd (follow_run timer pin led (follow_new timer pin led b) outs) led) =
  SLevel (if existsb (fun v => v) vs then last vs false else p_latch (b led)).
Proof. exact follow_l. Qed.
Print Assumptions sketch_follow.

(** Examples. *)
Definition low_board : board := fun _ => mkPin false false None.
Example sketch_lcd_example : pins_free (fun _ => true) (mkLcd 2 3 4 5 6 7) low_board /\ Forall (text_fits 2) [[72; 105]; [33]] /\ mode_ok M8 /\ rows_ok 2 /\
  match t_run 16 2 t_new (lcd_setup [[72; 105]; [33]]) with
  | Some (_, _, os) =>
      let '(_, m, taken) := seen_pins 0 (fun _ => true) (fun _ _ => false) (mkLcd 2 3 4 5 6 7) low_board M8 os in
      let d := exec_all HdSpec.lcd_new taken in
      m = M4 /\ disp d = true /\ map (on_screen d 0) [0; 1; 2] = [72; 105; 32] /\ map (on_screen d 1) [0; 1] = [33; 32]
  | None => False
  end.
Proof.
  split; [split; [repeat constructor; cbn; intuition discriminate|]; split; [intros n _; reflexivity|]; split; [intros n _; reflexivity|reflexivity]|].
  split; [repeat constructor; try lia; cbn; lia|]. split; [exact Logic.I|]. split; [right; left; reflexivity|].
  lazy. repeat split; reflexivity.
Qed.
(** Two tasks of 20 and 30 on pins 13 and 12, rounds of 10 across the wrap of the clock. *)
Example sketch_tasks_example : match tasks_run (fun _ => false) (fun _ _ => false)
    (tasks_new (fun _ => false) (fun _ _ => false) 2 [(7, 20, 13); (9, 30, 12)] 0 low_board) (map u32 (rounds 4294967270 (repeat 10 9))) with
  | Some (s, fss) => map (fun fs => nth 0 fs false) fss = [false; false; false; true; false; false; true; false; false; true] /\
      map (fun fs => nth 1 fs false) fss = [false; false; false; false; true; false; false; false; true; false] /\
      (p_latch (ts_board s 13), p_latch (ts_board s 12)) = (true, false)
  | None => False
  end.
Proof. lazy. repeat split; reflexivity. Qed.
(** Debouncing 10, hold 50: the lamp flashes from the hold time on, whatever the input reads when floating. *)
Example sketch_button_example : match button_run (fun _ => false) 5 10 50 2 13 (button_new (fun _ => false) 2 13 0 low_board)
    (rounds_at 0 [(10, false, true); (10, true, false); (10, true, true); (10, true, false); (30, true, true); (30, true, false); (10, true, false); (10, false, false); (10, false, false); (10, false, false)]) with
  | Some bs => map (fun b => p_latch (b 13)) bs = [false; false; false; true; true; false; true; true; true; false]
  | None => False
  end.
Proof. lazy. reflexivity. Qed.
