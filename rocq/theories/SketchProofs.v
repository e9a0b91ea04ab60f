(** The text and page sketches. *)
Require Import ZArith List Bool Lia ZifyBool.
Import ListNotations.
From Verif Require Import Base BaseFacts HdModel HdSpec HdProofs HdCtlProofs TextModel UiModel PageModel PageSpec PageProofs ArduinoModel ArduinoSpec ArduinoProofs SketchModel SketchSpec.
Open Scope Z_scope.
Ltac Zify.zify_post_hook ::= idtac.

Section T.
Variables iw rows : Z.
Hypothesis iw8 : 8 <= iw.
Hypothesis rok : rows_ok rows.

Lemma t_run_app : forall a b s s1 d1, t_run iw rows s a = Some (s1, d1) ->
  t_run iw rows s (a ++ b) = bindo (t_run iw rows s1 b) (fun x => Some (fst x, d1 ++ snd x)).
Proof.
  induction a as [|w a IH]; intros b [r v] [r1 v1] d1 E.
  - cbn [t_run fst snd] in E. injection E as <- <- <-. cbn [app]. destruct (t_run iw rows (r, v) b) as [[? ?]|]; reflexivity.
  - cbn [app t_run] in *. destruct (t_call iw rows (r, v) w) as [[s2 d2]|]; [|discriminate]. cbn [bindo fst snd] in *.
    destruct (t_run iw rows s2 a) as [[s3 d3]|] eqn:F; [|discriminate]. cbn [bindo fst snd] in E. injection E as <- <-.
    rewrite (IH b s2 s3 d3 F). destruct (t_run iw rows s3 b) as [[? ?]|]; [|reflexivity]. cbn [bindo fst snd]. rewrite app_assoc. reflexivity.
Qed.

(** After Initialize and setEnableDisplay. *)
Definition init7 : list dop := [DNib 3; DNib 3; DNib 3; DNib 2; DCmd 40; DCmd 1; DCmd 2].
Definition ready (r : Z) (d : lcd) : Prop := in_step iw r d /\ mem d = (fun _ => 32) /\ ac d = 0 /\ display_plain d.
Lemma start2 : exists r1 e1 r ds, t_call iw rows t_new TInit = Some (r1, snd t_new, init7 ++ e1) /\
  t_call iw rows (r1, snd t_new) (TCtl (CDisplay true)) = Some (r, snd t_new, ds) /\ Forall whole e1 /\ Forall whole ds /\
  forall d, ready r (exec_all (exec_all d [(false, 40); (false, 1); (false, 2)]) (map byte_of (e1 ++ ds))).
Proof.
  assert (K0 : ctl_rel settings_new 0) by (repeat split; lia).
  destruct (ctl_op_exec iw iw8 settings_new 0 HdSpec.lcd_new (CEntry true false) K0 I I) as (r1 & e1 & E1 & K1 & W1 & _).
  destruct (ctl_op_exec iw iw8 _ r1 HdSpec.lcd_new (CDisplay true) K1 I I) as (r & ds & E2 & K2 & W2 & _).
  exists r1, e1, r, ds. cbn [t_call fst snd t_new ctl_run]. change (ctl_op iw 0 (CInit true)) with (Some (0, init7)).
  cbn [bindo fst snd]. rewrite E1. cbn [bindo fst snd]. rewrite E2. cbn [bindo fst snd].
  rewrite app_nil_r. split; [reflexivity|]. split; [reflexivity|]. split; [exact W1|]. split; [exact W2|].
  intros d. rewrite map_app, exec_all_app. set (d0 := exec_all d _).
  destruct (ctl_op_exec iw iw8 settings_new 0 d0 (CEntry true false) K0 I I) as (r1' & e1' & E1' & _ & _ & X1).
  rewrite E1 in E1'. injection E1' as <- <-. rewrite X1.
  destruct (ctl_op_exec iw iw8 _ r1 (snd (lcd_call (settings_new, d0) (CEntry true false))) (CDisplay true) K1 I I) as (r' & ds' & E2' & _ & _ & X2).
  rewrite E2 in E2'. injection E2' as <- <-. rewrite X2. unfold ready. split; [|split; [destruct d; reflexivity|split; [destruct d; reflexivity|destruct d; repeat split]]].
  apply in_step_bits; [exact iw8|]. destruct K2 as (R & B0 & B1 & B2 & _). destruct d. split; [exact R|]. rewrite B0, B1, B2. repeat split.
Qed.

(** Texts, whatever row the view thinks it is on. *)
Lemma text_view : forall t l c, printable t -> 0 <= c -> c + Z.of_nat (length t) <= width rows ->
  view_run rows {| row := l; col := c |} (map VChar t) = Some ({| row := l; col := c + Z.of_nat (length t) |}, map DData t).
Proof.
  destruct (width_l rows rok) as (W1 & W2 & W3). assert (W4 : width rows <= 40) by (rewrite W1; destruct (rows =? 4); lia).
  induction t as [|ch t IH]; intros l c P Hc Hf; [cbn [map view_run length]; rewrite Z.add_0_r; reflexivity|].
  inversion P as [|? ? P1 P2]; subst. cbn [length] in Hf. cbn [map view_run view_op].
  replace (ch =? 10) with false by lia. replace (ch =? 13) with false by lia. cbn [bindo fst snd].
  unfold inc_col. cbn [row col]. replace (c + 1 >? total_cols rows) with false by lia. rewrite u8_small by lia.
  rewrite IH by (try exact P2; lia). cbn [bindo fst snd]. do 3 f_equal. cbn [length]. lia.
Qed.
Lemma view_run_app : forall a b v v1 d1, view_run rows v a = Some (v1, d1) ->
  view_run rows v (a ++ b) = bindo (view_run rows v1 b) (fun x => Some (fst x, d1 ++ snd x)).
Proof.
  induction a as [|w a IH]; intros b v v1 d1 E.
  - cbn [view_run] in E. injection E as <- <-. cbn [app]. destruct (view_run rows v b) as [[? ?]|]; reflexivity.
  - cbn [app view_run] in *. destruct (view_op rows v w) as [[s2 d2]|]; [|discriminate]. cbn [bindo fst snd] in *.
    destruct (view_run rows s2 a) as [[s3 d3]|] eqn:F; [|discriminate]. cbn [bindo fst snd] in E. injection E as <- <-.
    rewrite (IH b s2 s3 d3 F). destruct (view_run rows s3 b) as [[? ?]|]; [|reflexivity]. cbn [bindo fst snd]. rewrite app_assoc. reflexivity.
Qed.

(** The view's row k from 0 to [rows], and the row it stands for. *)
Definition real_row (k : Z) : Z := if k =? rows then 0 else k.
Lemma goto_real : forall k c, 0 <= k <= rows -> 0 <= c <= width rows ->
  goto_op rows {| row := k; col := c |} = Some [DCmd (128 + cell_address (real_row k) c)].
Proof.
  intros k c Hk Hc. destruct (width_l rows rok) as (_ & _ & W3). unfold real_row. destruct (Z.eqb_spec k rows) as [->|N].
  - rewrite <- (goto_l rows 0 c rok) by lia. unfold goto_op, calc_address. cbn [row col].
    replace (rows >=? rows) with true by lia. replace (0 >=? rows) with false by lia. reflexivity.
  - apply goto_l; lia || exact rok.
Qed.
Definition next_row (k : Z) : Z := if k + 1 >? rows then 0 else k + 1.

Notation shows := (shows rows).
Lemma line_call : forall t r k cells d, text_fits rows t -> 0 <= k <= rows -> in_step iw r d -> shows cells d ->
  ac d = cell_address (real_row k) 0 ->
  exists ds, t_call iw rows (r, {| row := k; col := 0 |}) (TLine t) = Some (r, {| row := next_row k; col := 0 |}, ds) /\ Forall whole ds /\
    let d' := exec_all d (map byte_of ds) in
    in_step iw r d' /\ disp d' = disp d /\ curs d' = curs d /\ blink d' = blink d /\ off d' = off d /\
    shows (put_piece cells (real_row k, 0, t)) d' /\ ac d' = cell_address (real_row (next_row k)) 0.
Proof.
  intros t r k cells d [P Hf] Hk S H A. destruct (width_l rows rok) as (W1 & _ & W3). assert (W4 : 0 < width rows) by (rewrite W1; destruct (rows =? 4); lia).
  assert (R : 0 <= real_row k < rows) by (unfold real_row; destruct (Z.eqb_spec k rows); lia).
  destruct (text_exec iw rows iw8 rok t r cells d (real_row k) 0 P S H R ltac:(lia) ltac:(lia) (fun _ => A)) as (ds & E & W & X).
  rewrite text_view in E by (try exact P; lia). injection E as <-.
  cbn [t_call write_line bindo dw_call fst snd]. rewrite map_app.
  rewrite (view_run_app _ _ _ _ _ (text_view t k 0 P ltac:(lia) ltac:(lia))). unfold new_line. cbn [map view_run view_op].
  change (10 =? 10) with true. change (13 =? 10) with false. change (13 =? 13) with true. cbv iota.
  assert (N : 0 <= next_row k <= rows) by (unfold next_row; destruct (Z.gtb_spec (k + 1) rows); lia).
  assert (I : inc_row rows {| row := k; col := 0 + Z.of_nat (length t) |} = {| row := next_row k; col := Z.of_nat (length t) |}).
  { unfold inc_row, next_row. cbn [row col]. destruct (Z.gtb_spec (k + 1) rows); [reflexivity|]. rewrite u8_small by lia. reflexivity. }
  rewrite I. cbn [row col]. rewrite goto_real by lia. cbn [bindo fst snd row]. rewrite goto_real by lia. cbn [bindo fst snd app].
  eexists. split; [reflexivity|].
  assert (RN : 0 <= real_row (next_row k) < rows) by (clear - N W3; unfold real_row; destruct (Z.eqb_spec (next_row k) rows); lia).
  pose proof (addr_small rows _ (Z.of_nat (length t)) rok RN ltac:(lia)) as A1. pose proof (addr_small rows _ 0 rok RN ltac:(lia)) as A2.
  split. { apply Forall_app. split; [exact W|]. constructor; [cbn [whole]; lia|]. apply addr_whole; exact A2. }
  cbv zeta. rewrite map_app, exec_all_app. set (d1 := exec_all d (map byte_of (map DData t))) in *.
  change (map byte_of [?a; ?b]) with (map byte_of [a] ++ map byte_of [b]). rewrite exec_all_app, !addr_exec by assumption.
  destruct X as (S1 & X1 & X2 & X3 & X4 & X5). split; [apply in_step_at; apply in_step_at; exact S1|].
  cbn [lcd_at disp curs blink off ac]. do 4 (split; [assumption|]). split; [|reflexivity].
  apply (shows_same rows _ d1); [reflexivity|exact X5].
Qed.

Lemma line_row_real : forall k, line_row rows k = real_row (Z.of_nat k mod (rows + 1)).
Proof. reflexivity. Qed.
Lemma next_mod : forall k, next_row (Z.of_nat k mod (rows + 1)) = Z.of_nat (S k) mod (rows + 1).
Proof.
  intros k. destruct (width_l rows rok) as (_ & _ & W3). unfold next_row. remember (rows + 1) as n eqn:En.
  pose proof (Z.mod_pos_bound (Z.of_nat k) n ltac:(lia)) as B. rewrite Nat2Z.inj_succ. unfold Z.succ. rewrite <- (Z.add_mod_idemp_l (Z.of_nat k) 1 n) by lia.
  revert B. generalize (Z.of_nat k mod n). intros m B.
  destruct (Z.gtb_spec (m + 1) rows).
  - replace (m + 1) with n by lia. rewrite Z.mod_same by lia. reflexivity.
  - rewrite Z.mod_small by lia. reflexivity.
Qed.
Lemma lines_run : forall ts k r cells d, Forall (text_fits rows) ts -> in_step iw r d -> shows cells d ->
  ac d = cell_address (line_row rows k) 0 ->
  exists v ds, t_run iw rows (r, {| row := Z.of_nat k mod (rows + 1); col := 0 |}) (map TLine ts) = Some (r, v, ds) /\ Forall whole ds /\
    let d' := exec_all d (map byte_of ds) in
    in_step iw r d' /\ disp d' = disp d /\ curs d' = curs d /\ blink d' = blink d /\ off d' = off d /\
    shows (picture cells (map (fun q => (line_row rows (fst q), 0, snd q)) (combine (seq k (length ts)) ts))) d' /\
    ac d' = cell_address (line_row rows (k + length ts)) 0.
Proof.
  induction ts as [|t ts IH]; intros k r cells d F S H A.
  - cbn [map t_run fst snd]. eexists. exists []. split; [reflexivity|]. split; [constructor|].
    cbn [length seq combine map]. rewrite Nat.add_0_r. cbn. auto 8.
  - inversion F as [|? ? F1 F2]; subst. cbn [map t_run].
    destruct (width_l rows rok) as (_ & _ & W3).
    pose proof (Z.mod_pos_bound (Z.of_nat k) (rows + 1) ltac:(lia)) as B.
    destruct (line_call t r (Z.of_nat k mod (rows + 1)) cells d F1 ltac:(lia) S H A) as (d1 & E1 & O1 & S1 & X1 & X2 & X3 & X4 & H1 & A1).
    rewrite E1. cbn [bindo fst snd]. rewrite next_mod in *.
    destruct (IH (Datatypes.S k) r _ _ F2 S1 H1 A1) as (v2 & d2 & E2 & O2 & S2 & Y1 & Y2 & Y3 & Y4 & H2 & A2).
    rewrite E2. cbn [bindo fst snd]. exists v2, (d1 ++ d2). split; [reflexivity|]. split; [apply Forall_app; auto|].
    cbv zeta. rewrite map_app, exec_all_app. split; [exact S2|]. repeat (split; [congruence|]). split; [exact H2|].
    cbn [length]. replace (k + Datatypes.S (length ts))%nat with (Datatypes.S k + length ts)%nat by lia. exact A2.
Qed.

(** LCD.ino as bytes. *)
Lemma lcd_setup_l : forall ts, Forall (text_fits rows) ts ->
  exists r v ds, t_run iw rows t_new (lcd_setup ts) = Some (r, v, init7 ++ ds) /\ Forall whole ds /\
  forall d, let d' := exec_all (exec_all d [(false, 40); (false, 1); (false, 2)]) (map byte_of ds) in
    display_plain d' /\ (forall y x, 0 <= y < rows -> 0 <= x < width rows -> on_screen d' y x = picture no_text (line_list rows ts) y x) /\
    ac d' = cell_address (line_row rows (length ts)) 0.
Proof.
  intros ts F. destruct start2 as (r1 & e1 & r & e2 & E1 & E2 & O1 & O2 & X).
  destruct (width_l rows rok) as (_ & _ & W3).
  assert (Z0 : Z.of_nat 0 mod (rows + 1) = 0) by (apply Z.mod_small; lia).
  assert (L0 : line_row rows 0 = 0) by (unfold line_row; rewrite Z0; cbv zeta; destruct (Z.eqb_spec 0 rows); lia).
  assert (G : forall d, ready r d -> exists v ds, t_run iw rows (r, snd t_new) (map TLine ts) = Some (r, v, ds) /\ Forall whole ds /\
    let d' := exec_all d (map byte_of ds) in display_plain d' /\ (forall y x, 0 <= y < rows -> 0 <= x < width rows -> on_screen d' y x = picture no_text (line_list rows ts) y x) /\
    ac d' = cell_address (line_row rows (length ts)) 0).
  { intros d (S & M & A & D1 & D2 & D3 & D4).
    assert (H : shows no_text d) by (intros y x Hy Hx; unfold on_screen; rewrite M; reflexivity).
    destruct (lines_run ts 0 r no_text d F S H ltac:(rewrite A, L0; reflexivity)) as (v & ds & E & O & _ & Y1 & Y2 & Y3 & Y4 & H2 & A2).
    rewrite Z0 in E. exists v, ds. split; [exact E|]. split; [exact O|]. cbv zeta. split; [|split; [exact H2|exact A2]].
    unfold display_plain. rewrite Y1, Y2, Y3, Y4. auto. }
  destruct (G _ (X HdSpec.lcd_new)) as (v & ds & E & O & _).
  exists r, v, (e1 ++ e2 ++ ds). unfold lcd_setup. cbn [t_run]. rewrite E1. cbn [bindo fst snd]. rewrite E2. cbn [bindo fst snd]. rewrite E. cbn [bindo fst snd].
  rewrite <- app_assoc. split; [reflexivity|]. split; [repeat (apply Forall_app; split; try assumption)|].
  intros d. cbv zeta. rewrite app_assoc, map_app, exec_all_app.
  destruct (G _ (X d)) as (v' & ds' & E' & O' & Y). rewrite E in E'. injection E' as <- <-. exact Y.
Qed.
End T.

(** ** To the display: over six pins and over I2C *)
Lemma init_wire : forall lo m ds, 0 <= lo < 16 -> mode_ok m -> Forall whole ds -> exists ts,
  edges lo m (all_nibs false (init7 ++ ds)) = (M4, ts ++ [(false, 40); (false, 1); (false, 2)] ++ map byte_of ds).
Proof.
  intros lo m ds Hlo Hm W. destruct (ctl_init_l 16 lo 0 m ds Hlo Hm W) as (d0 & ts & E & X).
  cbn [ctl_op] in E. injection E as <-. exists ts. exact X.
Qed.
Lemma init_ok : forall ds, Forall whole ds -> Forall dop_ok (init7 ++ ds).
Proof. intros ds W. apply Forall_app. split; [repeat constructor; cbn; lia|apply whole_ok; exact W]. Qed.
Lemma lcd_rs : forall timer outside x b, NoDup (lcd_list x) -> sane timer b -> p_pwm (b (n_rs x)) = None -> p_latch (b (n_rs x)) = false ->
  rs (lcd_lines x (fst (p_run timer outside b (ArduinoModel.lcd_new x)))) = false.
Proof.
  intros timer outside x b ND S P L. unfold lcd_lines. cbn [rs]. unfold ArduinoModel.lcd_new. cbn [p_run].
  destruct (p_step timer outside b (POut (n_rs x))) as [b1 v1] eqn:E1. cbn [p_step] in E1. injection E1 as <- <-.
  set (rest := [POutInit (n_en x) true; POut (n_d4 x); POut (n_d5 x); POut (n_d6 x); POut (n_d7 x)]).
  assert (S1 : sane timer (pin_mode b (n_rs x) true)) by (apply sane_mode; exact S).
  destruct (pins_frame_l timer outside rest (pin_mode b (n_rs x) true) (n_rs x) S1) as [_ F].
  { unfold lcd_list in ND. inversion ND as [|? ? N1 N2]; subst. intros o I. unfold rest in I. cbn [In] in I, N1.
    repeat (destruct I as [<-|I]; [cbn [pin_of]; intros Q; apply N1; rewrite Q; tauto|]). contradiction. }
  destruct (p_run timer outside (pin_mode b (n_rs x) true) rest) as [b2 v2] eqn:E2. unfold rest in E2. cbn [p_run] in E2. rewrite E2. cbn [fst] in *. rewrite F, mode_at, Z.eqb_refl. cbv iota. unfold level, signal_of. cbn [p_ddr p_latch p_pwm].
  rewrite P, L. reflexivity.
Qed.
Lemma pins_wire : forall lo timer outside x b m ds, 0 <= lo < 16 -> mode_ok m -> NoDup (lcd_list x) -> sane timer b ->
  (forall n, In n (lcd_list x) -> p_pwm (b n) = None) -> p_latch (b (n_rs x)) = false -> Forall whole ds ->
  let b1 := fst (p_run timer outside b (ArduinoModel.lcd_new x)) in
  exists l' ts, watch lo (lcd_lines x b1) m (map (lcd_lines x) (p_trace timer outside b1 (flat_map (lcd_op x) (init7 ++ ds)))) =
    (l', M4, ts ++ [(false, 40); (false, 1); (false, 2)] ++ map byte_of ds).
Proof.
  intros lo timer outside x b m ds Hlo Hm ND S P L W b1.
  destruct (display_pins_l lo timer outside x b (init7 ++ ds) ND S P (init_ok ds W)) as (l' & _ & _ & _ & D). fold b1 in D.
  assert (R : rs (lcd_lines x b1) = false) by (apply lcd_rs; auto; apply P; left; reflexivity).
  rewrite R in D. destruct (init_wire lo m ds Hlo Hm W) as (ts & E). exists l', ts. rewrite D, E. reflexivity.
Qed.
Lemma inibs_map : forall os r, all_inibs r (map IOp os) = all_nibs r os.
Proof. induction os as [|o os IH]; intros r; cbn [map all_inibs all_nibs inibs irs_after]; [reflexivity|]. rewrite IH. reflexivity. Qed.
Lemma inibs_light : forall a v b r, all_inibs r (map IOp a ++ ILight v :: map IOp b) = all_nibs r (a ++ b).
Proof.
  induction a as [|o a IH]; intros v b r; cbn [map app all_inibs all_nibs inibs irs_after]; [apply inibs_map|]. rewrite IH. reflexivity.
Qed.

(** ** Pages *)
Lemma update_nth : forall {A} (l : list A) i j f, nth_error (update l i f) j =
  if Nat.eqb i j then option_map f (nth_error l j) else nth_error l j.
Proof. induction l as [|x l IH]; intros [|i] [|j] f; cbn [update nth_error Nat.eqb option_map]; try reflexivity; [destruct (Nat.eqb i j); reflexivity|apply IH]. Qed.
Lemma update_len : forall {A} (l : list A) i f, length (update l i f) = length l.
Proof. induction l as [|x l IH]; intros [|i] f; cbn [update length]; auto. Qed.
Lemma update_twice : forall (l : list ctl) i f g, Forall (fun x => g (f x) = x) l -> update (update l i f) i g = l.
Proof. intros l i f g F. revert i. induction F as [|x l H F IH]; intros [|i]; cbn [update]; [reflexivity|reflexivity|rewrite H; reflexivity|rewrite IH; reflexivity]. Qed.

Definition front (x : ctl) : ctl := set_st Focused x.
Lemma front_back : forall x, fresh_page x -> set_st UiModel.Normal (front x) = x.
Proof. intros [| |[] st p [|] kids] H; try contradiction. cbn in H. subst st. reflexivity. Qed.
Lemma front_input : forall x, fresh_page x -> is_input x = true /\ is_input (front x) = true.
Proof. intros [| |[] st p [|] kids] H; try contradiction. split; reflexivity. Qed.
Lemma front_display : forall text edit x, fresh_page x -> display text edit DNormal (front x) = display text edit DNormal x.
Proof. intros text edit [| |[] st p [|] kids] H; try contradiction. reflexivity. Qed.

Lemma Forall_skip : forall {A} (P : A -> Prop) k l, Forall P l -> Forall P (skipn k l).
Proof. intros A P k l F. revert k. induction F as [|x l H F IH]; intros [|k]; cbn [skipn]; try constructor; auto. Qed.
Section G.
Variables (text : Z -> list Z) (edit : Z -> Z) (pages : list ctl).
Hypothesis fresh : Forall fresh_page pages.
Hypothesis some : pages <> [].
Let n := length pages.
(** The controller showing page i. *)
Definition showing (i : nat) : ctl := Box Pages Focused 0 (Some i) (update pages i front).
Lemma inputs : forall i, (i < n)%nat -> Forall (fun x => is_input x = true) (update pages i front).
Proof.
  intros i Hi. apply Forall_forall. intros x I. apply In_nth_error in I. destruct I as [j E]. rewrite update_nth in E.
  rewrite Forall_forall in fresh. destruct (Nat.eqb i j).
  - destruct (nth_error pages j) as [y|] eqn:E1; [|discriminate]. cbn in E. injection E as <-. apply front_input. apply fresh. eapply nth_error_In; exact E1.
  - apply front_input. apply fresh. eapply nth_error_In; exact E.
Qed.
Lemma first_all : forall l i, Forall (fun x => is_input x = true) l -> first_input l i = match l with [] => None | _ => Some i end.
Proof. intros [|x l] i F; [reflexivity|]. inversion F; subst. cbn [first_input]. rewrite H1. reflexivity. Qed.
Lemma to_page : forall i j, (i < n)%nat -> (j < n)%nat -> set_current (showing i) (Some j) = showing j.
Proof.
  intros i j Hi Hj. unfold showing, set_current. cbn [class_of]. rewrite update_twice; [reflexivity|].
  eapply Forall_impl; [|exact fresh]. intros x H. apply front_back. exact H.
Qed.
Lemma turn_l : forall i, (i < n)%nat -> turn_page (showing i) = showing (Nat.modulo (S i) n).
Proof.
  intros i Hi. unfold turn_page, set_next, set_first, go. cbn [showing kids_of cur_of next_input].
  rewrite !first_all by (try apply Forall_skip; apply inputs; exact Hi).
  destruct (Nat.eq_dec (S i) n) as [E|E].
  - rewrite skipn_all2 by (rewrite update_len; fold n; lia). rewrite E, Nat.mod_same by lia.
    destruct (update pages i front) as [|y l] eqn:U; [exfalso; apply (f_equal (@length ctl)) in U; rewrite update_len in U; cbn in U; fold n in U; lia|].
    cbn [fst]. apply to_page; lia.
  - rewrite Nat.mod_small by lia.
    destruct (skipn (S i) (update pages i front)) as [|y l] eqn:U.
    { exfalso. apply (f_equal (@length ctl)) in U. rewrite skipn_length, update_len in U. cbn in U. fold n in U. lia. }
    apply to_page; lia.
Qed.
Lemma first_page_l : fst (set_first (Box Pages UiModel.Normal 0 None pages)) = showing 0.
Proof.
  unfold set_first, go. cbn [kids_of next_input]. rewrite first_all.
  - unfold showing. destruct pages as [|x l]; [congruence|]. reflexivity.
  - eapply Forall_impl; [|exact fresh]. intros x H. apply front_input. exact H.
Qed.
Lemma draw_page : forall i, (i < n)%nat -> draw text edit (showing i) = TDraw (display text edit DNormal (nth i pages (Label UiModel.Normal 0 []))).
Proof.
  intros i Hi. unfold draw, showing. cbn [display]. rewrite current_at, update_nth, Nat.eqb_refl.
  rewrite (nth_error_nth' pages (Label UiModel.Normal 0 [])) by exact Hi. cbn [option_map]. rewrite front_display; [reflexivity|].
  rewrite Forall_forall in fresh. apply fresh. apply nth_In. exact Hi.
Qed.
Lemma loop_l : forall k i, (i < n)%nat -> pages_loop text edit k (showing i) =
  map (fun j => TDraw (display text edit DNormal (nth (Nat.modulo j n) pages (Label UiModel.Normal 0 [])))) (seq (S i) k).
Proof.
  induction k as [|k IH]; intros i Hi; [reflexivity|]. cbn [pages_loop seq map]. rewrite turn_l by exact Hi.
  assert (M : (Nat.modulo (S i) n < n)%nat) by (apply Nat.mod_upper_bound; lia).
  rewrite draw_page, IH by exact M. f_equal.
  clear IH.
  assert (X : forall l a b, Nat.modulo a n = Nat.modulo b n ->
    map (fun j => TDraw (display text edit DNormal (nth (Nat.modulo j n) pages (Label UiModel.Normal 0 [])))) (seq a l) =
    map (fun j => TDraw (display text edit DNormal (nth (Nat.modulo j n) pages (Label UiModel.Normal 0 [])))) (seq b l)).
  { induction l as [|l IH]; intros a b E; [reflexivity|]. cbn [seq map]. rewrite E. f_equal. apply IH.
    change (S a) with (1 + a)%nat. change (S b) with (1 + b)%nat. rewrite <- (Nat.add_mod_idemp_r 1 a), <- (Nat.add_mod_idemp_r 1 b) by lia. rewrite E. reflexivity. }
  apply X.
  change (S (S i mod n)) with (1 + (S i mod n))%nat. rewrite Nat.add_mod_idemp_r by lia. reflexivity.
Qed.
Lemma sketch_calls : forall k, pages_sketch text edit k pages =
  TInit :: TCtl (CDisplay true) :: map (fun p => TDraw (display text edit DNormal p)) (shown_pages k pages).
Proof.
  intros k. unfold pages_sketch. cbv zeta. rewrite first_page_l.
  assert (N : (0 < n)%nat) by (unfold n; destruct pages; [congruence|cbn; lia]).
  rewrite loop_l, draw_page by exact N. do 2 f_equal. unfold shown_pages. rewrite map_map. cbn [seq map]. f_equal. fold n. rewrite Nat.mod_0_l by lia. reflexivity.
Qed.
End G.

Section D.
Variables iw rows : Z.
Hypothesis iw8 : 8 <= iw.
Hypothesis rok : rows_ok rows.
Variables (text : Z -> list Z) (edit : Z -> Z).
Lemma draws_run : forall ps r v d cells, Forall fresh_page ps -> Forall (page_fits text rows) ps -> in_step iw r d -> shows rows cells d -> curs d = false ->
  exists r' v' ds, t_run iw rows (r, v) (map (fun p => TDraw (display text edit DNormal p)) ps) = Some (r', v', ds) /\ Forall whole ds /\
    let d' := exec_all d (map byte_of ds) in
    in_step iw r' d' /\ disp d' = disp d /\ curs d' = false /\ blink d' = blink d /\ off d' = off d /\
    shows rows (picture cells (flat_map (page_pieces text) ps)) d'.
Proof.
  induction ps as [|p ps IH]; intros r v d cells F P S H C.
  - exists r, v, []. cbn. auto 9.
  - inversion F as [|? ? F1 F2]; subst. inversion P as [|? ? P1 P2]; subst. cbn [map t_run t_call].
    assert (CF : cursor_fits edit rows p).
    { intros line f El. exfalso. destruct p as [| |[] st q [|] kids]; try contradiction. discriminate. }
    destruct (page_draw_l iw rows iw8 rok text edit p r v d P1 CF S) as (r1 & v1 & d1 & E1 & W1 & S1 & X1 & X2 & X3 & X4).
    assert (L : current_line p = None) by (destruct p as [| |[] st q [|] kids]; try contradiction; reflexivity).
    rewrite L in X4. destruct X4 as (X4 & X5).
    rewrite E1. cbn [bindo fst snd].
    assert (H1 : shows rows (picture cells (page_pieces text p)) (exec_all d (map byte_of d1))).
    { intros y x Hy Hx. rewrite X3 by assumption. apply (picture_in rows); assumption. }
    destruct (IH r1 v1 _ _ F2 P2 S1 H1 X4) as (r2 & v2 & d2 & E2 & W2 & S2 & Y1 & Y2 & Y3 & Y4 & Y5).
    rewrite E2. cbn [bindo fst snd]. exists r2, v2, (d1 ++ d2). split; [reflexivity|]. split; [apply Forall_app; auto|].
    cbv zeta. rewrite map_app, exec_all_app. split; [exact S2|]. split; [congruence|]. split; [exact Y2|]. split; [congruence|]. split; [congruence|].
    cbn [flat_map]. rewrite picture_app. exact Y5.
Qed.

Lemma pages_setup_l : forall k pages, pages <> [] -> Forall fresh_page pages -> Forall (page_fits text rows) pages ->
  exists r v ds, t_run iw rows t_new (pages_sketch text edit k pages) = Some (r, v, init7 ++ ds) /\ Forall whole ds /\
  forall d, let d' := exec_all (exec_all d [(false, 40); (false, 1); (false, 2)]) (map byte_of ds) in
    display_plain d' /\
    (forall y x, 0 <= y < rows -> 0 <= x < width rows -> on_screen d' y x = picture no_text (flat_map (page_pieces text) (shown_pages k pages)) y x).
Proof.
  intros k pages N F P. rewrite sketch_calls by assumption.
  assert (G : forall Q : ctl -> Prop, Forall Q pages -> Forall Q (shown_pages k pages)).
  { intros Q A. unfold shown_pages. apply Forall_forall. intros x I. apply in_map_iff in I. destruct I as (j & <- & _).
    rewrite Forall_forall in A. apply A. apply nth_In. apply Nat.mod_upper_bound. destruct pages; [congruence|cbn; lia]. }
  destruct (start2 iw rows iw8) as (r1 & e1 & r & e2 & E1 & E2 & O1 & O2 & X).
  assert (R : forall d, ready iw r d -> exists r' v ds, t_run iw rows (r, snd t_new) (map (fun p => TDraw (display text edit DNormal p)) (shown_pages k pages)) = Some (r', v, ds) /\ Forall whole ds /\
    let d' := exec_all d (map byte_of ds) in display_plain d' /\
    (forall y x, 0 <= y < rows -> 0 <= x < width rows -> on_screen d' y x = picture no_text (flat_map (page_pieces text) (shown_pages k pages)) y x)).
  { intros d (S & M & A & D1 & D2 & D3 & D4).
    assert (H : shows rows no_text d) by (intros y x Hy Hx; unfold on_screen; rewrite M; reflexivity).
    destruct (draws_run (shown_pages k pages) r (snd t_new) d no_text (G _ F) (G _ P) S H D2) as (r' & v & ds & E & O & _ & Y1 & Y2 & Y3 & Y4 & H2).
    exists r', v, ds. split; [exact E|]. split; [exact O|]. cbv zeta. split; [|exact H2].
    unfold display_plain. rewrite Y1, Y2, Y3, Y4. auto. }
  destruct (R _ (X HdSpec.lcd_new)) as (r' & v & ds & E & O & _).
  exists r', v, (e1 ++ e2 ++ ds). cbn [t_run]. rewrite E1. cbn [bindo fst snd]. rewrite E2. cbn [bindo fst snd]. rewrite E. cbn [bindo fst snd].
  rewrite <- app_assoc. split; [reflexivity|]. split; [repeat (apply Forall_app; split; try assumption)|].
  intros d. cbv zeta. rewrite app_assoc, map_app, exec_all_app.
  destruct (R _ (X d)) as (r'' & v' & ds' & E' & O' & Y). rewrite E in E'. injection E' as <- <- <-. exact Y.
Qed.
End D.

(** ** Pictures *)
Lemma picture_miss : forall qs cells y x, existsb (fun q => inside q y x) qs = false -> picture cells qs y x = cells y x.
Proof.
  induction qs as [|q qs IH]; intros cells y x E; [reflexivity|]. cbn [existsb] in E. apply orb_false_elim in E. destruct E as [E1 E2].
  cbn [picture fold_left]. change (fold_left put_piece qs (put_piece cells q) y x) with (picture (put_piece cells q) qs y x).
  rewrite IH by exact E2. unfold put_piece. rewrite E1. reflexivity.
Qed.
Lemma picture_hit : forall qs c1 c2 y x, existsb (fun q => inside q y x) qs = true -> picture c1 qs y x = picture c2 qs y x.
Proof.
  induction qs as [|q qs IH]; intros c1 c2 y x E; [discriminate|]. cbn [existsb] in E. cbn [picture fold_left].
  change (fold_left put_piece qs ?c y x) with (picture c qs y x).
  destruct (existsb (fun q => inside q y x) qs) eqn:E2; [apply IH; exact E2|].
  rewrite !picture_miss by exact E2. rewrite orb_false_r in E. unfold put_piece. rewrite E. reflexivity.
Qed.
(** Pages that cover the same cells. *)
Lemma same_cover : forall text ps p y x, (forall q, In q ps -> covers text q y x = covers text p y x) ->
  picture no_text (flat_map (page_pieces text) (ps ++ [p])) y x = picture no_text (page_pieces text p) y x.
Proof.
  intros text ps p y x C. rewrite flat_map_app, picture_app. cbn [flat_map]. rewrite app_nil_r.
  destruct (covers text p y x) eqn:E; [apply picture_hit; exact E|].
  rewrite (picture_miss (page_pieces text p)) by exact E. rewrite (picture_miss (page_pieces text p) no_text) by exact E.
  apply picture_miss. induction ps as [|q ps IH]; [reflexivity|]. cbn [flat_map]. rewrite existsb_app.
  apply orb_false_intro; [apply C; left; reflexivity|]. apply IH. intros q' I. apply C. right. exact I.
Qed.

(** The lines of a listing. *)
Lemma listing_l : forall rows ts y x, Z.of_nat (length ts) <= rows -> 0 <= y -> 0 <= x ->
  picture no_text (line_list rows ts) y x = listing ts y x.
Proof.
  intros rows ts y x L Hy Hx. unfold line_list, listing.
  assert (G : forall ts k cells, Z.of_nat (k + length ts) <= rows ->
    picture cells (map (fun q => (line_row rows (fst q), 0, snd q)) (combine (seq k (length ts)) ts)) y x =
    if (Z.of_nat k <=? y) && (y <? Z.of_nat (k + length ts)) && (x <? Z.of_nat (length (nth (Z.to_nat y - k) ts [])))
    then nth (Z.to_nat x) (nth (Z.to_nat y - k) ts []) 32 else cells y x).
  { clear L ts. induction ts as [|t ts IH]; intros k cells L.
    - cbn [length seq combine map]. change (picture cells [] y x) with (cells y x). rewrite Nat.add_0_r.
      replace (_ && _) with false; [reflexivity|]. symmetry. apply andb_false_intro1. lia.
    - cbn [length seq combine map]. cbn [picture fold_left]. change (fold_left put_piece ?l ?c y x) with (picture c l y x).
      cbn [length] in L. rewrite IH by lia. clear IH. unfold put_piece, inside, char_at. cbn [fst snd].
      assert (R : line_row rows k = Z.of_nat k).
      { unfold line_row. cbv zeta. rewrite Z.mod_small by lia. replace (Z.of_nat k =? rows) with false by lia. reflexivity. }
      rewrite R, Z.sub_0_r.
      destruct (Z.eqb_spec y (Z.of_nat k)) as [->|N].
      + rewrite Nat2Z.id, Nat.sub_diag. cbn [nth]. replace (Z.of_nat (S k) <=? Z.of_nat k) with false by lia. cbn [andb].
        replace (0 <=? x) with true by lia. replace (Z.of_nat k <=? Z.of_nat k) with true by lia.
        replace (Z.of_nat k <? Z.of_nat (k + S (length ts))) with true by lia. cbn [andb]. rewrite Z.add_0_l.
        destruct (Z.ltb_spec x (Z.of_nat (length t))); [|reflexivity]. apply nth_indep. lia.
      + cbn [andb]. destruct (Z.leb_spec (Z.of_nat k) y) as [G|G].
        * replace (Z.of_nat (S k) <=? y) with true by lia. replace (Z.to_nat y - k)%nat with (S (Z.to_nat y - S k))%nat by lia. cbn [nth andb].
          replace (k + S (length ts))%nat with (S k + length ts)%nat by lia. reflexivity.
        * replace (Z.of_nat (S k) <=? y) with false by lia. reflexivity. }
  rewrite G by (cbn [Nat.add]; lia). rewrite Nat.sub_0_r. cbn [Nat.add]. replace (Z.of_nat 0 <=? y) with true by lia. cbn [andb].
  destruct (Z.ltb_spec y (Z.of_nat (length ts))) as [A|A]; cbn [andb].
  - destruct (Z.ltb_spec x (Z.of_nat (length (nth (Z.to_nat y) ts [])))) as [B|B]; [reflexivity|].
    rewrite (nth_overflow (nth (Z.to_nat y) ts [])) by lia. reflexivity.
  - rewrite (nth_overflow ts) by lia. destruct (Z.to_nat x); reflexivity.
Qed.
