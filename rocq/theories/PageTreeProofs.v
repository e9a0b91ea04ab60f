(** Panels in panels. *)
Require Import ZArith List Bool Lia ZifyBool.
Import ListNotations.
From Verif Require Import Base BaseFacts BitModel HdModel HdSpec HdIfProofs HdProofs HdCtlProofs UiModel PageModel PageSpec PageProofs.
Open Scope Z_scope.
Ltac Zify.zify_post_hook ::= idtac.

(** Induction over trees of controls. *)
Fixpoint tree_ind (P : ctl -> Prop) (HL : forall s p t, P (Label s p t)) (HF : forall s p i lr log, P (Field s p i lr log))
  (HB : forall k s p cur kids, Forall P kids -> P (Box k s p cur kids)) (x : ctl) : P x :=
  match x with
  | Label s p t => HL s p t
  | Field s p i lr log => HF s p i lr log
  | Box k s p cur kids => HB k s p cur kids ((fix all (l : list ctl) : Forall P l :=
      match l with [] => Forall_nil P | y :: rest => Forall_cons y (tree_ind P HL HF HB y) (all rest) end) kids)
  end.

Section P.
Variables iw rows : Z.
Hypothesis iw8 : 8 <= iw.
Hypothesis rok : rows_ok rows.
Variables (text : Z -> list Z) (edit : Z -> Z).
Notation disp_ := (display text edit).
Notation shows := (shows rows).

(** What the loops of the specification do. *)
Definition step_in (k : pkind) (r : Z) (y : ctl) : list piece * Z :=
  match k with Horizontal => layout text r (pos_of y) y | _ => layout text (pos_of y) 0 y end.
Fixpoint walk (k : pkind) (r : Z) (l : list ctl) : list piece * Z :=
  match l with
  | [] => ([], r)
  | y :: rest => if visible (st_of y) then let (qs, r1) := step_in k r y in let (more, r2) := walk k r1 rest in (qs ++ more, r2) else walk k r rest
  end.
Lemma layout_box : forall r c k s p cur kids, layout text r c (Box k s p cur kids) =
  let (qs, r1) := match k with
                  | Pages => match cur with Some i => match nth_error kids i with Some y => layout text r c y | None => ([], r) end | None => ([], r) end
                  | _ => walk k r kids
                  end in ((r, c, []) :: qs, r1).
Proof.
  intros r c k s p cur kids. cbn [layout].
  assert (W : forall l r0, (fix walk (r : Z) (l : list ctl) : list piece * Z :=
        match l with
        | [] => ([], r)
        | y :: rest =>
            if visible (st_of y) then
              let (qs, r1) := match k with Horizontal => layout text r (pos_of y) y | _ => layout text (pos_of y) 0 y end in
              let (more, r2) := walk r1 rest in (qs ++ more, r2)
            else walk r rest
        end) r0 l = walk k r0 l).
  { induction l as [|y l IH]; intros r0; [reflexivity|]. cbn [walk]. destruct (visible (st_of y)); [|apply IH].
    unfold step_in. destruct (match k with Horizontal => layout text r0 (pos_of y) y | _ => layout text (pos_of y) 0 y end) as [qs r1]. rewrite IH. reflexivity. }
  assert (O : forall l i, (fix one (l : list ctl) (i : nat) : list piece * Z :=
        match l, i with [], _ => ([], r) | y :: _, O => layout text r c y | _ :: rest, S j => one rest j end) l i =
        match nth_error l i with Some y => layout text r c y | None => ([], r) end).
  { induction l as [|y l IH]; intros [|i]; cbn [nth_error]; auto. }
  destruct k; try (rewrite W; reflexivity). destruct cur as [i|]; [|reflexivity]. rewrite O. reflexivity.
Qed.
Lemma deepest_box : forall k s p cur kids, deepest (Box k s p cur kids) =
  match cur with Some i => match nth_error kids i with Some y => deepest y | None => None end | None => None end.
Proof.
  intros k s p cur kids. cbn [deepest].
  assert (O : forall l i, (fix one (l : list ctl) (i : nat) : option ctl :=
        match l, i with [], _ => None | y :: _, O => deepest y | _ :: rest, S j => one rest j end) l i =
        match nth_error l i with Some y => deepest y | None => None end).
  { induction l as [|y l IH]; intros [|i]; cbn [nth_error]; auto. }
  destruct cur as [i|]; [|reflexivity]. apply O.
Qed.
Lemma no_page_box : forall k s p cur kids, no_page (Box k s p cur kids) <-> k <> PageK /\ Forall no_page kids.
Proof.
  intros k s p cur kids. cbn [no_page].
  assert (A : forall l, (fix all (l : list ctl) : Prop := match l with [] => True | y :: rest => no_page y /\ all rest end) l <-> Forall no_page l).
  { induction l as [|y l IH]; [split; [constructor|auto]|]. rewrite IH. split; [intros [H1 H2]; constructor; assumption|intros H; inversion H; auto]. }
  rewrite A. split; intros [H1 H2]; (split; [|exact H2]); destruct k; (congruence || auto).
Qed.

(** Drawing with the writer at row [r] and column [c]. *)
Definition drawn_from (r c : Z) (ws : list wcall) (qs : list piece) (r' : Z) : Prop :=
  forall reg d cells, in_step iw reg d -> shows cells d -> (c < width rows -> ac d = cell_address r c) ->
  exists v' ds, dw_run iw rows (reg, {| row := r; col := c |}) ws = Some (reg, v', ds) /\ Forall whole ds /\ row v' = r' /\
    let d' := exec_all d (map byte_of ds) in
    in_step iw reg d' /\ disp d' = disp d /\ curs d' = curs d /\ blink d' = blink d /\ off d' = off d /\ shows (picture cells qs) d'.
(** The same from any position on row [r]. *)
Definition drawn_row (r : Z) (ws : list wcall) (qs : list piece) (r' : Z) : Prop :=
  forall reg v d cells, row v = r -> in_step iw reg d -> shows cells d ->
  exists v' ds, dw_run iw rows (reg, v) ws = Some (reg, v', ds) /\ Forall whole ds /\ row v' = r' /\
    let d' := exec_all d (map byte_of ds) in
    in_step iw reg d' /\ disp d' = disp d /\ curs d' = curs d /\ blink d' = blink d /\ off d' = off d /\ shows (picture cells qs) d'.

Lemma row_nil : forall r, drawn_row r [] [] r.
Proof. intros r reg v d cells L S H. exists v, []. cbn. auto 10. Qed.
Lemma row_app : forall r r1 r2 a b qa qb, drawn_row r a qa r1 -> drawn_row r1 b qb r2 -> drawn_row r (a ++ b) (qa ++ qb) r2.
Proof.
  intros r r1 r2 a b qa qb A B reg v d cells L S H.
  destruct (A reg v d cells L S H) as (v1 & d1 & E1 & W1 & L1 & S1 & X1 & X2 & X3 & X4 & H1).
  destruct (B reg v1 _ _ L1 S1 H1) as (v2 & d2 & E2 & W2 & L2 & S2 & Y1 & Y2 & Y3 & Y4 & H2).
  exists v2, (d1 ++ d2). rewrite (dw_run_app iw rows a b _ _ _ E1), E2. cbn [bindo fst snd]. split; [reflexivity|]. split; [apply Forall_app; auto|].
  split; [exact L2|]. cbv zeta. rewrite map_app, exec_all_app, picture_app. repeat (split; [congruence || assumption|]). exact H2.
Qed.
Lemma row_from : forall r c ws qs r', drawn_row r ws qs r' -> drawn_from r c ws qs r'.
Proof. intros r c ws qs r' D reg d cells S H _. apply D; [reflexivity|exact S|exact H]. Qed.
Lemma from_text : forall r c t, piece_fits rows (r, c, t) -> drawn_from r c [WText t] [(r, c, t)] r.
Proof.
  intros r c t (H1 & H2 & H3 & H4) reg d cells S H A. cbn [dw_run dw_call fst snd].
  destruct (text_exec iw rows iw8 rok t reg cells d r c H4 S H H1 H2 H3 A) as (ds & E & Wd & Sd & D1 & D2 & D3 & D4 & Hd).
  rewrite E. cbn [bindo fst snd]. rewrite app_nil_r. eexists. exists ds. split; [reflexivity|]. split; [exact Wd|]. split; [reflexivity|].
  cbv zeta. auto 8.
Qed.
(** GoTo and then drawing. *)
Lemma goto_from : forall r l c c0 ws qs r', 0 <= l < rows -> 0 <= c <= width rows -> (c0 = 255 /\ l = r \/ c0 = l) ->
  drawn_from l c ws qs r' -> drawn_row r (WGoTo c0 c :: ws) qs r'.
Proof.
  intros r l c c0 ws qs r' Hl Hc HL D reg v d cells L S H. cbn [dw_run dw_call fst snd].
  destruct (width_l rows rok) as (W1 & W2 & W3). assert (W4 : width rows <= 40) by (rewrite W1; destruct (rows =? 4); lia).
  pose proof (dw_goto_l rows v c0 c rok) as G. cbv zeta in G. replace (c =? 255) with false in G by lia.
  replace (if c0 =? 255 then row v else c0) with l in G.
  2:{ destruct HL as [[-> ->]| ->]; [change (255 =? 255) with true; cbv iota; symmetry; exact L|]. replace (l =? 255) with false; [reflexivity|]. unfold rows_ok in rok. lia. }
  rewrite G by lia. clear G. cbn [bindo fst snd].
  pose proof (addr_small rows l c rok Hl Hc) as A.
  destruct (D reg (lcd_at d (cell_address l c) false) cells (in_step_at _ _ _ _ S) (shows_same _ _ d _ eq_refl H)) as (v2 & d2 & E2 & W5 & L2 & S2 & Y1 & Y2 & Y3 & Y4 & H2).
  { intros _. reflexivity. }
  rewrite E2. cbn [bindo fst snd]. exists v2, ([DCmd (128 + cell_address l c)] ++ d2). split; [reflexivity|].
  split; [apply Forall_app; split; [apply addr_whole; exact A|exact W5]|]. split; [exact L2|].
  cbv zeta. rewrite map_app, exec_all_app, addr_exec by exact A. auto 8.
Qed.
Lemma put_empty : forall cells r c, forall y x, put_piece cells (r, c, []) y x = cells y x.
Proof. intros cells r c y x. unfold put_piece, inside. cbn [length]. replace (_ && _ && _) with false by lia. reflexivity. Qed.
Lemma from_empty : forall r c r0 c0 ws qs r', drawn_from r c ws qs r' -> drawn_from r c ws ((r0, c0, []) :: qs) r'.
Proof.
  intros r c r0 c0 ws qs r' D reg d cells S H A. destruct (D reg d cells S H A) as (v & ds & E & W & L & S2 & X1 & X2 & X3 & X4 & H2).
  exists v, ds. split; [exact E|]. split; [exact W|]. split; [exact L|]. cbv zeta. repeat (split; [assumption|]).
  eapply shows_ext; [|exact H2]. intros y x. cbn [picture fold_left]. symmetry. apply picture_ext. intros. apply put_empty.
Qed.
(** The first piece is where the writer is. *)
Lemma layout_first : forall x r c, exists t qs, fst (layout text r c x) = (r, c, t) :: qs.
Proof.
  intros [s p t|s p i lr log|k s p cur kids] r c; try (do 2 eexists; reflexivity). rewrite layout_box.
  destruct (match k with Pages => _ | _ => _ end) as [qs r1]. do 2 eexists. reflexivity.
Qed.
Lemma start_fits : forall x r c, Forall (piece_fits rows) (fst (layout text r c x)) -> 0 <= r < rows /\ 0 <= c <= width rows.
Proof.
  intros x r c F. destruct (layout_first x r c) as (t & qs & E). rewrite E in F. inversion F as [|? ? Hp _]; subst. unfold piece_fits in Hp. lia.
Qed.

Definition loop (k : pkind) : list ctl -> list wcall := match k with Horizontal => columns text edit | _ => rows_of text edit end.
Definition draws (x : ctl) : Prop := forall r c, no_page x -> Forall (piece_fits rows) (fst (layout text r c x)) ->
  drawn_from r c (disp_ DNormal x) (fst (layout text r c x)) (snd (layout text r c x)).
Lemma loop_l : forall k kids, Forall draws kids -> Forall no_page kids -> forall r,
  Forall (piece_fits rows) (fst (walk k r kids)) -> drawn_row r (loop k kids) (fst (walk k r kids)) (snd (walk k r kids)).
Proof.
  intros k kids D. induction D as [|y kids Dy D IH]; intros N r F.
  - unfold loop. destruct k; apply row_nil.
  - inversion N as [|? ? Ny Ns]; subst. cbn [walk] in *.
    assert (E : loop k (y :: kids) = (if visible (st_of y) then match k with Horizontal => WGoTo 255 (pos_of y) | _ => WGoTo (pos_of y) 0 end :: disp_ DNormal y else []) ++ loop k kids).
    { unfold loop. destruct k; reflexivity. }
    rewrite E. clear E. destruct (visible (st_of y)); [|cbn [app]; apply IH; assumption].
    destruct (step_in k r y) as [qs r1] eqn:ES. specialize (IH Ns r1). destruct (walk k r1 kids) as [more r2]. cbn [fst snd] in *.
    apply Forall_app in F. destruct F as [F1 F2]. eapply row_app; [|apply IH; exact F2].
    unfold step_in in ES. destruct k.
    all: first
      [ pose proof (start_fits y r (pos_of y)) as SF; rewrite ES in SF; destruct (SF F1) as [Q1 Q2];
        apply (goto_from r r (pos_of y)); [exact Q1|exact Q2|left; auto|];
        pose proof (Dy r (pos_of y) Ny) as G; rewrite ES in G; apply G; exact F1
      | pose proof (start_fits y (pos_of y) 0) as SF; rewrite ES in SF; destruct (SF F1) as [Q1 Q2];
        apply (goto_from r (pos_of y) 0); [exact Q1|exact Q2|right; auto|];
        pose proof (Dy (pos_of y) 0 Ny) as G; rewrite ES in G; apply G; exact F1 ].
Qed.

Lemma display_panel : forall m s p cur kids, disp_ m (Box Pages s p cur kids) =
  match cur with Some i => match nth_error kids i with Some x => disp_ m x | None => [] end | None => [] end.
Proof. intros m s p [i|] kids; cbn [display]; [rewrite current_at|]; reflexivity. Qed.

Lemma draws_all : forall x, draws x.
Proof.
  apply tree_ind.
  - intros s p t r c _ F. cbn [layout fst snd display] in *. inversion F; subst. apply from_text. assumption.
  - intros s p i lr log r c _ F. cbn [layout fst snd display] in *. inversion F; subst. apply from_text. assumption.
  - intros k s p cur kids D r c N F. apply no_page_box in N. destruct N as [Nk N]. rewrite layout_box in *. destruct k; try congruence.
    all: try (destruct (walk Horizontal r kids) as [qs r1] eqn:EW; cbn [fst snd] in *; inversion F; subst; apply from_empty, row_from;
           pose proof (loop_l Horizontal kids D N r) as G; rewrite EW in G; apply G; assumption).
    all: try (destruct (walk Vertical r kids) as [qs r1] eqn:EW; cbn [fst snd] in *; inversion F; subst; apply from_empty, row_from;
           pose proof (loop_l Vertical kids D N r) as G; rewrite EW in G; apply G; assumption).
    rewrite display_panel. destruct cur as [i|]; [|cbn [fst snd]; apply from_empty, row_from, row_nil].
    destruct (nth_error kids i) as [y|] eqn:EY; [|cbn [fst snd]; apply from_empty, row_from, row_nil].
    apply nth_error_In in EY. rewrite Forall_forall in D, N. pose proof (D y EY r c (N y EY)) as G.
    destruct (layout text r c y) as [qs r1]. cbn [fst snd] in *. apply from_empty, G. inversion F; assumption.
Qed.

Lemma cursor_calls : forall x, no_page x -> disp_ DCursor x =
  match deepest x with
  | Some (Field s p i lr log) => if lr && active s then [WCursor 255 (u8 (p + edit i)) (cstate_eqb s Selected)] else []
  | _ => []
  end.
Proof.
  apply (tree_ind (fun x => no_page x -> disp_ DCursor x =
    match deepest x with
    | Some (Field s p i lr log) => if lr && active s then [WCursor 255 (u8 (p + edit i)) (cstate_eqb s Selected)] else []
    | _ => []
    end)); [reflexivity|reflexivity|].
  intros k s p cur kids IH N. apply no_page_box in N. destruct N as [Nk N]. rewrite deepest_box.
  assert (E : disp_ DCursor (Box k s p cur kids) = match cur with Some i => match nth_error kids i with Some x => disp_ DCursor x | None => [] end | None => [] end).
  { destruct k; try congruence; destruct cur as [i|]; cbn [display]; try rewrite current_at; reflexivity. }
  rewrite E. destruct cur as [i|]; [|reflexivity]. destruct (nth_error kids i) as [y|] eqn:EY; [|reflexivity].
  apply nth_error_In in EY. rewrite Forall_forall in IH, N. apply IH; [exact EY|apply N; exact EY].
Qed.
Lemma deepest_leaf : forall x g, deepest x = Some g -> match g with Box _ _ _ _ _ => False | _ => True end.
Proof.
  apply (tree_ind (fun x => forall g, deepest x = Some g -> match g with Box _ _ _ _ _ => False | _ => True end)).
  - intros s p t g E. injection E as <-. exact I.
  - intros s p i lr log g E. injection E as <-. exact I.
  - intros k s p cur kids IH g E. rewrite deepest_box in E. destruct cur as [i|]; [|discriminate]. destruct (nth_error kids i) as [y|] eqn:EY; [|discriminate].
    apply nth_error_In in EY. rewrite Forall_forall in IH. exact (IH y EY g E).
Qed.

(** The control that places the cursor itself. *)

Lemma walk_any : forall l q q', fst (walk PageK q l) = fst (walk PageK q' l).
Proof.
  induction l as [|y l IH]; intros q q'; [reflexivity|]. cbn [walk]. destruct (visible (st_of y)); [|apply IH].
  unfold step_in. destruct (layout text (pos_of y) 0 y) as [qs r1]. destruct (walk PageK r1 l). reflexivity.
Qed.

Lemma tree_draw_l : forall page r v d, tree_fits text rows page -> tree_cursor_fits edit rows page -> in_step iw r d ->
  exists r' v' ds, dw_run iw rows (r, v) (disp_ DNormal page) = Some (r', v', ds) /\ Forall whole ds /\
    let d' := exec_all d (map byte_of ds) in
    in_step iw r' d' /\ disp d' = disp d /\ off d' = off d /\
    (forall y x, 0 <= y < rows -> 0 <= x < width rows -> on_screen d' y x = picture (on_screen d) (fst (layout text 0 0 page)) y x) /\
    match current_line page, current_input page with
    | Some line, Some f => curs d' = true /\
        match own_cursor f with
        | Some g => blink d' = is_selected g /\ ac d' = cell_address 0 (pos_of g + edit_of edit g)
        | None => blink d' = is_selected f /\ ac d' = cell_address (pos_of line) (pos_of f)
        end
    | _, _ => curs d' = false /\ blink d' = blink d
    end.
Proof.
  intros page r v d [FN F] C S. destruct page as [| |k st p cur lines]; try contradiction. destruct k; try contradiction.
  destruct (width_l rows rok) as (W1 & W2 & W3). assert (W4 : width rows <= 40) by (rewrite W1; destruct (rows =? 4); lia).
  rewrite display_page. rewrite layout_box in *. destruct (walk PageK 0 lines) as [qs r0] eqn:EW. cbn [fst snd] in *.
  assert (F' : Forall (piece_fits rows) qs) by (inversion F; assumption).
  assert (EQ : fst (walk PageK (row v) lines) = qs) by (rewrite (walk_any lines (row v) 0), EW; reflexivity).
  assert (DA : Forall draws lines) by (apply Forall_forall; intros y _; apply draws_all).
  destruct (loop_l PageK lines DA FN (row v) ltac:(rewrite EQ; exact F') r v d (on_screen d) eq_refl S ltac:(intros ? ? ? ?; reflexivity)) as (v1 & d1 & E1 & Wd1 & _ & S1 & X1 & X2 & X3 & X4 & H1).
  change (loop PageK lines) with (rows_of text edit lines) in E1. rewrite EQ in H1.
  rewrite (dw_run_app iw rows _ _ _ _ _ E1). set (dm := exec_all d (map byte_of d1)) in *.
  set (page := Box PageK st p cur lines) in *.
  set (goal d2 := match current_line page, current_input page with
    | Some line, Some f => curs d2 = true /\
        match own_cursor f with
        | Some g => blink d2 = is_selected g /\ ac d2 = cell_address 0 (pos_of g + edit_of edit g)
        | None => blink d2 = is_selected f /\ ac d2 = cell_address (pos_of line) (pos_of f)
        end
    | _, _ => curs d2 = false /\ blink d2 = blink d
    end).
  assert (FIN : forall r2 (v2 : view) ds2 d2, Forall whole ds2 -> exec_all dm (map byte_of ds2) = d2 -> in_step iw r2 d2 -> mem d2 = mem dm -> disp d2 = disp dm -> off d2 = off dm ->
    goal d2 ->
    exists r' v' ds, Some (r2, v2, d1 ++ ds2) = Some (r', v', ds) /\ Forall whole ds /\
    let d' := exec_all d (map byte_of ds) in
    in_step iw r' d' /\ disp d' = disp d /\ off d' = off d /\
    (forall y x, 0 <= y < rows -> 0 <= x < width rows -> on_screen d' y x = picture (on_screen d) ((0, 0, []) :: qs) y x) /\ goal d').
  { intros r2 v2 ds2 d2 Wd2 E2 S2 M2 D2 O2 Q. exists r2, v2, (d1 ++ ds2). split; [reflexivity|]. split; [apply Forall_app; auto|].
    cbv zeta. rewrite map_app, exec_all_app. fold dm. rewrite E2. split; [exact S2|]. split; [congruence|]. split; [congruence|].
    split; [|exact Q]. intros y x Hy Hx. unfold on_screen at 1. rewrite M2. change (picture (on_screen d) ((0, 0, []) :: qs)) with (picture (put_piece (on_screen d) (0, 0, [])) qs).
    rewrite (picture_ext qs (put_piece (on_screen d) (0, 0, [])) (on_screen d)) by (intros; apply put_empty). apply (H1 y x Hy Hx). }
  destruct (current_input page) as [f|] eqn:Ef.
  - destruct (current_line page) as [line|] eqn:El.
    2:{ exfalso. unfold current_input in Ef. unfold current_line in El. destruct (cur_of page); [|discriminate]. rewrite El in Ef. discriminate. }
    destruct (C line f El Ef) as (C1 & C2 & C3). cbn [dw_run dw_call fst snd].
    pose proof (addr_small rows (pos_of line) (pos_of f) rok C1 ltac:(lia)) as A1.
    destruct (cursor_exec iw rows iw8 r v1 dm (pos_of line) (pos_of line) (pos_of f) (is_selected f) S1 ltac:(lia) (goto_l rows (pos_of line) (pos_of f) rok C1 ltac:(lia)) A1)
      as (r2 & d2 & E2 & Wd2 & X5 & S2). rewrite E2. cbn [bindo fst snd].
    assert (NL : no_page line).
    { unfold current_line in El. subst page. cbn [cur_of kids_of] in El. destruct cur as [i|]; [|discriminate]. apply nth_error_In in El. rewrite Forall_forall in FN. apply FN. exact El. }
    assert (DL : deepest line = deepest f).
    { unfold current_line in El. unfold current_input in Ef. destruct (cur_of page); [|discriminate]. rewrite El in Ef.
      destruct line as [| |lk ls lp lc kids]; try discriminate. cbn [cur_of kids_of] in Ef. rewrite deepest_box. destruct lc as [j|]; [|discriminate]. rewrite Ef. reflexivity. }
    rewrite (cursor_calls line NL), DL.
    assert (NONE : own_cursor f = None -> disp dm = disp dm -> exists r' v' ds,
       bindo (bindo (Some (r2, {| row := pos_of line; col := pos_of f |}, [])) (fun b => Some (fst b, d2 ++ snd b))) (fun x => Some (fst x, d1 ++ snd x)) = Some (r', v', ds) /\ Forall whole ds /\
       let d' := exec_all d (map byte_of ds) in
       in_step iw r' d' /\ disp d' = disp d /\ off d' = off d /\
       (forall y x, 0 <= y < rows -> 0 <= x < width rows -> on_screen d' y x = picture (on_screen d) ((0, 0, []) :: qs) y x) /\ goal d').
    { intros O _. cbn [bindo fst snd]. rewrite app_nil_r. eapply FIN; [exact Wd2|exact X5|exact S2|reflexivity|reflexivity|reflexivity|].
      unfold goal. try rewrite El. try rewrite Ef. rewrite O. cbn [flags_set lcd_at curs blink ac]. auto. }
    unfold own_cursor in NONE. pose proof (deepest_leaf f) as LF. pose proof (C3) as C3'.
    destruct (deepest f) as [g|] eqn:Eg; [|cbn [dw_run fst snd]; apply NONE; reflexivity].
    specialize (LF g eq_refl). specialize (C3' g eq_refl). destruct g as [s gp t|s gp i lr log|]; [cbn [dw_run fst snd]; apply NONE; reflexivity| |contradiction].
    cbn [edits] in NONE, C3'. destruct (lr && active s) eqn:Eed; [|cbn [dw_run fst snd]; apply NONE; reflexivity].
    destruct (C3' eq_refl) as (G1 & G2 & G3). cbn [pos_of edit_of edits] in G1, G2, G3. rewrite Eed in G2, G3.
    rewrite u8_small by lia. cbn [dw_run dw_call fst snd].
    assert (A2 : 0 <= cell_address 0 (gp + edit i) < 128) by (apply (addr_small rows); auto; lia).
    destruct (cursor_exec iw rows iw8 r2 {| row := pos_of line; col := pos_of f |} _
        255 0 (gp + edit i) (cstate_eqb s Selected) S2 ltac:(lia) (goto_255 rows rok (gp + edit i) ltac:(lia)) A2) as (r3 & d3 & E3 & Wd3 & X6 & S3).
    rewrite E3. cbn [bindo fst snd]. rewrite app_nil_r.
    eapply (FIN r3 _ (d2 ++ d3)); [apply Forall_app; auto|rewrite map_app, exec_all_app, X5; exact X6|exact S3|reflexivity|reflexivity|reflexivity|].
    unfold goal. try rewrite El. try rewrite Ef. unfold own_cursor. rewrite Eg. cbn [edits edit_of pos_of]. rewrite Eed.
    cbn [flags_set lcd_at curs blink ac edits edit_of pos_of]. rewrite ?Eed. split; [reflexivity|]. split; reflexivity.
  - cbn [dw_run dw_call fst snd]. unfold dw_cursor. change ((255 =? 255) && (255 =? 255)) with true. cbv iota.
    destruct (set_curs iw iw8 r dm false S1) as (r2 & d2 & E2 & Wd2 & X5 & S2). rewrite E2. cbn [bindo fst snd]. rewrite app_nil_r.
    eapply FIN; [exact Wd2|exact X5|exact S2|reflexivity|reflexivity|reflexivity|].
    unfold goal. try rewrite Ef. cbn [flags_set curs blink]. destruct (current_line page); split; (reflexivity || assumption).
Qed.
End P.
