Require Import ZArith List Bool Lia ZifyBool.
Import ListNotations.
From Verif Require Import Base BaseFacts BitModel ShiftProofs HdModel HdSpec HdIfProofs HdProofs HdCtlProofs UiModel PageModel PageSpec.
Open Scope Z_scope.
Ltac Zify.zify_post_hook ::= idtac.

(** ** The register and the display *)
Definition settings_of (r : Z) : settings :=
  {| s_disp := Z.testbit r 2; s_curs := Z.testbit r 1; s_blink := Z.testbit r 0; s_left := Z.testbit r 4; s_shift := Z.testbit r 3 |}.
Lemma settings_of_rel : forall r, 0 <= r < 256 -> ctl_rel (settings_of r) r.
Proof. intros r H. repeat split; lia. Qed.
Lemma get_bit : forall iw r i, 8 <= iw -> 0 <= r < 256 -> 0 <= i < 8 -> ctl_get iw r i = Some (Z.testbit r i).
Proof. intros iw r i Hw Hr Hi. unfold ctl_get. apply ba_true_ok; lia. Qed.

Section P.
Variables iw rows : Z.
Hypothesis iw8 : 8 <= iw.
Hypothesis rok : rows_ok rows.

Lemma in_step_bits : forall r d, in_step iw r d <->
  0 <= r < 256 /\ Z.testbit r 0 = blink d /\ Z.testbit r 1 = curs d /\ Z.testbit r 2 = disp d /\ cg d = false /\ inc d = true /\ shift d = false.
Proof.
  intros r d. unfold in_step. split; intros (R & A & B & C & D).
  - rewrite get_bit in A, B, C by lia. injection A. injection B. injection C. auto.
  - rewrite !get_bit by lia. rewrite A, B, C. auto 6.
Qed.

Definition flags_set (d : lcd) (c b : bool) : lcd :=
  {| mem := mem d; ac := ac d; cg := cg d; inc := inc d; shift := shift d; disp := disp d; curs := c; blink := b; off := off d |}.

Lemma set_curs : forall r d v, in_step iw r d -> exists r' ds, ctl_op iw r (CCursor v) = Some (r', ds) /\ Forall whole ds /\
  exec_all d (map byte_of ds) = flags_set d v (blink d) /\ in_step iw r' (flags_set d v (blink d)).
Proof.
  intros r d v S. apply in_step_bits in S. destruct S as (R & S0 & S1 & S2 & S3 & S4 & S5).
  destruct (ctl_op_exec iw iw8 (settings_of r) r d (CCursor v) (settings_of_rel r R) I I) as (r' & ds & E & K & W & X).
  exists r', ds. split; [exact E|]. split; [exact W|].
  assert (X' : exec_all d (map byte_of ds) = flags_set d v (blink d)).
  { rewrite X. unfold lcd_call, lcd_control, flags_set, settings_of. cbn [fst snd set_op s_disp s_curs s_blink]. rewrite S0, S2. reflexivity. }
  split; [exact X'|]. apply in_step_bits. destruct K as (R' & K0 & K1 & K2 & K3 & K4).
  unfold settings_of in *. cbn [set_op s_disp s_curs s_blink] in *. unfold flags_set. cbn [blink curs disp cg inc shift].
  rewrite K0, K1, K2. auto 8.
Qed.
Lemma set_blink : forall r d v, in_step iw r d -> exists r' ds, ctl_op iw r (CBlink v) = Some (r', ds) /\ Forall whole ds /\
  exec_all d (map byte_of ds) = flags_set d (curs d) v /\ in_step iw r' (flags_set d (curs d) v).
Proof.
  intros r d v S. apply in_step_bits in S. destruct S as (R & S0 & S1 & S2 & S3 & S4 & S5).
  destruct (ctl_op_exec iw iw8 (settings_of r) r d (CBlink v) (settings_of_rel r R) I I) as (r' & ds & E & K & W & X).
  exists r', ds. split; [exact E|]. split; [exact W|].
  assert (X' : exec_all d (map byte_of ds) = flags_set d (curs d) v).
  { rewrite X. unfold lcd_call, lcd_control, flags_set, settings_of. cbn [fst snd set_op s_disp s_curs s_blink]. rewrite S1, S2. reflexivity. }
  split; [exact X'|]. apply in_step_bits. destruct K as (R' & K0 & K1 & K2 & K3 & K4).
  unfold settings_of in *. cbn [set_op s_disp s_curs s_blink] in *. unfold flags_set. cbn [blink curs disp cg inc shift].
  rewrite K0, K1, K2. auto 8.
Qed.

Lemma addr_exec : forall d a, 0 <= a < 128 -> exec_all d (map byte_of [DCmd (128 + a)]) = lcd_at d a false.
Proof. intros d a H. cbn [map byte_of exec_all fold_left]. rewrite exec_addr by lia. unfold lcd_at. f_equal. lia. Qed.
Lemma addr_whole : forall a, 0 <= a < 128 -> Forall whole [DCmd (128 + a)].
Proof. intros a H. constructor; [cbn [whole]; lia|constructor]. Qed.
Lemma in_step_at : forall r d a, in_step iw r d -> in_step iw r (lcd_at d a false).
Proof. intros r d a (A & B & C & D & E & F & G). unfold in_step, lcd_at. cbn [blink curs disp cg inc shift]. auto 8. Qed.

(** SetCursor where the view ends at the address of cell (l', c). *)
Lemma cursor_exec : forall r v d l l' c e, in_step iw r d -> (l =? 255) && (c =? 255) = false ->
  goto_op rows {| row := l; col := c |} = Some [DCmd (128 + cell_address l' c)] -> 0 <= cell_address l' c < 128 ->
  exists r' ds, dw_cursor iw rows r v l c e = Some (r', {| row := l; col := c |}, ds) /\ Forall whole ds /\
    exec_all d (map byte_of ds) = lcd_at (flags_set d true e) (cell_address l' c) false /\
    in_step iw r' (lcd_at (flags_set d true e) (cell_address l' c) false).
Proof.
  intros r v d l l' c e S N G A. unfold dw_cursor. rewrite N.
  pose proof (proj1 (in_step_bits r d) S) as (R & S0 & S1 & _).
  rewrite get_bit by lia. cbn [bindo].
  assert (P1 : exists r1 d1, (if Z.testbit r 1 then Some (r, []) else ctl_op iw r (CCursor true)) = Some (r1, d1) /\ Forall whole d1 /\
     exec_all d (map byte_of d1) = flags_set d true (blink d) /\ in_step iw r1 (flags_set d true (blink d))).
  { destruct (Z.testbit r 1) eqn:B; [|apply set_curs; exact S].
    assert (F : flags_set d true (blink d) = d) by (unfold flags_set; destruct d; cbn in *; subst; reflexivity).
    exists r, []. rewrite F. repeat split; try (exact S || constructor); apply S. }
  destruct P1 as (r1 & d1 & E1 & W1 & X1 & S1'). rewrite E1. cbn [bindo fst snd].
  pose proof (proj1 (in_step_bits _ _) S1') as (R1 & B0 & _). rewrite get_bit by lia. cbn [bindo].
  assert (P2 : exists r2 d2, (if Bool.eqb (Z.testbit r1 0) e then Some (r1, []) else ctl_op iw r1 (CBlink e)) = Some (r2, d2) /\ Forall whole d2 /\
     exec_all (flags_set d true (blink d)) (map byte_of d2) = flags_set d true e /\ in_step iw r2 (flags_set d true e)).
  { destruct (Bool.eqb (Z.testbit r1 0) e) eqn:B.
    - apply eqb_prop in B. cbn [flags_set blink] in B0. assert (F : blink d = e) by congruence. rewrite F in *.
      exists r1, []. split; [reflexivity|]. split; [constructor|]. split; [reflexivity|exact S1'].
    - destruct (set_blink r1 (flags_set d true (blink d)) e S1') as (r2 & d2 & E2 & W2 & X2 & S2).
      exists r2, d2. auto. }
  destruct P2 as (r2 & d2 & E2 & W2 & X2 & S2). rewrite E2. cbn [bindo fst snd view_op]. rewrite G. cbn [bindo fst snd].
  exists r2. eexists. split; [reflexivity|]. split.
  { apply Forall_app. split; [exact W1|]. apply Forall_app. split; [exact W2|]. apply addr_whole. exact A. }
  rewrite !map_app, !exec_all_app, X1, X2, addr_exec by exact A. split; [reflexivity|]. apply in_step_at. exact S2.
Qed.

(** ** Text *)
Definition shows (cells : Z -> Z -> Z) (d : lcd) : Prop :=
  forall r c, 0 <= r < rows -> 0 <= c < width rows -> on_screen d r c = cells r c.
Lemma shows_same : forall cells d d', mem d' = mem d -> shows cells d -> shows cells d'.
Proof. intros cells d d' E H r c Hr Hc. unfold on_screen. rewrite E. apply H; assumption. Qed.
Lemma shows_ext : forall c1 c2 d, (forall r c, c1 r c = c2 r c) -> shows c1 d -> shows c2 d.
Proof. intros c1 c2 d E H r c Hr Hc. rewrite <- E. apply H; assumption. Qed.

Lemma text_exec : forall t r cells d l c, printable t -> in_step iw r d -> shows cells d -> 0 <= l < rows -> 0 <= c ->
  c + Z.of_nat (length t) <= width rows -> (c < width rows -> ac d = cell_address l c) ->
  exists ds, view_run rows {| row := l; col := c |} (map VChar t) = Some ({| row := l; col := c + Z.of_nat (length t) |}, ds) /\
    Forall whole ds /\ in_step iw r (exec_all d (map byte_of ds)) /\
    disp (exec_all d (map byte_of ds)) = disp d /\ curs (exec_all d (map byte_of ds)) = curs d /\ blink (exec_all d (map byte_of ds)) = blink d /\
    off (exec_all d (map byte_of ds)) = off d /\
    shows (put_piece cells (l, c, t)) (exec_all d (map byte_of ds)).
Proof.
  destruct (width_l rows rok) as (W1 & W2 & W3). assert (W4 : width rows <= 40) by (rewrite W1; destruct (rows =? 4); lia).
  induction t as [|ch t IH]; intros r cells d l c P S H Hl Hc Hf Ha.
  - cbn [map view_run length]. exists []. rewrite Z.add_0_r.
    split; [reflexivity|]. split; [constructor|]. split; [exact S|]. repeat (split; [reflexivity|]).
    change (exec_all d (map byte_of [])) with d. intros r' c' Hr' Hc'. rewrite (H r' c' Hr' Hc'). unfold put_piece, inside. cbn [length]. replace (_ && _ && _) with false by lia. reflexivity.
  - inversion P as [|? ? P1 P2]; subst. cbn [length] in Hf. cbn [map view_run view_op].
    replace (ch =? 10) with false by lia. replace (ch =? 13) with false by lia. cbn [bindo fst snd].
    unfold inc_col. cbn [row col]. replace (c + 1 >? total_cols rows) with false by lia. rewrite u8_small by lia.
    pose proof (proj1 (in_step_bits _ _) S) as (R & S0 & S1 & S2 & S3 & S4 & S5).
    set (d1 := exec d (true, ch)).
    assert (E1 : d1 = {| mem := upd (mem d) (ac d) ch; ac := ac_next (inc d) (ac d); cg := false; inc := inc d; shift := shift d;
        disp := disp d; curs := curs d; blink := blink d; off := off d |}).
    { unfold d1. rewrite exec_data by exact S3. rewrite S5. reflexivity. }
    assert (A : ac d = cell_address l c) by (apply Ha; lia).
    assert (S' : in_step iw r d1).
    { apply in_step_bits. rewrite E1. cbn [blink curs disp cg inc shift]. auto 8. }
    assert (H' : shows (put_piece cells (l, c, [ch])) d1).
    { intros r' c' Hr' Hc'. unfold on_screen. rewrite E1. cbn [mem]. rewrite A. unfold put_piece, inside, char_at. cbn [length].
      destruct (Z.eqb_spec r' l) as [->|Hn]; [destruct (Z.eqb_spec c' c) as [->|Hn]|].
      - rewrite upd_same. replace (_ && _ && _) with true by lia. rewrite Z.sub_diag. reflexivity.
      - rewrite upd_other. 2:{ intros F. apply (cell_inj rows) in F; auto; lia. }
        replace (_ && _ && _) with false by lia. apply H; lia.
      - rewrite upd_other. 2:{ intros F. apply (cell_inj rows) in F; auto; lia. }
        cbn [andb]. apply H; lia. }
    destruct (IH r _ d1 l (c + 1) P2 S' H' Hl ltac:(lia) ltac:(lia)) as (ds & E & Wd & Sd & D1 & D2 & D3 & D4 & Hd).
    { intros Hw. rewrite E1. cbn [ac]. rewrite S4, A. apply (ac_step rows); auto; lia. }
    rewrite E. cbn [bindo fst snd]. exists (DData ch :: ds).
    split; [f_equal; f_equal; f_equal; cbn [length]; lia|].
    split; [constructor; [cbn; lia|exact Wd]|].
    cbn [map byte_of]. change (exec_all d ((true, ch) :: map byte_of ds)) with (exec_all d1 (map byte_of ds)).
    split; [exact Sd|]. rewrite D1, D2, D3, D4. split; [rewrite E1; reflexivity|]. split; [rewrite E1; reflexivity|].
    split; [rewrite E1; reflexivity|]. split; [rewrite E1; reflexivity|].
    eapply shows_ext; [|exact Hd]. intros r' c'. unfold put_piece, inside, char_at. cbn [length].
    destruct (Z.eqb_spec r' l) as [->|Hn]; [|reflexivity]. cbn [andb].
    destruct (Z.leb_spec (c + 1) c') as [L|L]; cbn [andb].
    + replace (c <=? c') with true by lia. cbn [andb].
      replace (c' <? c + 1 + Z.of_nat (length t)) with (c' <? c + Z.of_nat (Datatypes.S (length t))) by lia.
      destruct (c' <? c + Z.of_nat (Datatypes.S (length t))) eqn:F.
      * replace (Z.to_nat (c' - c)) with (Datatypes.S (Z.to_nat (c' - (c + 1)))) by lia. reflexivity.
      * replace (c' <? c + Z.of_nat 1) with false by lia. reflexivity.
    + destruct (Z.leb_spec c c') as [L2|L2]; cbn [andb].
      * assert (c' = c) by lia. subst c'. replace (c <? c + Z.of_nat 1) with true by lia. replace (c <? c + Z.of_nat (Datatypes.S (length t))) with true by lia.
        rewrite Z.sub_diag. reflexivity.
      * reflexivity.
Qed.

(** ** Calls of the writer *)
Lemma dw_run_app : forall a b s s1 d1, dw_run iw rows s a = Some (s1, d1) ->
  dw_run iw rows s (a ++ b) = bindo (dw_run iw rows s1 b) (fun x => Some (fst x, d1 ++ snd x)).
Proof.
  induction a as [|w a IH]; intros b [r v] [r1 v1] d1 E.
  - cbn [dw_run fst snd] in E. injection E as <- <- <-. cbn [app]. destruct (dw_run iw rows (r, v) b) as [[? ?]|]; reflexivity.
  - cbn [app dw_run] in *. destruct (dw_call iw rows (r, v) w) as [[s2 d2]|]; [|discriminate]. cbn [bindo fst snd] in *.
    destruct (dw_run iw rows s2 a) as [[s3 d3]|] eqn:F; [|discriminate]. cbn [bindo fst snd] in E. injection E as <- <-.
    rewrite (IH b s2 s3 d3 F). destruct (dw_run iw rows s3 b) as [[? ?]|]; [|reflexivity]. cbn [bindo fst snd]. rewrite app_assoc. reflexivity.
Qed.

(** What drawing does: the pieces appear and nothing else changes; the row stays known. *)
Definition drawn (ws : list wcall) (qs : list piece) : Prop :=
  forall r v d cells, in_step iw r d -> shows cells d ->
  exists v' ds, dw_run iw rows (r, v) ws = Some (r, v', ds) /\ Forall whole ds /\
    let d' := exec_all d (map byte_of ds) in
    in_step iw r d' /\ disp d' = disp d /\ curs d' = curs d /\ blink d' = blink d /\ off d' = off d /\ shows (picture cells qs) d'.
(** The same starting on row l and staying there. *)
Definition drawn_on (l : Z) (ws : list wcall) (qs : list piece) : Prop :=
  forall r v d cells, row v = l -> in_step iw r d -> shows cells d ->
  exists v' ds, dw_run iw rows (r, v) ws = Some (r, v', ds) /\ Forall whole ds /\ row v' = l /\
    let d' := exec_all d (map byte_of ds) in
    in_step iw r d' /\ disp d' = disp d /\ curs d' = curs d /\ blink d' = blink d /\ off d' = off d /\ shows (picture cells qs) d'.

Lemma picture_app : forall a b cells, picture cells (a ++ b) = picture (picture cells a) b.
Proof. intros a b cells. apply fold_left_app. Qed.
Lemma drawn_nil : drawn [] [].
Proof. intros r v d cells S H. exists v, []. cbn. auto 10. Qed.
Lemma drawn_app : forall a b qa qb, drawn a qa -> drawn b qb -> drawn (a ++ b) (qa ++ qb).
Proof.
  intros a b qa qb A B r v d cells S H.
  destruct (A r v d cells S H) as (v1 & d1 & E1 & W1 & S1 & X1 & X2 & X3 & X4 & H1).
  destruct (B r v1 _ _ S1 H1) as (v2 & d2 & E2 & W2 & S2 & Y1 & Y2 & Y3 & Y4 & H2).
  exists v2, (d1 ++ d2). rewrite (dw_run_app a b _ _ _ E1), E2. cbn [bindo fst snd]. split; [reflexivity|]. split; [apply Forall_app; auto|].
  cbv zeta. rewrite map_app, exec_all_app, picture_app. repeat (split; [congruence || assumption|]). exact H2.
Qed.
Lemma drawn_on_nil : forall l, drawn_on l [] [].
Proof. intros l r v d cells L S H. exists v, []. cbn. auto 10. Qed.
Lemma drawn_on_app : forall l a b qa qb, drawn_on l a qa -> drawn_on l b qb -> drawn_on l (a ++ b) (qa ++ qb).
Proof.
  intros l a b qa qb A B r v d cells L S H.
  destruct (A r v d cells L S H) as (v1 & d1 & E1 & W1 & L1 & S1 & X1 & X2 & X3 & X4 & H1).
  destruct (B r v1 _ _ L1 S1 H1) as (v2 & d2 & E2 & W2 & L2 & S2 & Y1 & Y2 & Y3 & Y4 & H2).
  exists v2, (d1 ++ d2). rewrite (dw_run_app a b _ _ _ E1), E2. cbn [bindo fst snd]. split; [reflexivity|]. split; [apply Forall_app; auto|].
  split; [exact L2|]. cbv zeta. rewrite map_app, exec_all_app, picture_app. repeat (split; [congruence || assumption|]). exact H2.
Qed.

Lemma drawn_on_text : forall l p t, 0 <= l < rows -> 0 <= p -> p + Z.of_nat (length t) <= width rows -> printable t ->
  drawn_on l [WGoTo 255 p; WText t] [(l, p, t)].
Proof.
  intros l p t Hl Hp Hf P r v d cells L S H.
  destruct (width_l rows rok) as (W1 & W2 & W3). assert (W4 : width rows <= 40) by (rewrite W1; destruct (rows =? 4); lia).
  cbn [dw_run dw_call fst snd].
  assert (Ep : (p =? 255) = false) by lia.
  pose proof (dw_goto_l rows v 255 p rok) as G. cbv zeta in G. rewrite Ep in G. change (255 =? 255) with true in G. cbv iota in G. rewrite L in G.
  rewrite G by lia. clear G. cbn [bindo fst snd].
  pose proof (addr_small rows l p rok Hl ltac:(lia)) as A.
  destruct (text_exec t r cells (lcd_at d (cell_address l p) false) l p P (in_step_at _ _ _ S) (shows_same _ d _ eq_refl H) Hl Hp Hf) as (ds & E & Wd & Sd & D1 & D2 & D3 & D4 & Hd).
  { intros _. reflexivity. }
  rewrite E. cbn [bindo fst snd]. rewrite app_nil_r.
  eexists. exists ([DCmd (128 + cell_address l p)] ++ ds). split; [reflexivity|].
  split; [apply Forall_app; split; [apply addr_whole; exact A|exact Wd]|]. split; [reflexivity|].
  cbv zeta. rewrite map_app, exec_all_app, addr_exec by exact A. rewrite D1, D2, D3, D4. repeat (split; [assumption || reflexivity|]). exact Hd.
Qed.

Section D.
Variables (text : Z -> list Z) (edit : Z -> Z).
Notation disp_ := (display text edit).

(** The loops of the panels. *)
Definition columns : list ctl -> list wcall :=
  fix columns (l : list ctl) : list wcall :=
    match l with
    | [] => []
    | x :: r => (if visible (st_of x) then WGoTo 255 (pos_of x) :: disp_ DNormal x else []) ++ columns r
    end.
Definition rows_of : list ctl -> list wcall :=
  fix rows_of (l : list ctl) : list wcall :=
    match l with
    | [] => []
    | x :: r => (if visible (st_of x) then WGoTo (pos_of x) 0 :: disp_ DNormal x else []) ++ rows_of r
    end.
Lemma columns_l : forall l kids, 0 <= l < rows -> Forall (control_fits text rows) kids ->
  drawn_on l (columns kids) (map (fun x => (l, pos_of x, shown text x)) (filter (fun x => visible (st_of x)) kids)).
Proof.
  intros l kids Hl F. induction F as [|x r [Hb Hx] F IH]; [apply drawn_on_nil|].
  cbn [columns filter]. destruct (visible (st_of x)) eqn:V.
  - cbn [map]. change ((l, pos_of x, shown text x) :: ?q) with ([(l, pos_of x, shown text x)] ++ q).
    apply drawn_on_app; [|exact IH]. destruct (Hx eq_refl) as (H1 & H2 & H3).
    destruct x as [s p t|s p i lr log|]; [| |contradiction]; cbn [display pos_of shown] in *; apply drawn_on_text; assumption.
  - cbn [app]. exact IH.
Qed.
Lemma drawn_line : forall l ws qs, 0 <= l < rows -> drawn_on l ws qs -> drawn (WGoTo l 0 :: ws) qs.
Proof.
  intros l ws qs Hl D r v d cells S H. cbn [dw_run dw_call fst snd].
  destruct (width_l rows rok) as (W1 & W2 & W3). assert (W4 : 0 <= width rows) by (rewrite W1; destruct (rows =? 4); lia).
  pose proof (dw_goto_l rows v l 0 rok) as G. cbv zeta in G. replace (l =? 255) with false in G by lia. change (0 =? 255) with false in G. cbv iota in G.
  rewrite G by lia. clear G. cbn [bindo fst snd].
  pose proof (addr_small rows l 0 rok Hl ltac:(lia)) as A.
  destruct (D r {| row := l; col := 0 |} (lcd_at d (cell_address l 0) false) cells eq_refl (in_step_at _ _ _ S) (shows_same _ d _ eq_refl H))
    as (v2 & d2 & E2 & W5 & L2 & S2 & Y1 & Y2 & Y3 & Y4 & H2).
  rewrite E2. cbn [bindo fst snd]. exists v2, ([DCmd (128 + cell_address l 0)] ++ d2). split; [reflexivity|].
  split; [apply Forall_app; split; [apply addr_whole; exact A|exact W5]|].
  cbv zeta. rewrite map_app, exec_all_app, addr_exec by exact A. auto 8.
Qed.
Lemma rows_l : forall lines, Forall (line_fits text rows) lines ->
  drawn (rows_of lines) (flat_map (line_pieces text) (filter (fun x => visible (st_of x)) lines)).
Proof.
  intros lines F. induction F as [|x r [Hb Hx] F IH]; [apply drawn_nil|].
  cbn [rows_of filter]. destruct (visible (st_of x)) eqn:V; [|exact IH].
  cbn [flat_map]. apply drawn_app; [|exact IH]. destruct x as [s p t|s p i lr log|k s p cur kids]; try contradiction.
  destruct k; try contradiction. apply drawn_line; [exact (Hx eq_refl)|].
  change (disp_ DNormal (Box Horizontal s p cur kids)) with (columns kids).
  unfold line_pieces. cbn [pos_of kids_of]. apply columns_l; [exact (Hx eq_refl)|exact Hb].
Qed.

Lemma current_at : forall m kids i,
  (fix current (m : dmode) (l : list ctl) (i : nat) : list wcall :=
     match l, i with [], _ => [] | x :: _, O => disp_ m x | _ :: r, S j => current m r j end) m kids i =
  match nth_error kids i with Some x => disp_ m x | None => [] end.
Proof. induction kids as [|x r IH]; intros [|i]; cbn [nth_error]; auto. Qed.

Lemma display_page : forall st p cur lines, disp_ DNormal (Box PageK st p cur lines) =
  rows_of lines ++
  match current_input (Box PageK st p cur lines) with
  | Some f => match current_line (Box PageK st p cur lines) with
              | Some line => WCursor (pos_of line) (pos_of f) (is_selected f) :: disp_ DCursor line
              | None => []
              end
  | None => [WCursor 255 255 false]
  end.
Proof.
  intros st p cur lines. cbn [display]. fold rows_of. f_equal.
  destruct (current_input _) as [f|]; [|reflexivity]. unfold current_line. cbn [cur_of kids_of].
  destruct cur as [i|]; [|reflexivity]. rewrite current_at. destruct (nth_error lines i); reflexivity.
Qed.
Lemma display_line_cursor : forall st p cur kids, disp_ DCursor (Box Horizontal st p cur kids) =
  match cur with Some i => match nth_error kids i with Some x => disp_ DCursor x | None => [] end | None => [] end.
Proof. intros st p [i|] kids; cbn [display]; [rewrite current_at|]; reflexivity. Qed.

(** The row the cursor appears on. *)
Definition cursor_row (line f : ctl) : Z := if edits f then 0 else pos_of line.

Lemma goto_255 : forall c, 0 <= c < width rows -> goto_op rows {| row := 255; col := c |} = Some [DCmd (128 + cell_address 0 c)].
Proof.
  intros c Hc. destruct (width_l rows rok) as (W1 & W2 & W3).
  rewrite <- (goto_l rows 0 c rok) by lia. unfold goto_op, calc_address. cbn [row col].
  replace (255 >=? rows) with true by lia. replace (0 >=? rows) with false by lia. reflexivity.
Qed.

Lemma page_draw_l : forall page r v d, page_fits text rows page -> cursor_fits edit rows page -> in_step iw r d ->
  exists r' v' ds, dw_run iw rows (r, v) (disp_ DNormal page) = Some (r', v', ds) /\ Forall whole ds /\
    let d' := exec_all d (map byte_of ds) in
    in_step iw r' d' /\ disp d' = disp d /\ off d' = off d /\
    (forall y x, 0 <= y < rows -> 0 <= x < width rows -> on_screen d' y x = picture (on_screen d) (page_pieces text page) y x) /\
    match current_line page, current_input page with
    | Some line, Some f => curs d' = true /\ blink d' = is_selected f /\ ac d' = cell_address (cursor_row line f) (pos_of f + edit_of edit f)
    | _, _ => curs d' = false /\ blink d' = blink d
    end.
Proof.
  intros page r v d F C S. destruct page as [| |k st p cur lines]; try contradiction. destruct k; try contradiction.
  cbn [page_fits] in F. destruct (width_l rows rok) as (W1 & W2 & W3). assert (W4 : width rows <= 40) by (rewrite W1; destruct (rows =? 4); lia).
  rewrite display_page.
  destruct (rows_l lines F r v d (on_screen d) S ltac:(intros ? ? ? ?; reflexivity)) as (v1 & d1 & E1 & Wd1 & S1 & X1 & X2 & X3 & X4 & H1).
  rewrite (dw_run_app _ _ _ _ _ E1). set (dm := exec_all d (map byte_of d1)) in *.
  set (page := Box PageK st p cur lines) in *.
  assert (FIN : forall r2 (v2 : view) ds2 d2, Forall whole ds2 -> exec_all dm (map byte_of ds2) = d2 -> in_step iw r2 d2 -> mem d2 = mem dm -> disp d2 = disp dm -> off d2 = off dm ->
    match current_line page, current_input page with
    | Some line, Some f => curs d2 = true /\ blink d2 = is_selected f /\ ac d2 = cell_address (cursor_row line f) (pos_of f + edit_of edit f)
    | _, _ => curs d2 = false /\ blink d2 = blink d
    end ->
    exists r' v' ds, Some (r2, v2, d1 ++ ds2) = Some (r', v', ds) /\ Forall whole ds /\
    let d' := exec_all d (map byte_of ds) in
    in_step iw r' d' /\ disp d' = disp d /\ off d' = off d /\
    (forall y x, 0 <= y < rows -> 0 <= x < width rows -> on_screen d' y x = picture (on_screen d) (page_pieces text page) y x) /\
    match current_line page, current_input page with
    | Some line, Some f => curs d' = true /\ blink d' = is_selected f /\ ac d' = cell_address (cursor_row line f) (pos_of f + edit_of edit f)
    | _, _ => curs d' = false /\ blink d' = blink d
    end).
  { intros r2 v2 ds2 d2 Wd2 E2 S2 M2 D2 O2 Q. exists r2, v2, (d1 ++ ds2). split; [reflexivity|]. split; [apply Forall_app; auto|].
    cbv zeta. rewrite map_app, exec_all_app. fold dm. rewrite E2. split; [exact S2|]. split; [congruence|]. split; [congruence|].
    split; [|exact Q]. intros y x Hy Hx. unfold on_screen at 1. rewrite M2. apply (H1 y x Hy Hx). }
  destruct (current_input page) as [f|] eqn:Ef.
  - destruct (current_line page) as [line|] eqn:El.
    2:{ exfalso. unfold current_input in Ef. unfold current_line in El. destruct (cur_of page); [|discriminate]. rewrite El in Ef. discriminate. }
    destruct (C line f El Ef) as (C1 & C2 & C3 & C4).
    cbn [dw_run dw_call fst snd].
    pose proof (addr_small rows (pos_of line) (pos_of f) rok C1 ltac:(lia)) as A1.
    destruct (cursor_exec r v1 dm (pos_of line) (pos_of line) (pos_of f) (is_selected f) S1 ltac:(lia) (goto_l rows (pos_of line) (pos_of f) rok C1 ltac:(lia)) A1)
      as (r2 & d2 & E2 & Wd2 & X5 & S2). rewrite E2. cbn [bindo fst snd].
    (* the cursor call of the current control itself *)
    assert (Hl : exists lst lp j kids, line = Box Horizontal lst lp (Some j) kids /\ nth_error kids j = Some f).
    { unfold current_line in El. unfold current_input in Ef. subst page. cbn [cur_of kids_of] in *. destruct cur as [i|]; [|discriminate].
      rewrite El in Ef. apply nth_error_In in El. rewrite Forall_forall in F. destruct (F line El) as [Fb _].
      destruct line as [| |k lst lp lc kids]; try contradiction. destruct k; try contradiction. cbn [cur_of kids_of] in Ef. destruct lc as [j|]; [|discriminate].
      exists lst, lp, j, kids. auto. }
    destruct Hl as (lst & lp & j & kids & -> & Hj). rewrite display_line_cursor, Hj.
    assert (Hleaf : match f with Box _ _ _ _ _ => False | _ => True end).
    { unfold current_line in El. subst page. cbn [cur_of kids_of] in El. destruct cur as [i|]; [|discriminate]. apply nth_error_In in El.
      rewrite Forall_forall in F. destruct (F _ El) as [Fb _]. rewrite Forall_forall in Fb. apply nth_error_In in Hj. exact (proj1 (Fb f Hj)). }
    assert (NOED : edits f = false -> disp_ DCursor f = [] /\ edit_of edit f = 0).
    { destruct f as [s fp t|s fp i lr log|]; [split; reflexivity| |contradiction]. cbn [edits display edit_of]. intros ->. split; reflexivity. }
    destruct (edits f) eqn:Eed.
    + destruct f as [s fp t|s fp i lr log|]; [discriminate| |contradiction]. cbn [edits display] in Eed |- *. rewrite Eed.
      cbn [edit_of edits pos_of] in C2, C3, C4. rewrite Eed in C3, C4.
      rewrite u8_small by lia. cbn [dw_run dw_call fst snd].
      assert (A2 : 0 <= cell_address 0 (fp + edit i) < 128) by (apply (addr_small rows); auto; lia).
      destruct (cursor_exec r2 {| row := pos_of (Box Horizontal lst lp (Some j) kids); col := pos_of (Field s fp i lr log) |} _
        255 0 (fp + edit i) (cstate_eqb s Selected) S2 ltac:(lia) (goto_255 (fp + edit i) ltac:(lia)) A2) as (r3 & d3 & E3 & Wd3 & X6 & S3).
      rewrite E3. cbn [bindo fst snd]. rewrite app_nil_r.
      eapply (FIN r3 _ (d2 ++ d3)); [apply Forall_app; auto|rewrite map_app, exec_all_app, X5; exact X6|exact S3|reflexivity|reflexivity|reflexivity|].
      cbn [flags_set lcd_at curs blink ac]. split; [reflexivity|]. split; [reflexivity|].
      unfold cursor_row. cbn [edits edit_of pos_of]. rewrite Eed. reflexivity.
    + destruct (NOED eq_refl) as [-> EO]. cbn [dw_run bindo fst snd]. rewrite app_nil_r.
      eapply FIN; [exact Wd2|exact X5|exact S2|reflexivity|reflexivity|reflexivity|].
      cbn [flags_set lcd_at curs blink ac]. split; [reflexivity|]. split; [reflexivity|]. unfold cursor_row. rewrite Eed, EO, Z.add_0_r. reflexivity.
  - assert (Q : match current_line page with Some _ => False | None => False end \/ True) by auto. clear Q.
    cbn [dw_run dw_call fst snd]. unfold dw_cursor. change ((255 =? 255) && (255 =? 255)) with true. cbv iota.
    destruct (set_curs r dm false S1) as (r2 & d2 & E2 & Wd2 & X5 & S2). rewrite E2. cbn [bindo fst snd]. rewrite app_nil_r.
    eapply FIN; [exact Wd2|exact X5|exact S2|reflexivity|reflexivity|reflexivity|].
    cbn [flags_set curs blink]. destruct (current_line page); split; (reflexivity || assumption).
Qed.
End D.
End P.

(** Several pages. *)
Lemma picture_ext : forall qs c1 c2, (forall r c, c1 r c = c2 r c) -> forall r c, picture c1 qs r c = picture c2 qs r c.
Proof.
  induction qs as [|q qs IH]; intros c1 c2 E r c; [apply E|]. cbn [picture fold_left]. apply IH.
  intros r' c'. unfold put_piece. destruct (inside q r' c'); [reflexivity|apply E].
Qed.
Lemma picture_in : forall rows qs c1 c2, (forall r c, 0 <= r < rows -> 0 <= c < width rows -> c1 r c = c2 r c) ->
  forall r c, 0 <= r < rows -> 0 <= c < width rows -> picture c1 qs r c = picture c2 qs r c.
Proof.
  intros rows. induction qs as [|q qs IH]; intros c1 c2 E r c Hr Hc; [apply E; assumption|]. cbn [picture fold_left]. apply IH; try assumption.
  intros r' c' Hr' Hc'. unfold put_piece. destruct (inside q r' c'); [reflexivity|apply E; assumption].
Qed.
Lemma draw_all_l : forall iw rows, 8 <= iw -> rows_ok rows -> forall pages r v d, Forall (all_fit rows) pages -> in_step iw r d ->
  exists r' v' ds, draw_all iw rows (r, v) pages = Some (r', v', ds) /\ Forall whole ds /\
    let d' := exec_all d (map byte_of ds) in
    in_step iw r' d' /\
    forall y x, 0 <= y < rows -> 0 <= x < width rows -> on_screen d' y x = picture (on_screen d) (all_pieces pages) y x.
Proof.
  intros iw rows Hw Hr. induction pages as [|[[page text] edit] pages IH]; intros r v d F S.
  - exists r, v, []. split; [reflexivity|]. split; [constructor|]. split; [exact S|]. reflexivity.
  - inversion F as [|? ? FF F3]; subst. destruct FF as [F1 F2]. cbn [draw_all].
    destruct (page_draw_l iw rows Hw Hr text edit page r v d F1 F2 S) as (r1 & v1 & d1 & E1 & W1 & S1 & _ & _ & P1 & _).
    rewrite E1. cbn [bindo fst snd]. destruct (IH r1 v1 _ F3 S1) as (r2 & v2 & d2 & E2 & W2 & S2 & P2). rewrite E2. cbn [bindo fst snd].
    exists r2, v2, (d1 ++ d2). split; [reflexivity|]. split; [apply Forall_app; auto|]. cbv zeta. rewrite map_app, exec_all_app.
    split; [exact S2|]. intros y x Hy Hx. rewrite P2 by assumption. cbn [all_pieces flat_map]. unfold picture. rewrite fold_left_app.
    apply (picture_in rows); try assumption.
Qed.

(** Display-control calls bring the register and the display in step. *)
Lemma start_l : forall iw, 8 <= iw -> forall d os, os <> [] -> Forall control_call os ->
  exists r ds, ctl_run iw 0 (CEntry true false :: os) = Some (r, ds) /\ Forall whole ds /\
    in_step iw r (exec_all (exec_all d [(false, 40); (false, 1); (false, 2)]) (map byte_of ds)).
Proof.
  intros iw Hw d os Hne F.
  assert (NI : forall l, Forall control_call l -> Forall no_init l /\ Forall cop_ok l).
  { intros l G. split; (eapply Forall_impl; [|exact G]); intros [full| | | | | | | | | | | |] H; cbn in *; auto; contradiction. }
  set (d0 := exec_all d [(false, 40); (false, 1); (false, 2)]).
  assert (D0 : cg d0 = false /\ inc d0 = true /\ off d0 = 0) by (destruct d; auto).
  destruct os as [|o os]; [congruence|]. inversion F as [|? ? Fo Fs]; subst.
  destruct (NI _ F) as [N1 N2].
  assert (K0 : ctl_rel settings_new 0) by (repeat split; lia).
  destruct (ctl_run_exec iw Hw (CEntry true false :: o :: os) settings_new 0 d0 K0 ltac:(constructor; [exact I|exact N1]) ltac:(constructor; [exact I|exact N2]))
    as (r & ds & E & K & W & X).
  exists r, ds. split; [exact E|]. split; [exact W|]. rewrite X. apply in_step_bits; [exact Hw|].
  assert (G : forall l p, Forall control_call l -> cg (snd p) = false -> inc (snd p) = true -> shift (snd p) = false ->
     (disp (snd p) = s_disp (fst p) /\ curs (snd p) = s_curs (fst p) /\ blink (snd p) = s_blink (fst p)) ->
     let q := fold_left lcd_call l p in
     fst q = set_all (fst p) l /\ cg (snd q) = false /\ inc (snd q) = true /\ shift (snd q) = false /\
     disp (snd q) = s_disp (fst q) /\ curs (snd q) = s_curs (fst q) /\ blink (snd q) = s_blink (fst q)).
  { induction l as [|a l IH]; intros [s e] Fl P1 P2 P3 P4; [cbn; tauto|]. inversion Fl; subst. cbn [fold_left set_all].
    destruct (IH (lcd_call (s, e) a)) as (Q1 & Q2); try assumption; try (destruct a; try contradiction; cbn in *; tauto).
  }
  cbn [fold_left]. set (p1 := lcd_call (lcd_call (settings_new, d0) (CEntry true false)) o).
  destruct D0 as (D1 & D2 & D3).
  destruct (G os p1 Fs) as (Q1 & Q2 & Q3 & Q4 & Q5 & Q6 & Q7); try (destruct o; try contradiction; cbn; auto; fail).
  set (q := fold_left lcd_call os p1) in *.
  assert (KF : ctl_rel (fst q) r). { rewrite Q1. exact K. }
  destruct KF as (R & B0 & B1 & B2 & B3 & B4). rewrite Q5, Q6, Q7. auto 8.
Qed.

(** Over the parallel driver. *)
Lemma wire_l : forall lo l ds, 0 <= lo < 16 -> en l = true -> Forall whole ds ->
  exists l', en l' = true /\ watch lo l M4 (par_run l ds) = (l', M4, map byte_of ds).
Proof.
  intros lo l ds Hlo He W. destruct (par_run_d lo ds l He (whole_ok _ W)) as (l' & En & _ & _ & D).
  exists l'. split; [exact En|]. rewrite D, whole_edges by assumption. reflexivity.
Qed.

(** Positions of added lines. *)
Lemma adds_l : forall n lines, Z.of_nat (length lines) <= n <= 255 -> Forall (fun x => pos_of x = 0) lines ->
  map pos_of (page_adds n lines) = map Z.of_nat (seq 0 (length lines)) /\
  page_adds n lines = map (fun q => set_pos (Z.of_nat (fst q)) (snd q)) (combine (seq 0 (length lines)) lines).
Proof.
  intros n lines Hn F.
  assert (SP : forall p c, pos_of (set_pos p c) = p) by (intros p [| |]; reflexivity).
  assert (G : forall l acc, Z.of_nat (length acc + length l) <= n -> Forall (fun x => pos_of x = 0) l ->
     fold_left (page_add n) l acc = acc ++ map (fun q => set_pos (Z.of_nat (fst q)) (snd q)) (combine (seq (length acc) (length l)) l)).
  { induction l as [|x l IH]; intros acc Ha Fl; [cbn; rewrite app_nil_r; reflexivity|]. inversion Fl; subst.
    cbn [fold_left length seq combine map fst snd] in *. unfold page_add at 2. rewrite H1. cbn [Z.eqb].
    replace (Z.of_nat (length acc) <? n) with true by lia. rewrite u8_small by lia.
    rewrite IH; [|rewrite app_length; cbn [length]; lia|assumption]. rewrite app_length. cbn [length].
    rewrite Nat.add_1_r, <- app_assoc. reflexivity. }
  unfold page_adds. rewrite (G lines []) by (cbn [length Nat.add]; assumption || lia). cbn [app length]. split; [|reflexivity].
  rewrite map_map. transitivity (map (fun q : nat * ctl => Z.of_nat (fst q)) (combine (seq 0 (length lines)) lines)).
  { apply map_ext. intros q. apply SP. }
  rewrite <- (map_map fst Z.of_nat). f_equal.
  assert (C : forall (l : list ctl) k, map fst (combine (seq k (length l)) l) = seq k (length l)).
  { induction l as [|x l IH]; intros k; [reflexivity|]. cbn. rewrite IH. reflexivity. }
  apply C.
Qed.
