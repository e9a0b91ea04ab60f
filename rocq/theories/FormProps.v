(** C78, C79: pages of text controls that share one iterator. *)
Require Import ZArith List Bool Lia.
Import ListNotations.
From Verif Require Import Base HdModel HdSpec HdProofs TextModel UiModel UiSpec UiTreeProofs EditModel EditSpec PageModel PageSpec
  ArduinoModel ArduinoSpec SketchModel SketchSpec SketchProofs FormModel FormSpec FormProofs FormDrawProofs.
Open Scope Z_scope.

(** C78: on pages of lines, after any commands every text control holds what its own editor holds: the
    editors share nothing.  The panels navigate as with plain fields. *)
Theorem form_edits : forall n wrap cs, 1 <= n <= 127 -> distinct n cs ->
  forall ms it f es, -1 <= it < n -> pages_of_lines (plain_of f) -> one_selected (plain_of f) -> Forall2 (field_ok n cs it) (fields f) es ->
  exists it' f', fnavs n wrap cs ms it f = Some (it', f') /\ -1 <= it' < n /\ plain_of f' = forget (navs (plain_of f) ms) /\
    Forall2 kept (fields f) (fields f') /\ one_selected (plain_of f') /\
    Forall2 (field_ok n cs it') (fields f') (editors n wrap ms (plain_of f) es).
Proof.
  intros n wrap cs Hn D ms it f es I P O F. destruct (fnavs_l n wrap cs Hn ms it f I (ok_bounds _ _ _ _ _ F)) as (it' & f' & E & I' & [T _] & P' & X).
  destruct (X D P O es F) as [X1 X2]. exists it', f'. auto 8.
Qed.
Print Assumptions form_edits.

(** C78: with any nesting of panels, any characters and any texts, nothing is undefined, no byte outside
    the texts changes, and the panels navigate as with plain fields. *)
Theorem form_safe : forall n wrap cs, 1 <= n <= 127 -> forall ms it f, -1 <= it < n -> Forall in_bounds (fields f) ->
  exists it' f', fnavs n wrap cs ms it f = Some (it', f') /\ -1 <= it' < n /\ plain_of f' = forget (navs (plain_of f) ms) /\
    Forall2 kept (fields f) (fields f') /\ Forall in_bounds (fields f').
Proof.
  intros n wrap cs Hn ms it f I B. destruct (fnavs_l n wrap cs Hn ms it f I B) as (it' & f' & E & I' & [T1 T2] & P' & _). exists it', f'. auto 8.
Qed.
Print Assumptions form_safe.

(** C78: a command changes at most the character being edited in a selected control, by Up or Down. *)
Theorem form_touched : forall n wrap cs m it f it' f' h, fnav n wrap cs m it f = Some (it', (f', h)) -> Forall2 (touched m) (fields f) (fields f').
Proof. intros n wrap cs m it f it' f' h E. exact (fnav_touched n wrap cs m f it it' (f', h) E). Qed.
Print Assumptions form_touched.

(** C78, finding: inside a panel on a line this fails.  The page lets the line be left while the control is
    still selected; another control then moves the iterator, and back at the first one a single Up turns
    its A into L, the successor of the K in the other control, instead of B. *)
Definition nested : form :=
  FBox PageK Normal 0 None
    [FBox Horizontal Normal 0 None [FBox Horizontal Normal 0 None [FText 0 0 1 (mkTc Normal (fun i => if i =? 0 then 65 else 0) 0 0)]];
     FBox Horizontal Normal 1 None [FText 0 1 1 (mkTc Normal (fun i => if i =? 0 then 75 else 0) 0 0)]].
Definition alphabet (i : Z) : Z := 65 + i.
Theorem form_nested_refuted :
  one_selected (plain_of nested) /\
  Forall2 (field_ok 26 alphabet (-1)) (fields nested) [(1, mkEd Normal 0 (fun _ => 0)); (1, mkEd Normal 0 (fun _ => 10))] /\
  exists it1 f1 it2 f2 h, fnavs 26 false alphabet [Down; Right; Right; Enter; Down; Right; Enter; Exit; Up] (-1) nested = Some (it1, f1) /\
    (form_text f1 0, form_text f1 1) = ([65], [75]) /\ fnav 26 false alphabet Up it1 f1 = Some (it2, (f2, h)) /\
    (form_text f2 0, form_text f2 1) = ([76], [75]) /\ up_num 26 false 0 <> 76 - 65.
Proof.
  split; [cbn; repeat split; discriminate|]. split.
  - repeat constructor; cbn [fst snd e_st e_pos e_num tc_buf tc_edit]; try lia; try discriminate; (replace i with 0 by lia; reflexivity).
  - eexists. eexists. eexists. eexists. eexists. split; [lazy; reflexivity|]. split; [lazy; reflexivity|]. split; [lazy; reflexivity|].
    split; [lazy; reflexivity|discriminate].
Qed.
Print Assumptions form_nested_refuted.

(** C79: the sketch TextBox.ino with any page, any commands and any six pins, whatever the display showed:
    after the last command the screen is exactly the page with the texts of the editors, and the cursor is
    at the current control, on the character its editor is at. *)
Theorem form_display : forall iw rows lo timer outside x b m n wrap cs ms it f es, 8 <= iw -> rows_ok rows -> 0 <= lo < 16 -> mode_ok m ->
  pins_free timer x b -> 1 <= n <= 127 -> distinct n cs -> printable_set n cs -> ms <> [] -> -1 <= it < n ->
  pages_of_lines (plain_of f) -> one_selected (plain_of f) -> Forall2 (field_ok n cs it) (fields f) es ->
  Forall terminated (fields f) -> NoDup (map number_of (fields f)) -> form_fits rows f ->
  exists it' f' cs' r v os l' taken, form_sketch n wrap cs ms it f = Some (it', f', cs') /\
    fnavs n wrap cs (Down :: ms) it f = Some (it', f') /\
    Forall2 (fun q e => form_text f' (number_of q) = letters cs e /\ form_edit f' (number_of q) = e_pos (snd e)) (fields f) (editors n wrap (Down :: ms) (plain_of f) es) /\
    t_run iw rows t_new cs' = Some (r, v, os) /\ seen_pins lo timer outside x b m os = (l', M4, taken) /\
    forall d0, let d := exec_all d0 taken in
      disp d = true /\ off d = 0 /\ screen_is rows d (picture no_text (page_pieces (form_text f') (plain_of f))) /\ cursor_at f' d.
Proof.
  intros iw rows lo timer outside x b m n wrap cs ms it f es W RO Hlo Hm (P1 & P2 & P3 & P4) Hn D Hp N I P O F T ND Fit.
  assert (St : stage n cs f it f).
  { split; [exact I|]. split; [eexists; exact F|]. split; [exact T|]. split; [apply forall2_refl_l; exact kept_refl|]. split; [apply Fit|]. auto. }
  destruct (sketch_l n wrap cs Hn D Hp f rows RO Fit iw W ms it St) as (it' & f' & cs' & r & v & ds & E1 & E2 & S' & E3 & Wd & X).
  destruct (pins_wire lo timer outside x b m ds Hlo Hm P1 P2 P3 P4 Wd) as (l' & gs & DW).
  exists it', f', cs', r, v, (init7 ++ ds), l', (gs ++ [(false, 40); (false, 1); (false, 2)] ++ map byte_of ds).
  split; [exact E1|]. split; [exact E2|]. split.
  - destruct (form_edits n wrap cs Hn D (Down :: ms) it f es I P O F) as (it2 & f2 & A1 & A2 & A3 & A4 & A5 & A6).
    rewrite E2 in A1. injection A1 as <- <-. pose proof (kept_numbers _ _ A4) as KN.
    assert (Y : Forall2 (fun q e => form_text f' (number_of q) = letters cs e /\ form_edit f' (number_of q) = e_pos (snd e)) (fields f') (editors n wrap (Down :: ms) (plain_of f) es)).
    { eapply texts_l; [exact Hp|rewrite KN; exact ND|apply S'|exact A6]. }
    clear - Y KN. remember (form_text f') as g. clear Heqg. remember (form_edit f') as h. clear Heqh. revert KN Y. generalize (fields f) (fields f') (editors n wrap (Down :: ms) (plain_of f) es).
    intros l l2 es2. revert l es2. clear. rename l2 into l'. induction l' as [|q' l' IH]; intros l es2 E Y; inversion Y as [|? e ? es' Y1 Y2]; subst; destruct l as [|q l]; try discriminate; constructor.
    + cbn [map] in E. assert (number_of q = number_of q') as -> by congruence. exact Y1.
    + apply IH; [cbn [map] in E; congruence|exact Y2].
  - split; [exact E3|]. split; [exact DW|]. intros d0. cbv zeta. rewrite !exec_all_app. destruct (X (exec_all d0 gs)) as (X1 & X2 & X3 & X4). cbv zeta in *.
    destruct ms as [|m0 ms]; [congruence|].
    split; [exact X1|]. split; [exact X2|]. split; [|exact X4].
    destruct S' as (_ & _ & _ & _ & V & SK & _). unfold drawn in X3. rewrite (pieces_skel _ (plain_of f') (plain_of f) V) in X3; [exact X3|apply Fit|exact SK].
Qed.
Print Assumptions form_display.

(** C79: further commands only append to what was sent to the display, so the above holds after every command. *)
Theorem form_prefix : forall n wrap cs ms ms' it f it1 f1 c1 it2 f2 c2, form_sketch n wrap cs ms it f = Some (it1, f1, c1) ->
  form_sketch n wrap cs (ms ++ ms') it f = Some (it2, f2, c2) -> exists rest, c2 = c1 ++ rest.
Proof.
  intros n wrap cs ms ms' it f it1 f1 c1 it2 f2 c2. unfold form_sketch. destruct (fnav n wrap cs Down it f) as [[i [g h]]|]; [|discriminate].
  assert (G : forall ms i g i1 g1 a1 i2 g2 a2, form_loop n wrap cs ms i g = Some (i1, g1, a1) -> form_loop n wrap cs (ms ++ ms') i g = Some (i2, g2, a2) -> exists rest, a2 = a1 ++ rest).
  { clear. induction ms as [|m ms IH]; intros i g i1 g1 a1 i2 g2 a2 E1 E2.
    - injection E1 as <- <- <-. exists a2. reflexivity.
    - cbn [app form_loop] in *. destruct (fnav n wrap cs m i g) as [[j [g' h]]|]; [|discriminate].
      destruct (form_loop n wrap cs ms j g') as [[[j1 k1] b1]|] eqn:L1; [|discriminate].
      destruct (form_loop n wrap cs (ms ++ ms') j g') as [[[j2 k2] b2]|] eqn:L2; [|discriminate].
      destruct (IH _ _ _ _ _ _ _ _ L1 L2) as (rest & ->). injection E1 as <- <- <-. injection E2 as <- <- <-. exists rest. reflexivity. }
  destruct (form_loop n wrap cs ms i g) as [[[j1 k1] b1]|] eqn:L1; [|discriminate].
  destruct (form_loop n wrap cs (ms ++ ms') i g) as [[[j2 k2] b2]|] eqn:L2; [|discriminate].
  intros E1 E2. destruct (G _ _ _ _ _ _ _ _ _ L1 L2) as (rest & ->). injection E1 as <- <- <-. injection E2 as <- <- <-. exists rest. reflexivity.
Qed.
Print Assumptions form_prefix.

(** C79: after setup, before the first round, it is the page as it was. *)
Theorem form_setup : forall iw rows lo timer outside x b m n wrap cs it f es, 8 <= iw -> rows_ok rows -> 0 <= lo < 16 -> mode_ok m ->
  pins_free timer x b -> 1 <= n <= 127 -> distinct n cs -> printable_set n cs -> -1 <= it < n ->
  pages_of_lines (plain_of f) -> one_selected (plain_of f) -> Forall2 (field_ok n cs it) (fields f) es ->
  Forall terminated (fields f) -> NoDup (map number_of (fields f)) -> form_fits rows f ->
  exists it' f' cs' r v os l' taken, form_sketch n wrap cs [] it f = Some (it', f', cs') /\ fnavs n wrap cs [Down] it f = Some (it', f') /\
    Forall2 (fun q e => form_text f (number_of q) = letters cs e /\ form_edit f (number_of q) = e_pos (snd e)) (fields f) es /\
    t_run iw rows t_new cs' = Some (r, v, os) /\ seen_pins lo timer outside x b m os = (l', M4, taken) /\
    forall d0, let d := exec_all d0 taken in
      disp d = true /\ off d = 0 /\ screen_is rows d (picture no_text (page_pieces (form_text f) (plain_of f))) /\ cursor_at f d.
Proof.
  intros iw rows lo timer outside x b m n wrap cs it f es W RO Hlo Hm (P1 & P2 & P3 & P4) Hn D Hp I P O F T ND Fit.
  assert (St : stage n cs f it f).
  { split; [exact I|]. split; [eexists; exact F|]. split; [exact T|]. split; [apply forall2_refl_l; exact kept_refl|]. split; [apply Fit|]. auto. }
  destruct (sketch_l n wrap cs Hn D Hp f rows RO Fit iw W [] it St) as (it' & f' & cs' & r & v & ds & E1 & E2 & S' & E3 & Wd & X).
  destruct (pins_wire lo timer outside x b m ds Hlo Hm P1 P2 P3 P4 Wd) as (l' & gs & DW).
  exists it', f', cs', r, v, (init7 ++ ds), l', (gs ++ [(false, 40); (false, 1); (false, 2)] ++ map byte_of ds).
  split; [exact E1|]. split; [exact E2|]. split; [exact (texts_l n cs it f es Hp ND T F)|]. split; [exact E3|]. split; [exact DW|]. intros d0. cbv zeta. rewrite !exec_all_app. exact (X (exec_all d0 gs)).
Qed.
Print Assumptions form_setup.

(** C79: TextBox.ino as it is, with any characters, labels, column, size and text.  After k rounds its first
    character has gone on by 3k and its second by 4k, up to the last character of the set; the cursor is off. *)
Theorem form_textbox : forall iw rows lo timer outside x b m n cs it l1 l2 col M buf num k, 8 <= iw -> rows_ok rows -> 2 <= rows -> 0 <= lo < 16 -> mode_ok m ->
  pins_free timer x b -> 1 <= n <= 127 -> distinct n cs -> printable_set n cs -> -1 <= it < n ->
  printable l1 -> printable l2 -> Z.of_nat (length l1) <= width rows -> Z.of_nat (length l2) <= width rows ->
  2 <= M <= 255 -> 0 <= col -> col + M <= width rows ->
  (forall i, 0 <= i < M -> 0 <= num i < n /\ buf i = cs (num i)) -> buf M = 0 ->
  exists it' f' cs' r v os l' taken,
    form_sketch n false cs (concat (repeat textbox_round (S k))) it (textbox l1 l2 col M buf) = Some (it', f', cs') /\
    t_run iw rows t_new cs' = Some (r, v, os) /\ seen_pins lo timer outside x b m os = (l', M4, taken) /\
    forall d0, let d := exec_all d0 taken in
      disp d = true /\ off d = 0 /\ curs d = false /\
      screen_is rows d (picture no_text [(0, 0, l1); (0, col, text_of cs (after_rounds n (Z.of_nat (S k)) num) M); (1, 0, l2)]).
Proof.
  intros iw rows lo timer outside x b m n cs it l1 l2 col M buf num k W RO R2 Hlo Hm PF Hn D Hp I T1 T2 W1 W2 HM Hc HW HB H0.
  set (f := textbox l1 l2 col M buf). set (e := mkEd Normal 0 num). set (ms := concat (repeat textbox_round (S k))).
  assert (N : ms <> []) by (unfold ms; cbn; discriminate).
  assert (F : Forall2 (field_ok n cs it) (fields f) [(M, e)]).
  { cbn [f fields textbox flat_map app]. constructor; [|constructor]. split; [reflexivity|]. split; [lia|]. split; [|discriminate].
    split; [reflexivity|]. split; [reflexivity|]. split; [cbn; lia|exact HB]. }
  assert (Fit : form_fits rows f).
  { assert (BL : blank f 0 = repeat 32 (Z.to_nat M)) by reflexivity.
    split; [cbn; repeat split; discriminate|]. split.
    - cbn [f textbox plain_of map page_fits]. constructor; [|constructor; [|constructor]]; (split; [|intros _; cbn [pos_of]; lia]); repeat constructor;
        cbn [pos_of shown tc_st]; try lia; try assumption; intros; rewrite ?BL, ?repeat_length; try lia.
      unfold printable. apply Forall_forall. intros ch Hch. apply repeat_spec in Hch. lia.
    - intros line z L1 L2. assert (WP : 0 < width rows) by (destruct RO as [-> | [-> | ->]]; reflexivity). cbn [f textbox plain_of map kids_of In] in L1.
      destruct L1 as [<-|[<-|[]]]; cbn [kids_of In] in L2; destruct L2 as [<-|L2]; try (destruct L2 as [<-|[]]); cbn [pos_of]; lia. }
  destruct (form_display iw rows lo timer outside x b m n false cs ms it f [(M, e)]) as (it' & f' & cs' & r & v & os & l' & taken & E1 & E2 & E3 & E4 & E5 & X); try assumption.
  { cbn [f textbox plain_of map pages_of_lines]. repeat constructor. }
  { cbn; repeat split; discriminate. }
  { cbn [f textbox fields flat_map app]. constructor; [exact H0|constructor]. }
  { cbn. constructor; [intros []|constructor]. }
  exists it', f', cs', r, v, os, l', taken. split; [exact E1|]. split; [exact E4|]. split; [exact E5|]. intros d0. cbv zeta. destruct (X d0) as (X1 & X2 & X3 & X4). cbv zeta in *.
  destruct (form_edits n false cs Hn D (Down :: ms) it f [(M, e)] I) as (it2 & f2 & A1 & A2 & A3 & A4 & A5 & A6); try assumption.
  { cbn [f textbox plain_of map pages_of_lines]. repeat constructor. }
  { cbn; repeat split; discriminate. }
  rewrite E2 in A1. injection A1 as <- <-.
  destruct (rounds_l n M l1 l2 col Hn HM k e eq_refl) as (e' & log & B1 & B2 & B3 & B4 & B5); [intros i Hi; apply HB; exact Hi|]. fold ms in B1, B2.
  change (editors n false (Down :: ms) (plain_of f) [(M, e)]) with (editors n false ms (box0 l1 l2 col) [(M, fst (ed_state e Normal))]) in E3.
  change (navs (plain_of f) (Down :: ms)) with (navs (box0 l1 l2 col) ms) in A3.
  split; [exact X1|]. split; [exact X2|]. split.
  - unfold cursor_at in X4. rewrite A3, B2 in X4. exact X4.
  - change (fst (ed_state e Normal)) with e in E3. rewrite B1 in E3. cbn [f textbox fields flat_map app] in E3. inversion E3 as [|? ? ? ? [E6 _] _]; subst.
    unfold number_of in E6. cbn [fst snd] in E6.
    assert (EL : letters cs (M, e') = text_of cs (after_rounds n (Z.of_nat (S k)) num) M).
    { unfold letters, text_of. cbn [fst snd]. apply map_ext_in. intros a Ha. apply in_seq in Ha. rewrite B5 by lia. reflexivity. }
    rewrite EL in E6. intros y z Hy Hz. rewrite X3 by assumption. cbn [f textbox plain_of map page_pieces kids_of filter st_of visible flat_map app line_pieces pos_of shown negb cstate_eqb tc_st].
    rewrite E6. reflexivity.
Qed.
Print Assumptions form_textbox.

(** The characters and texts of TextBox.ino meet the conditions; Hello becomes Killo after one round, and after
    a hundred rounds its first two characters are z. *)
Definition box_chars : list Z :=
  [32; 43; 45; 40; 41] ++ map (fun i => 48 + Z.of_nat i) (seq 0 10) ++ map (fun i => 65 + Z.of_nat i) (seq 0 26) ++ map (fun i => 97 + Z.of_nat i) (seq 0 26).
Definition box_cs (i : Z) : Z := nth (Z.to_nat i) box_chars 0.
Definition box_num (i : Z) : Z := nth (Z.to_nat i) [22; 45; 52; 52; 55; 0] 0.
Example form_textbox_example :
  distinct 67 box_cs /\ printable_set 67 box_cs /\ text_of box_cs box_num 6 = [72; 101; 108; 108; 111; 32] /\
  text_of box_cs (after_rounds 67 1 box_num) 6 = [75; 105; 108; 108; 111; 32] /\
  text_of box_cs (after_rounds 67 100 box_num) 6 = [122; 122; 108; 108; 111; 32].
Proof.
  assert (Rg : forall i, 0 <= i < 67 -> In i (map Z.of_nat (seq 0 67))).
  { intros i Hi. apply in_map_iff. exists (Z.to_nat i). split; [lia|]. apply in_seq. lia. }
  split; [|split; [|repeat split; lazy; reflexivity]].
  - assert (C : forallb (fun i => forallb (fun j => implb (box_cs i =? box_cs j) (i =? j)) (map Z.of_nat (seq 0 67))) (map Z.of_nat (seq 0 67)) = true) by (lazy; reflexivity).
    intros i j Hi Hj E. rewrite forallb_forall in C. specialize (C i (Rg i Hi)). rewrite forallb_forall in C. specialize (C j (Rg j Hj)).
    rewrite E, Z.eqb_refl in C. apply Z.eqb_eq. exact C.
  - assert (C : forallb (fun i => (0 <? box_cs i) && (box_cs i <? 256) && negb (box_cs i =? 10) && negb (box_cs i =? 13)) (map Z.of_nat (seq 0 67)) = true) by (lazy; reflexivity).
    intros i Hi. rewrite forallb_forall in C. specialize (C i (Rg i Hi)). apply andb_prop in C. destruct C as [C C4]. apply andb_prop in C. destruct C as [C C3].
    apply andb_prop in C. destruct C as [C1 C2]. apply Z.ltb_lt in C1, C2. apply negb_true_iff, Z.eqb_neq in C3, C4. lia.
Qed.
(** Two controls on two lines: each gets its own commands. *)
Definition two : form :=
  FBox PageK Normal 0 None
    [FBox Horizontal Normal 0 None [FText 0 0 2 (mkTc Normal (fun i => if i <? 2 then 65 else 0) 0 0)];
     FBox Horizontal Normal 1 None [FText 0 1 2 (mkTc Normal (fun i => if i <? 2 then 75 else 0) 0 0)]].
Example form_edits_example :
  pages_of_lines (plain_of two) /\ one_selected (plain_of two) /\
  Forall2 (field_ok 26 alphabet (-1)) (fields two) [(2, mkEd Normal 0 (fun _ => 0)); (2, mkEd Normal 0 (fun _ => 10))] /\
  match fnavs 26 false alphabet [Down; Right; Enter; Up; Down; Down; Exit; Down; Right; Enter; Right; Up; Up; Exit; Up; Enter; Up] (-1) two with
  | Some (_, f) => (form_text f 0, form_text f 1) = ([66; 65], [75; 77])
  | None => False
  end.
Proof.
  split; [repeat constructor|]. split; [cbn; repeat split; discriminate|]. split.
  - repeat constructor; cbn [fst snd e_st e_pos e_num tc_buf tc_edit]; try lia; try discriminate;
      (replace (i <? 2) with true by (symmetry; apply Z.ltb_lt; lia); reflexivity).
  - lazy. reflexivity.
Qed.
(** [two] on a display of two rows after the same commands: form_display applies. *)
Example form_display_example : form_fits 2 two /\ Forall terminated (fields two) /\ NoDup (map number_of (fields two)) /\ printable_set 26 alphabet /\ distinct 26 alphabet.
Proof.
  split; [split; [cbn; repeat split; discriminate|split]|].
  - cbn [two plain_of map page_fits]. constructor; [|constructor; [|constructor]]; (split; [|intros _; cbn [pos_of]; lia]);
      (constructor; [|constructor]); (split; [exact Logic.I|intros _]); cbn [pos_of shown]; (split; [lia|split; [lazy; discriminate|]]);
      apply Forall_forall; intros ch Hch; apply (repeat_spec 2 32) in Hch; lia.
  - intros line x [<-|[<-|[]]] [<-|[]]; reflexivity.
  - split; [repeat constructor|]. split; [repeat constructor; cbn; intuition discriminate|]. split; [intros i Hi; unfold alphabet; lia|].
    intros i j _ _ E. unfold alphabet in E. lia.
Qed.
