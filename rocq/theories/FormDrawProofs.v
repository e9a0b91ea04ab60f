(** Proofs: forms of text controls on the display. *)
Require Import ZArith List Bool Lia ZifyBool.
Import ListNotations.
From Verif Require Import Base BaseFacts HdModel HdSpec HdProofs TextModel ArrayModel IteratorModel UiModel UiSpec UiProofs UiTreeProofs EditModel EditSpec EditProofs
  PageModel PageSpec PageProofs ArduinoModel ArduinoSpec SketchModel SketchSpec SketchProofs FormModel FormSpec FormProofs.
Open Scope Z_scope.
Ltac Zify.zify_post_hook ::= idtac.

(** ** Everything stays visible, and in its place *)
Lemma visible_box : forall k st p cur kids, all_visible (Box k st p cur kids) <-> st <> Hidden /\ Forall all_visible kids.
Proof. intros. cbn [all_visible st_of]. rewrite all_forall. reflexivity. Qed.
Lemma visible_st : forall c, all_visible c -> visible (st_of c) = true.
Proof. intros c H. assert (S : st_of c <> Hidden) by (destruct c; apply H). unfold visible. destruct (st_of c); try reflexivity. congruence. Qed.
Lemma visible_set : forall s c, s <> Hidden -> all_visible c -> all_visible (set_st s c).
Proof.
  intros s c Hs H. assert (S : fst (set_state (class_of c) (st_of c) s) <> Hidden).
  { unfold set_state. destruct (before _ _ _); cbn [fst]; [exact Hs|]. destruct c; apply H. }
  destruct c as [st p t|st p i lr log|k st p cur kids]; unfold set_st; [split; [exact S|exact Logic.I]..|]. rewrite visible_box in *. split; [exact S|apply H].
Qed.
Lemma forall_update : forall A (P : A -> Prop) l i f, Forall P l -> (forall x, nth_error l i = Some x -> P x -> P (f x)) -> Forall P (update l i f).
Proof.
  intros A P l i f H Hf. apply forall_nth. rewrite forall_nth in H. intros a x. rewrite nth_update. destruct (Nat.eqb_spec i a) as [->|D]; [|apply H].
  destruct (nth_error l a) as [y|] eqn:E; [|discriminate]. intros X. injection X as <-. apply Hf; [reflexivity|]. eapply H. exact E.
Qed.
Lemma visible_current : forall c j, all_visible c -> all_visible (set_current c j).
Proof.
  intros [| |k st p cur kids] j H; try exact H. rewrite visible_box in H. destruct H as [H1 H2]. unfold set_current.
  assert (S : forall s t cl, s <> Hidden -> t <> Hidden -> fst (set_state cl t s) <> Hidden) by (intros s t cl Hs Ht; unfold set_state; destruct (before _ _ _); assumption).
  assert (U : forall l i s, s <> Hidden -> Forall all_visible l -> Forall all_visible (update l i (set_st s))).
  { intros l i s Hs Hl. apply forall_update; [exact Hl|]. intros x _. apply visible_set. exact Hs. }
  destruct cur as [i|], j as [j|]; rewrite visible_box; (split; [repeat apply S; try discriminate; exact H1|repeat apply U; try discriminate; exact H2]).
Qed.
Lemma visible_go : forall c j, all_visible c -> all_visible (fst (go c j)).
Proof. intros c [j|] H; [apply visible_current|]; exact H. Qed.
Lemma visible_nav : forall m c, all_visible c -> all_visible (fst (nav m c)).
Proof.
  intros m. apply (ctl_induct (fun c => all_visible c -> all_visible (fst (nav m c)))).
  - auto.
  - intros st p i lr log [H _]. cbn [nav st_of] in *. assert (F : fst (fst (field_nav st lr log m)) <> Hidden) by (destruct m, st, lr; cbn; congruence).
    destruct (field_nav st lr log m) as [[s l] h]. split; [exact F|exact Logic.I].
  - intros k st p cur kids IH H.
    assert (B : all_visible (fst (base m (Box k st p cur kids)))).
    { cbn [base]. destruct cur as [i|]; [|exact H]. cbn [fst]. rewrite visible_box in *. split; [apply H|]. apply forall_update; [apply H|].
      intros x Hx V. rewrite forall_nth in IH. apply (IH i x Hx V). }
    rewrite nav_box. cbv zeta. remember (Box k st p cur kids) as c. destruct (base m c) as [c1 h1]. cbn [fst] in B.
    assert (N : forall b, all_visible b -> all_visible (fst (set_next b))) by (intros; apply visible_go; assumption).
    assert (P : forall b, all_visible b -> all_visible (fst (set_prev b))) by (intros; apply visible_go; assumption).
    destruct k.
    + destruct h1; [exact B|]. destruct m; auto.
    + destruct m; auto.
    + match goal with |- all_visible (fst (let (c', h) := ?a in _)) => assert (A : all_visible (fst a)) by (destruct m; try exact H; destruct (may_leave c); auto); destruct a as [c' h] end.
      destruct h; [exact A|exact B].
    + destruct h1; [exact B|]. destruct m; auto.
Qed.
Lemma visible_forget : forall c, all_visible (forget c) <-> all_visible c.
Proof.
  apply ctl_induct; try reflexivity. intros k st p cur kids IH. cbn [forget]. rewrite !visible_box, Forall_map.
  split; intros [A B]; (split; [exact A|]); rewrite Forall_forall in *; intros x Hx; apply (IH x Hx); apply B; exact Hx.
Qed.

(** Positions and texts. *)
Lemma filter_all : forall (l : list ctl), Forall all_visible l -> filter (fun x => visible (st_of x)) l = l.
Proof. intros l H. induction H; [reflexivity|]. cbn [filter]. rewrite visible_st by assumption. f_equal. exact IHForall. Qed.
Lemma visible_kids : forall c, all_visible c -> Forall all_visible (kids_of c).
Proof. intros [| |k st p cur kids] H; try constructor. rewrite visible_box in H. apply H. Qed.
Definition place (text : Z -> list Z) (x : ctl) : Z * list Z := (pos_of x, shown text x).
Definition rowsof (text : Z -> list Z) (line : ctl) : Z * list (Z * list Z) := (pos_of line, map (place text) (kids_of line)).
Lemma pieces_all : forall text c, all_visible c ->
  page_pieces text c = flat_map (fun q => map (fun x => (fst q, fst x, snd x)) (snd q)) (map (rowsof text) (kids_of c)).
Proof.
  intros text c H. unfold page_pieces. pose proof (visible_kids c H) as V. rewrite filter_all by exact V. rewrite flat_map_map.
  induction V as [|l ls Hl _ IH]; [reflexivity|]. cbn [flat_map]. rewrite IH. f_equal. unfold line_pieces, rowsof. cbn [fst snd].
  rewrite filter_all by (apply visible_kids; exact Hl). rewrite map_map. reflexivity.
Qed.
Lemma place_skel : forall text x, place text (skel x) = place text x.
Proof. intros text [| |]; reflexivity. Qed.
Lemma rows_skel : forall text l, rowsof text (skel l) = rowsof text l.
Proof.
  intros text [| |k st p cur kids]; try reflexivity. unfold rowsof. cbn [skel pos_of kids_of]. f_equal. rewrite map_map. apply map_ext. intros x. apply place_skel.
Qed.
Lemma rowsof_skel : forall text c, map (rowsof text) (kids_of (skel c)) = map (rowsof text) (kids_of c).
Proof.
  intros text [| |k st p cur kids]; try reflexivity. cbn [skel kids_of]. rewrite map_map. apply map_ext. intros x. apply rows_skel.
Qed.
Lemma pieces_skel : forall text c d, all_visible c -> all_visible d -> skel c = skel d -> page_pieces text c = page_pieces text d.
Proof. intros text c d Hc Hd E. rewrite !pieces_all by assumption. rewrite <- (rowsof_skel text c), E, rowsof_skel. reflexivity. Qed.
Lemma fits_skel : forall text rows c d, all_visible c -> skel c = skel d -> page_fits text rows c -> page_fits text rows d.
Proof.
  intros text rows c d Hc E H. destruct c as [| |k st p cur kids]; try contradiction. destruct d as [| |k' st' p' cur' kids']; try discriminate.
  cbn [skel] in E. assert (k' = k) as -> by congruence. assert (EK : map skel kids = map skel kids') by congruence. clear E. destruct k; try contradiction.
  cbn [page_fits] in *. rewrite visible_box in Hc. destruct Hc as [_ Hc].
  revert kids' EK. induction kids as [|l ls IH]; intros [|l' ls'] EK; try discriminate; [constructor|]. inversion H as [|? ? L1 L2]; subst. inversion Hc as [|? ? V1 V2]; subst.
  assert (El : skel l = skel l') by (cbn in EK; congruence). assert (Es : map skel ls = map skel ls') by (cbn in EK; congruence). constructor; [|apply IH; assumption]. clear IH EK Es L2 V2 H.
  unfold line_fits in *. destruct l as [| |[] ls1 lp lc lk]; try (destruct L1; contradiction). destruct l' as [| |k2 ls2 lp2 lc2 lk2]; try discriminate.
  cbn [skel] in El. assert (k2 = Horizontal) as -> by congruence. assert (lp2 = lp) as -> by congruence. assert (EK2 : map skel lk = map skel lk2) by congruence.
  destruct L1 as [L1 L3]. pose proof (visible_st _ V1) as Vs. specialize (L3 Vs). rewrite visible_box in V1. destruct V1 as [_ V1]. split; [|intros _; exact L3].
  clear - L1 V1 EK2. revert lk2 EK2. induction lk as [|x xs IH]; intros [|y ys] E; try discriminate; [constructor|].
  inversion L1 as [|? ? A1 A2]; subst. inversion V1 as [|? ? B1 B2]; subst. assert (Ex : skel x = skel y) by (cbn in E; congruence). assert (Exs : map skel xs = map skel ys) by (cbn in E; congruence).
  constructor; [|apply IH; assumption]. destruct A1 as [C1 C2]. specialize (C2 (visible_st _ B1)).
  destruct x as [| |]; try contradiction; destruct y as [| |]; try discriminate; cbn [skel] in Ex; split; try exact Logic.I; intros _; cbn [pos_of shown] in *; congruence.
Qed.

(** ** Texts *)
Lemma string_at_l : forall k buf i, (forall a, 0 <= a < Z.of_nat k -> buf (i + a) <> 0) -> buf (i + Z.of_nat k) = 0 ->
  string_at (S k) buf i = map (fun a => buf (i + Z.of_nat a)) (seq 0 k).
Proof.
  induction k as [|k IH]; intros buf i H E.
  - cbn. replace (i + Z.of_nat 0) with i in E by lia. rewrite E. reflexivity.
  - change (string_at (S (S k)) buf i) with (if buf i =? 0 then [] else buf i :: string_at (S k) buf (i + 1)).
    assert (N : buf i <> 0) by (replace i with (i + 0) by lia; apply H; lia). destruct (Z.eqb_spec (buf i) 0); [contradiction|].
    rewrite IH.
    + cbn [seq map]. f_equal; [f_equal; lia|]. rewrite <- seq_shift, map_map. apply map_ext. intros a. f_equal. lia.
    + intros a Ha. replace (i + 1 + a) with (i + (a + 1)) by lia. apply H. lia.
    + rewrite <- E. f_equal. lia.
Qed.
Section Texts.
Variable n : Z.
Variable cs : Z -> Z.
Hypothesis Hn : 1 <= n <= 127.
Hypothesis Hp : printable_set n cs.
Lemma letters_l : forall it id M t e, field_ok n cs it (id, M, t) e -> terminated (id, M, t) ->
  string_at (Z.to_nat (M + 1)) (tc_buf t) 0 = letters cs e /\ Z.of_nat (length (letters cs e)) = M /\ printable (letters cs e) /\ 0 <= tc_edit t < M.
Proof.
  intros it id M t [cap e] (F1 & F2 & (S1 & S2 & S3 & S4) & _) T. cbn [fst snd] in *. subst cap. cbn [terminated] in T.
  unfold letters. cbn [fst snd]. split; [|split; [|split]].
  - replace (Z.to_nat (M + 1)) with (S (Z.to_nat M)) by lia. rewrite string_at_l.
    + apply map_ext_in. intros a Ha. apply in_seq in Ha. apply S4. lia.
    + intros a Ha. destruct (S4 a ltac:(lia)) as [A B]. rewrite Z.add_0_l, B. specialize (Hp _ A). lia.
    + rewrite <- T. f_equal. lia.
  - rewrite map_length, seq_length. lia.
  - apply Forall_forall. intros ch I. apply in_map_iff in I. destruct I as (a & <- & Ha). apply in_seq in Ha. apply Hp. apply S4. lia.
  - rewrite S2. exact S3.
Qed.
Lemma find_in : forall (l : list (Z * Z * tc)) g q, find g l = Some q -> In q l.
Proof. intros l g q H. eapply find_some. exact H. Qed.
Lemma forall2_in : forall A B (R : A -> B -> Prop) l l' x, Forall2 R l l' -> In x l -> exists y, In y l' /\ R x y.
Proof. intros A B R l l' x H. induction H as [|a b l l' Hab _ IH]; intros []; [subst; exists b; cbn; auto|]. destruct (IH H) as (y & I1 & I2). exists y. cbn. auto. Qed.
Lemma form_text_l : forall it f es, Forall2 (field_ok n cs it) (fields f) es -> Forall terminated (fields f) ->
  forall id, length (form_text f id) = length (blank f id) /\ printable (form_text f id) /\
    0 <= form_edit f id < Z.max 1 (Z.of_nat (length (blank f id))).
Proof.
  intros it f es F T id. unfold form_text, blank, form_edit. destruct (field_of f id) as [[[i M] t]|] eqn:E.
  - apply find_in in E. destruct (forall2_in _ _ _ _ _ _ F E) as (e & _ & Fe). rewrite Forall_forall in T. specialize (T _ E).
    destruct (letters_l it i M t e Fe T) as (A & B & C & D). rewrite A. rewrite repeat_length. split; [lia|]. split; [exact C|]. lia.
  - split; [reflexivity|]. split; [constructor|]. cbn. lia.
Qed.
Lemma find_kept : forall (l l' : list (Z * Z * tc)) id, Forall2 kept l l' ->
  match find (fun q => fst (fst q) =? id) l with
  | Some q => exists q', find (fun q => fst (fst q) =? id) l' = Some q' /\ kept q q'
  | None => find (fun q => fst (fst q) =? id) l' = None
  end.
Proof.
  intros l l' id H. induction H as [|[[i M] t] [[i' M'] t'] l l' K _ IH]; [reflexivity|]. cbn [find fst]. pose proof K as (K1 & K2 & _). subst.
  destruct (i =? id); [eexists; split; [reflexivity|exact K]|exact IH].
Qed.
Lemma blank_kept : forall f f' id, Forall2 kept (fields f) (fields f') -> blank f' id = blank f id.
Proof.
  intros f f' id H. unfold blank, field_of. pose proof (find_kept _ _ id H) as G. destruct (find _ (fields f)) as [[[i M] t]|].
  - destruct G as ([[i' M'] t'] & -> & _ & -> & _). reflexivity.
  - rewrite G. reflexivity.
Qed.
End Texts.
Lemma fits_text : forall t1 t2 rows c, (forall id, length (t2 id) = length (t1 id) /\ printable (t2 id)) -> page_fits t1 rows c -> page_fits t2 rows c.
Proof.
  intros t1 t2 rows c H F. destruct c as [| |[] st p cur kids]; try contradiction. cbn [page_fits] in *. eapply Forall_impl; [|exact F].
  intros l [L1 L2]. split; [|exact L2]. destruct l as [| |[] ls lp lc lk]; try contradiction. eapply Forall_impl; [|exact L1].
  intros x [X1 X2]. split; [exact X1|]. intros V. specialize (X2 V). destruct x as [| |]; try contradiction; cbn [pos_of shown] in *; [exact X2|].
  destruct (H id) as [-> P]. split; [apply X2|]. split; [apply X2|exact P].
Qed.
Lemma covers_text : forall t1 t2 c y x, (forall id, length (t2 id) = length (t1 id)) -> covers t2 c y x = covers t1 c y x.
Proof.
  intros t1 t2 c y x H. unfold covers, page_pieces. induction (filter (fun x => visible (st_of x)) (kids_of c)) as [|l ls IH]; [reflexivity|].
  cbn [flat_map]. rewrite !existsb_app, IH. f_equal. unfold line_pieces. induction (filter (fun x => visible (st_of x)) (kids_of l)) as [|z zs IHz]; [reflexivity|].
  cbn [map existsb]. rewrite IHz. f_equal. unfold inside. destruct z as [| |]; cbn [shown]; rewrite ?H; reflexivity.
Qed.
(** One page over others that cover the same cells. *)
Lemma same_cover2 : forall (L : list (list piece)) last cells y x, (forall q, In q L -> existsb (fun q => inside q y x) q = existsb (fun q => inside q y x) last) ->
  picture cells (concat (L ++ [last])) y x = picture cells last y x.
Proof.
  intros L last cells y x C. rewrite concat_app, picture_app. cbn [concat]. rewrite app_nil_r.
  destruct (existsb (fun q => inside q y x) last) eqn:E; [apply picture_hit; exact E|].
  rewrite (picture_miss last) by exact E. rewrite (picture_miss last cells) by exact E. apply picture_miss.
  induction L as [|q L IH]; [reflexivity|]. cbn [concat]. rewrite existsb_app. apply orb_false_intro; [apply C; left; reflexivity|]. apply IH. intros q' I. apply C. right. exact I.
Qed.

(** ** The stages of a run *)
Section Run.
Variable n : Z.
Variable wrap : bool.
Variable cs : Z -> Z.
Hypothesis Hn : 1 <= n <= 127.
Hypothesis Hd : distinct n cs.
Hypothesis Hp : printable_set n cs.
Variable f0 : form.
Definition stage (it : Z) (f : form) : Prop :=
  -1 <= it < n /\ (exists es, Forall2 (field_ok n cs it) (fields f) es) /\ Forall terminated (fields f) /\ Forall2 kept (fields f0) (fields f) /\
  all_visible (plain_of f) /\ skel (plain_of f) = skel (plain_of f0) /\ pages_of_lines (plain_of f) /\ one_selected (plain_of f).
Lemma ok_bounds : forall it l es, Forall2 (field_ok n cs it) l es -> Forall in_bounds l.
Proof.
  intros it l es H. induction H as [|[[id M] t] [cap e] l es F _ IH]; [constructor|]. constructor; [|exact IH].
  destruct F as (F1 & F2 & (S1 & S2 & S3 & S4) & _). cbn [fst snd] in *. split; [lia|]. rewrite u8_small by lia. lia.
Qed.
Lemma kept_term : forall l l' it es, Forall2 kept l l' -> Forall2 (field_ok n cs it) l es -> Forall terminated l -> Forall terminated l'.
Proof.
  intros l l' it es K. revert es. induction K as [|[[id M] t] [[id' M'] t'] l l' K1 _ IH]; intros es F T; [constructor|].
  inversion F as [|? e ? es' F1 F2]; subst. inversion T as [|? ? T1 T2]; subst. constructor; [|eapply IH; eassumption].
  destruct K1 as (_ & -> & K1). cbn [terminated] in *. rewrite K1; [exact T1|]. destruct F1 as (_ & B & _). rewrite u8_small by lia. lia.
Qed.
Lemma skel_forget : forall c, skel (forget c) = skel c.
Proof.
  apply ctl_induct; try reflexivity. intros k st p cur kids IH. cbn [forget skel]. f_equal. rewrite map_map. apply map_ext_in. rewrite Forall_forall in IH. exact IH.
Qed.
Lemma stage_nav : forall m it f, stage it f -> exists it' f' h, fnav n wrap cs m it f = Some (it', (f', h)) /\ stage it' f'.
Proof.
  intros m it f (I & (es & F) & T & K & V & S & P & O).
  destruct (fnav_l n wrap cs Hn m f it I (ok_bounds _ _ _ F)) as (it' & f' & E & I' & [T1 T2] & P' & _ & X).
  exists it', f', (snd (nav m (plain_of f))). split; [exact E|]. split; [exact I'|]. split; [eexists; apply (X Hd P O es F)|].
  split; [eapply kept_term; eassumption|]. split; [eapply (forall2_trans_l _ kept kept_trans); eassumption|].
  rewrite P'. split; [apply visible_forget, visible_nav; exact V|]. split.
  - rewrite skel_forget. destruct (tame_nav m (plain_of f)) as [-> _]. exact S.
  - split; [apply pages_forget, pages_nav; exact P|apply one_forget, one_nav; assumption].
Qed.
Lemma loop_stages : forall ms it f, stage it f -> exists it' f' fs, form_loop n wrap cs ms it f = Some (it', f', map form_draw fs) /\
  fnavs n wrap cs ms it f = Some (it', f') /\ Forall (fun g => exists i, stage i g) fs /\ stage it' f' /\ (ms <> [] -> exists pre, fs = pre ++ [f']).
Proof.
  induction ms as [|m ms IH]; intros it f G.
  - exists it, f, []. cbn. split; [reflexivity|]. split; [reflexivity|]. split; [constructor|]. split; [exact G|congruence].
  - destruct (stage_nav m it f G) as (it1 & f1 & h & E & G1). destruct (IH it1 f1 G1) as (it2 & f2 & fs & E2 & E3 & A & G2 & L).
    exists it2, f2, (f1 :: fs). cbn [form_loop fnavs]. rewrite E. cbn [fbind fst]. rewrite E2. split; [reflexivity|]. split; [exact E3|].
    split; [constructor; [eexists; exact G1|exact A]|]. split; [exact G2|]. intros _. destruct ms as [|m' ms].
    + cbn [form_loop] in E2. assert (fs = []) as -> by (destruct fs; [reflexivity|discriminate]). exists []. cbn [fnavs] in E3. cbn. congruence.
    + destruct L as (pre & ->); [discriminate|]. exists (f1 :: pre). reflexivity.
Qed.

Variable rows : Z.
Hypothesis Hr : rows_ok rows.
Hypothesis Hf : form_fits rows f0.
Definition shot (f : form) : ctl * (Z -> list Z) * (Z -> Z) := (plain_of f, form_text f, form_edit f).
Lemma in_kids_skel : forall c d line x, skel c = skel d -> In line (kids_of c) -> In x (kids_of line) ->
  exists line' x', In line' (kids_of d) /\ In x' (kids_of line') /\ pos_of x' = pos_of x.
Proof.
  assert (PS : forall x, pos_of (skel x) = pos_of x) by (intros [| |]; reflexivity).
  assert (G : forall c d x, skel c = skel d -> In x (kids_of c) -> exists y, In y (kids_of d) /\ skel y = skel x).
  { intros [| |k st p cur kids] d x E I; try contradiction. destruct d as [| |k' st' p' cur' kids']; try discriminate. cbn [kids_of] in *.
    cbn [skel] in E. assert (EK : map skel kids = map skel kids') by congruence. apply (in_map skel) in I. rewrite EK in I. apply in_map_iff in I.
    destruct I as (y & A & B). exists y. split; assumption. }
  intros c d line x E I1 I2. destruct (G c d line E I1) as (l' & A & B). destruct (G line l' x (eq_sym B) I2) as (x' & C & D).
  exists l', x'. split; [exact A|]. split; [exact C|]. rewrite <- (PS x'), D, PS. reflexivity.
Qed.
Lemma stage_fit : forall it f, stage it f -> all_fit rows (shot f) /\
  forall y x, existsb (fun q => inside q y x) (page_pieces (form_text f) (plain_of f)) = covers (blank f0) (plain_of f0) y x.
Proof.
  intros it f (I & (es & F) & T & K & V & S & P & O). destruct Hf as (F1 & F2 & F3).
  pose proof (form_text_l n cs Hp it f es F T) as X.
  assert (B : forall id, blank f id = blank f0 id) by (intros id; apply blank_kept; exact K).
  assert (PF0 : page_fits (blank f0) rows (plain_of f)) by (eapply fits_skel; [exact F1|symmetry; exact S|exact F2]).
  assert (PF : page_fits (form_text f) rows (plain_of f)).
  { eapply fits_text; [|exact PF0]. intros id. destruct (X id) as (X1 & X2 & _). rewrite X1, B. split; [reflexivity|exact X2]. }
  split; [split; [exact PF|]|].
  - intros line z El Ez. destruct (plain_of f) as [| |k st p cur kids] eqn:EP; try contradiction. destruct k; try contradiction.
    unfold current_line in El. unfold current_input in Ez. cbn [cur_of kids_of] in *. destruct cur as [i|]; [|discriminate]. rewrite El in Ez.
    destruct (cur_of line) as [j|]; [|discriminate]. pose proof (nth_error_In _ _ El) as I1. pose proof (nth_error_In _ _ Ez) as I2.
    cbn [page_fits] in PF0. rewrite Forall_forall in PF0. destruct (PF0 line I1) as [L1 L2].
    rewrite visible_box in V. destruct V as [_ V]. rewrite Forall_forall in V. specialize (V line I1). specialize (L2 (visible_st _ V)).
    destruct line as [| |[] ls lp lc lk]; try contradiction. cbn [kids_of] in *. rewrite Forall_forall in L1. destruct (L1 z I2) as [Z1 Z2].
    rewrite visible_box in V. destruct V as [_ V]. rewrite Forall_forall in V. specialize (Z2 (visible_st _ (V z I2))). destruct Z2 as (Z2 & Z3 & _).
    assert (W : pos_of z < width rows).
    { destruct (in_kids_skel (plain_of f) (plain_of f0) (Box Horizontal ls lp lc lk) z) as (l' & x' & A1 & A2 & A3); try (rewrite EP; cbn [kids_of]; assumption); try assumption.
      rewrite <- A3. eapply F3; eassumption. }
    split; [exact L2|]. split; [lia|].
    destruct z as [| zs zp zi zlr zlog |]; try contradiction; cbn [edit_of]; [lia|]. cbn [pos_of shown] in *. destruct (X zi) as (_ & _ & X3). rewrite B in X3.
    destruct (PageSpec.edits _); lia.
  - intros y x. rewrite (pieces_skel _ (plain_of f) (plain_of f0) V F1 S). change (covers (form_text f) (plain_of f0) y x = covers (blank f0) (plain_of f0) y x).
    apply covers_text. intros id. destruct (X id) as (X1 & _). rewrite X1, B. reflexivity.
Qed.

Variable iw : Z.
Hypothesis iw8 : 8 <= iw.
Definition drawn (f : form) : list piece := page_pieces (form_text f) (plain_of f).
Lemma draws_form : forall fs r v d cells, Forall (fun g => exists i, stage i g) fs -> in_step iw r d -> PageProofs.shows rows cells d ->
  exists r' v' ds, t_run iw rows (r, v) (map form_draw fs) = Some (r', v', ds) /\ Forall whole ds /\
    let d' := exec_all d (map byte_of ds) in
    in_step iw r' d' /\ disp d' = disp d /\ off d' = off d /\ PageProofs.shows rows (picture cells (concat (map drawn fs))) d' /\
    forall pre g, fs = pre ++ [g] -> cursor_at g d'.
Proof.
  induction fs as [|f fs IH]; intros r v d cells F S H.
  - exists r, v, []. cbn. do 6 (split; [assumption || reflexivity || constructor|]). intros [] g E; discriminate.
  - inversion F as [|? ? (i & F1) F2]; subst. cbn [map t_run t_call form_draw].
    destruct (stage_fit i f F1) as [[P1 P2] _]. cbn [shot fst snd] in P1, P2.
    destruct (page_draw_l iw rows iw8 Hr (form_text f) (form_edit f) (plain_of f) r v d P1 P2 S) as (r1 & v1 & d1 & E1 & W1 & S1 & X1 & X2 & X3 & X4).
    rewrite E1. cbn [bindo fst snd].
    assert (H1 : PageProofs.shows rows (picture cells (drawn f)) (exec_all d (map byte_of d1))).
    { intros y x Hy Hx. rewrite X3 by assumption. apply (picture_in rows); assumption. }
    destruct (IH r1 v1 _ _ F2 S1 H1) as (r2 & v2 & d2 & E2 & W2 & S2 & Y1 & Y2 & Y3 & Y4).
    rewrite E2. cbn [bindo fst snd]. exists r2, v2, (d1 ++ d2). split; [reflexivity|]. split; [apply Forall_app; auto|].
    cbv zeta. rewrite map_app, exec_all_app. split; [exact S2|]. split; [congruence|]. split; [congruence|].
    cbn [map concat]. rewrite picture_app. split; [exact Y3|]. intros pre g E. destruct fs as [|f' fs].
    + assert (g = f) as -> by (destruct pre as [|? []]; cbn in E; congruence). cbn [map t_run] in E2.
      assert (d2 = []) as -> by congruence. cbn [map exec_all fold_left]. unfold cursor_at.
      destruct (current_line (plain_of f)); [|apply X4]. destruct (current_input (plain_of f)); [exact X4|apply X4].
    + destruct pre as [|a pre]; [discriminate|]. cbn in E. apply (Y4 pre). congruence.
Qed.

Lemma sketch_l : forall ms it, stage it f0 ->
  exists it' f' cs' r v ds, form_sketch n wrap cs ms it f0 = Some (it', f', cs') /\ fnavs n wrap cs (Down :: ms) it f0 = Some (it', f') /\ stage it' f' /\
  t_run iw rows t_new cs' = Some (r, v, init7 ++ ds) /\ Forall whole ds /\
  forall d, let d' := exec_all (exec_all d [(false, 40); (false, 1); (false, 2)]) (map byte_of ds) in
    let g := match ms with [] => f0 | _ => f' end in
    disp d' = true /\ off d' = 0 /\ screen_is rows d' (picture no_text (drawn g)) /\ cursor_at g d'.
Proof.
  intros ms it G. destruct (stage_nav Down it f0 G) as (it1 & f1 & h & E0 & G1).
  destruct (loop_stages ms it1 f1 G1) as (it' & f' & fs & L1 & L2 & L3 & G' & L4). 
  exists it', f', (TInit :: TCtl (CDisplay true) :: form_draw f0 :: map form_draw fs).
  assert (Fs : Forall (fun g => exists i, stage i g) (f0 :: fs)) by (constructor; [eexists; exact G|exact L3]).
  remember (match ms with [] => f0 | _ => f' end) as g0 eqn:Eg0.
  assert (Last : (exists pre, f0 :: fs = pre ++ [g0]) /\ exists i, stage i g0).
  { destruct ms as [|m ms].
    - subst g0. cbn [form_loop] in L1. assert (fs = []) as -> by (destruct fs; [reflexivity|discriminate]). split; [exists []; reflexivity|eexists; exact G].
    - destruct L4 as (pre & ->); [discriminate|]. subst g0. split; [exists (f0 :: pre); reflexivity|eexists; exact G']. }
  clear Eg0. destruct Last as ((pre & Efs) & i0 & Sg0).
  destruct (start2 iw rows iw8) as (r1 & e1 & r & e2 & E1 & E2 & O1 & O2 & X).
  assert (R : forall d, ready iw r d -> exists r' v ds, t_run iw rows (r, snd t_new) (map form_draw (f0 :: fs)) = Some (r', v, ds) /\ Forall whole ds /\
    let d' := exec_all d (map byte_of ds) in
    disp d' = true /\ off d' = 0 /\ screen_is rows d' (picture no_text (drawn g0)) /\ cursor_at g0 d').
  { intros d (S & M & A & D1 & D2 & D3 & D4).
    assert (H : PageProofs.shows rows no_text d) by (intros y x Hy Hx; unfold on_screen; rewrite M; reflexivity).
    destruct (draws_form (f0 :: fs) r (snd t_new) d no_text Fs S H) as (r' & v & ds & E & O & _ & Y1 & Y2 & Y3 & Y4).
    exists r', v, ds. split; [exact E|]. split; [exact O|]. cbv zeta. split; [congruence|]. split; [congruence|].
    split; [|apply (Y4 pre); exact Efs].
    intros y x Hy Hx. rewrite Y3 by assumption. rewrite Efs, map_app. cbn [map]. apply same_cover2.
    intros q I. apply in_map_iff in I. destruct I as (g & <- & I). unfold drawn.
    assert (Hg : In g (f0 :: fs)) by (rewrite Efs; apply in_or_app; left; exact I).
    rewrite Forall_forall in Fs. destruct (Fs g Hg) as (j & Sg). destruct (stage_fit j g Sg) as [_ Cg]. destruct (stage_fit i0 g0 Sg0) as [_ C'].
    rewrite Cg, C'. reflexivity. }
  destruct (R _ (X HdSpec.lcd_new)) as (r' & v & ds & E & O & _).
  exists r', v, (e1 ++ e2 ++ ds). split; [unfold form_sketch; rewrite E0, L1; reflexivity|]. split; [cbn [fnavs]; rewrite E0; exact L2|]. split; [exact G'|].
  change (form_draw f0 :: map form_draw fs) with (map form_draw (f0 :: fs)). remember (map form_draw (f0 :: fs)) as cl eqn:Ecl.
  cbn [t_run]. rewrite E1. cbn [bindo fst snd]. rewrite E2. cbn [bindo fst snd]. rewrite E. cbn [bindo fst snd].
  rewrite <- app_assoc. split; [reflexivity|]. split; [repeat (apply Forall_app; split; try assumption)|].
  intros d. cbv zeta. rewrite app_assoc, map_app, exec_all_app.
  destruct (R _ (X d)) as (r'' & v' & ds' & E' & O' & Y). rewrite E in E'. injection E' as <- <- <-. exact Y.
Qed.
End Run.
(** The text under the number of a control. *)
Lemma find_number : forall (l : list (Z * Z * tc)) q, NoDup (map number_of l) -> In q l -> find (fun p => fst (fst p) =? number_of q) l = Some q.
Proof.
  intros l q. induction l as [|p l IH]; intros N I; [contradiction|]. cbn [map] in N. inversion N as [|? ? N1 N2]; subst. cbn [find].
  change (fst (fst p)) with (number_of p). destruct (Z.eqb_spec (number_of p) (number_of q)) as [E|E].
  - destruct I as [->|I]; [reflexivity|]. exfalso. apply N1. rewrite E. apply in_map. exact I.
  - destruct I as [->|I]; [congruence|]. apply IH; assumption.
Qed.
Lemma kept_numbers : forall l l', Forall2 kept l l' -> map number_of l' = map number_of l.
Proof. intros l l' H. induction H as [|[[i M] t] [[i' M'] t'] l l' (A & _) _ IH]; [reflexivity|]. cbn [map]. rewrite IH. unfold number_of. cbn. congruence. Qed.
Lemma texts_l : forall n cs it f es, printable_set n cs -> NoDup (map number_of (fields f)) -> Forall terminated (fields f) -> Forall2 (field_ok n cs it) (fields f) es ->
  Forall2 (fun q e => form_text f (number_of q) = letters cs e /\ form_edit f (number_of q) = e_pos (snd e)) (fields f) es.
Proof.
  intros n cs it f es Hp N T F.
  assert (G : forall l es, (forall q, In q l -> In q (fields f)) -> Forall2 (field_ok n cs it) l es -> Forall2 (fun q e => form_text f (number_of q) = letters cs e /\ form_edit f (number_of q) = e_pos (snd e)) l es).
  { clear - Hp N T. intros l es I F. induction F as [|[[id M] t] e l es F1 _ IH]; [constructor|]. constructor; [|apply IH; intros q Q; apply I; right; exact Q].
    pose proof (I _ (or_introl eq_refl)) as J. unfold form_text, form_edit, field_of. rewrite (find_number _ _ N J).
    rewrite Forall_forall in T. split; [apply (letters_l n cs Hp it id M t e F1 (T _ J))|]. apply F1. }
  apply G; [auto|exact F].
Qed.

(** ** TextBox.ino *)
Lemma editors_app : forall n wrap a b c es, editors n wrap (a ++ b) c es = editors n wrap b (navs c a) (editors n wrap a c es).
Proof. intros n wrap a. induction a as [|m a IH]; intros b c es; [reflexivity|]. cbn [app editors navs]. cbv zeta. rewrite IH. reflexivity. Qed.
Lemma navs_app : forall a b c, navs c (a ++ b) = navs (navs c a) b.
Proof. intros a. induction a as [|m a IH]; intros b c; [reflexivity|]. apply IH. Qed.
Section Box.
Variables (n M : Z) (l1 l2 : list Z) (col : Z).
Hypothesis Hn : 1 <= n <= 127.
Hypothesis HM : 2 <= M <= 255.
Definition box0 : ctl := Box PageK Focused 0 (Some 0%nat)
  [Box Horizontal Focused 0 None [Label Normal 0 l1; Field Normal col 0 true []]; Box Horizontal Normal 1 None [Label Normal 0 l2]].
Definition box1 (log : list cmd) : ctl := Box PageK Focused 0 (Some 1%nat)
  [Box Horizontal Normal 0 (Some 1%nat) [Label Normal 0 l1; Field Focused col 0 true log]; Box Horizontal Focused 1 None [Label Normal 0 l2]].
Lemma box_first : exists log, navs box0 textbox_round = box1 log.
Proof. eexists. lazy. reflexivity. Qed.
Lemma box_again : forall log, exists log', navs (box1 log) textbox_round = box1 log'.
Proof. intros log. eexists. lazy -[app]. reflexivity. Qed.
Lemma upd00 : forall (f : Z -> Z) v, upd f 0 v 0 = v.
Proof. reflexivity. Qed.
Lemma upd01 : forall (f : Z -> Z) v, upd f 0 v 1 = f 1.
Proof. reflexivity. Qed.
Lemma upd11 : forall (f : Z -> Z) v, upd f 1 v 1 = v.
Proof. reflexivity. Qed.
Lemma editors_one : forall m r c c' st e, fst (nav m c) = c' -> field_states c' = [st] ->
  editors n false (m :: r) c [(M, e)] = editors n false r c' [(M, field_step n false m M st e)].
Proof. intros m r c c' st e <- E. cbn [editors]. cbv zeta. rewrite E. reflexivity. Qed.
Ltac ed_go := match goal with |- context [editors n false (?m :: ?r) ?c [(M, ?e)]] =>
    let c' := eval lazy -[app] in (fst (nav m c)) in
    let l := eval lazy in (field_states c') in
    match l with [?st] =>
      let H := fresh in assert (H : fst (nav m c) = c') by (lazy -[app]; reflexivity);
      rewrite (editors_one m r c c' st e H eq_refl); clear H
    end;
    cbv beta iota zeta delta [field_step ed_state ed_nav set_state before before_input before_control enabled e_st cstate_eqb andb orb editing fst snd e_pos e_num negb active];
    try replace (Z.min (M - 1) (0 + 1)) with 1 by lia;
    rewrite ?upd00, ?upd01, ?upd11
  end.
Lemma up3 : forall k, 0 <= k < n -> up_num n false (up_num n false (up_num n false k)) = Z.min (n - 1) (k + 3).
Proof. intros k H. unfold up_num. lia. Qed.
Lemma up4 : forall k, 0 <= k < n -> up_num n false (up_num n false (up_num n false (up_num n false k))) = Z.min (n - 1) (k + 4).
Proof. intros k H. unfold up_num. lia. Qed.
Lemma round_num : forall num, (forall i, 0 <= i < M -> 0 <= num i < n) ->
  forall i, upd (upd (upd (upd (upd (upd (upd num 0 (up_num n false (num 0))) 0 (up_num n false (up_num n false (num 0)))) 0 (up_num n false (up_num n false (up_num n false (num 0)))))
    1 (up_num n false (num 1))) 1 (up_num n false (up_num n false (num 1)))) 1 (up_num n false (up_num n false (up_num n false (num 1)))))
    1 (up_num n false (up_num n false (up_num n false (up_num n false (num 1))))) i = after_rounds n 1 num i.
Proof.
  intros num H i. unfold after_rounds, upd. destruct (Z.eqb_spec i 0) as [->|N0].
  - change (0 =? 1) with false. cbv iota. rewrite up3 by (apply H; lia). reflexivity.
  - destruct (Z.eqb_spec i 1) as [->|N1]; [rewrite up4 by (apply H; lia); reflexivity|reflexivity].
Qed.
Ltac ed_round H := do 13 ed_go;
  cbn [editors]; eexists; split; [reflexivity|]; cbn [e_st e_pos e_num]; split; [reflexivity|]; split; [reflexivity|]; apply round_num.
Lemma round_first : forall e, e_st e = Normal -> exists e', editors n false textbox_round box0 [(M, e)] = [(M, e')] /\ e_st e' = Focused /\ e_pos e' = 0 /\
  ((forall i, 0 <= i < M -> 0 <= e_num e i < n) -> forall i, e_num e' i = after_rounds n 1 (e_num e) i).
Proof.
  intros [st pos num] E. cbn [e_st] in E. subst st. unfold textbox_round, box0. ed_round E.
Qed.
Lemma round_again : forall log e, e_st e = Focused -> e_pos e = 0 ->
  exists e', editors n false textbox_round (box1 log) [(M, e)] = [(M, e')] /\ e_st e' = Focused /\ e_pos e' = 0 /\
  ((forall i, 0 <= i < M -> 0 <= e_num e i < n) -> forall i, e_num e' i = after_rounds n 1 (e_num e) i).
Proof.
  intros log [st pos num] E E0. cbn [e_st e_pos] in E, E0. subst st pos. unfold textbox_round, box1. ed_round E.
Qed.
Lemma rounds_add : forall j k num, 0 <= j -> 0 <= k -> (forall i, 0 <= i < M -> 0 <= num i < n) ->
  forall i, after_rounds n k (after_rounds n j num) i = after_rounds n (j + k) num i.
Proof.
  intros j k num Hj Hk H i. unfold after_rounds. change (0 =? 0) with true. change (1 =? 0) with false. change (1 =? 1) with true. cbv iota.
  destruct (i =? 0); [lia|]. destruct (i =? 1); [lia|reflexivity].
Qed.
Lemma rounds_range : forall k num, 0 <= k -> (forall i, 0 <= i < M -> 0 <= num i < n) -> forall i, 0 <= i < M -> 0 <= after_rounds n k num i < n.
Proof.
  intros k num Hk H i Hi. pose proof (H 0 ltac:(lia)). pose proof (H 1 ltac:(lia)). pose proof (H i Hi). unfold after_rounds.
  destruct (i =? 0); [lia|]. destruct (i =? 1); lia.
Qed.
Lemma rounds_ext : forall k f g, (forall i, f i = g i) -> forall i, after_rounds n k f i = after_rounds n k g i.
Proof. intros k f g H i. unfold after_rounds. rewrite !H. reflexivity. Qed.
Lemma rounds_l : forall k e, e_st e = Normal -> (forall i, 0 <= i < M -> 0 <= e_num e i < n) ->
  exists e' log, editors n false (concat (repeat textbox_round (S k))) box0 [(M, e)] = [(M, e')] /\
    navs box0 (concat (repeat textbox_round (S k))) = box1 log /\ e_st e' = Focused /\ e_pos e' = 0 /\
    forall i, 0 <= i < M -> e_num e' i = after_rounds n (Z.of_nat (S k)) (e_num e) i.
Proof.
  intros k e E R.
  assert (G : forall k log e, e_st e = Focused -> e_pos e = 0 -> (forall i, 0 <= i < M -> 0 <= e_num e i < n) ->
    exists e' log', editors n false (concat (repeat textbox_round k)) (box1 log) [(M, e)] = [(M, e')] /\
    navs (box1 log) (concat (repeat textbox_round k)) = box1 log' /\ e_st e' = Focused /\ e_pos e' = 0 /\
    forall i, 0 <= i < M -> e_num e' i = after_rounds n (Z.of_nat k) (e_num e) i).
  { clear - Hn HM. induction k as [|k IH]; intros log e E E0 R.
    - exists e, log. cbn [repeat concat editors navs]. do 4 (split; [reflexivity || assumption|]). intros i Hi. unfold after_rounds.
      pose proof (R 0 ltac:(lia)). pose proof (R 1 ltac:(lia)). destruct (Z.eqb_spec i 0) as [->|]; [lia|]. destruct (Z.eqb_spec i 1) as [->|]; lia.
    - cbn [repeat concat]. rewrite editors_app, navs_app. destruct (round_again log e E E0) as (e1 & E1 & A1 & A2 & A3). rewrite E1.
      destruct (box_again log) as (log1 & ->).
      destruct (IH log1 e1 A1 A2) as (e2 & log2 & B1 & B2 & B3 & B4 & B5).
      { intros i Hi. rewrite (A3 R). apply rounds_range; [lia|exact R|exact Hi]. }
      exists e2, log2. do 4 (split; [assumption|]). intros i Hi. rewrite B5 by exact Hi. rewrite (rounds_ext _ _ _ (A3 R)). rewrite rounds_add by (assumption || lia).
      f_equal. lia. }
  cbn [repeat concat]. rewrite editors_app, navs_app. destruct (round_first e E) as (e1 & E1 & A1 & A2 & A3). rewrite E1. destruct box_first as (log1 & ->).
  destruct (G k log1 e1 A1 A2) as (e2 & log2 & B1 & B2 & B3 & B4 & B5).
  { intros i Hi. rewrite (A3 R). apply rounds_range; [lia|exact R|exact Hi]. }
  exists e2, log2. do 4 (split; [assumption|]). intros i Hi. rewrite B5 by exact Hi. rewrite (rounds_ext _ _ _ (A3 R)). rewrite rounds_add by (assumption || lia).
  f_equal. lia.
Qed.
End Box.
