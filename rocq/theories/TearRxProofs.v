(** The receiving side, byte by byte. *)
Require Import ZArith List Bool Lia ZifyBool.
Import ListNotations.
From Verif Require Import Base BaseFacts RingModel RingSpec RingProofs StreamSpec StreamProofs
  TearModel TearSpec TearProofs.
Open Scope Z_scope.
Ltac Zify.zify_post_hook ::= idtac.

Section S.
Variables (lf sf : bool) (B Size : Z).
Hypothesis HSize : 1 <= Size <= 65535.

Lemma wrap_range : forall rd n, 0 <= rd < Size -> 0 <= n < Size -> 0 <= wrap Size (rd + n) < Size.
Proof. intros rd n Hr Hn. unfold wrap. destruct (Z.geb_spec (rd + n) Size); lia. Qed.

Lemma wrap_neq : forall rd n, 0 <= rd < Size -> 1 <= n < Size -> wrap Size (rd + n) <> rd.
Proof. intros rd n Hr Hn. unfold wrap. destruct (Z.geb_spec (rd + n) Size); lia. Qed.

Lemma small_len : forall rd n0 n1 n2 n3, Size <= 256 -> 0 <= B -> B + Size <= 65536 ->
  0 <= rd < Size -> 1 <= n0 -> n0 <= n1 -> n1 <= n2 -> n2 <= n3 -> n3 < Size ->
  sub_len Size (join lf (byte1 lf (B + wrap Size (rd + n0))) (B + wrap Size (rd + n1)) - B >=? rd)
    (join lf (byte1 lf (B + wrap Size (rd + n2))) (B + wrap Size (rd + n3)) - B) rd > 0.
Proof.
  intros rd n0 n1 n2 n3 HS HB HBS Hr H0 H1 H2 H3 H4.
  assert (W0 := wrap_range rd n0 Hr ltac:(lia)). assert (W1 := wrap_range rd n1 Hr ltac:(lia)).
  assert (W2 := wrap_range rd n2 Hr ltac:(lia)). assert (W3 := wrap_range rd n3 Hr ltac:(lia)).
  assert (N2 := wrap_neq rd n2 Hr ltac:(lia)). assert (N3 := wrap_neq rd n3 Hr ltac:(lia)).
  pose proof (join_small lf B Size (wrap Size (rd + n2)) (wrap Size (rd + n3)) rd HS W2 W3 Hr) as JS.
  assert (D : forall p, 0 <= p - 256 * (p / 256) <= 255 /\ p mod 256 = p - 256 * (p / 256)).
  { intros p. pose proof (Z.div_mod p 256 ltac:(discriminate)).
    pose proof (Z.mod_pos_bound p 256 ltac:(reflexivity)). lia. }
  assert (U : forall x, -65536 < x < 65536 -> x <> 0 -> u16 x > 0).
  { intros x Hx Hn. unfold u16. pose proof (Z.div_mod x 65536 ltac:(discriminate)) as E.
    pose proof (Z.mod_pos_bound x 65536 ltac:(reflexivity)). change (2 ^ 16) with 65536 in *.
    lia. }
  set (j0 := join lf (byte1 lf (B + wrap Size (rd + n0))) (B + wrap Size (rd + n1))) in *.
  set (j := join lf (byte1 lf (B + wrap Size (rd + n2))) (B + wrap Size (rd + n3))) in *.
  assert (Jb : 0 <= j <= B + Size + 254).
  { subst j. unfold join, byte1, glue. pose proof (D (B + wrap Size (rd + n2))) as [? E2].
    pose proof (D (B + wrap Size (rd + n3))) as [? E3]. rewrite E2, E3. clear - H H5 W2 W3 HB HS.
    destruct lf; lia. }
  unfold sub_len. destruct (Z.geb_spec (j0 - B) rd) as [G|G].
  - apply U; [lia|]. intros X. destruct JS as [Y|Y]; lia.
  - apply U; [lia|]. intros X. assert (Ej : j = B + rd - Size) by lia. clear X U JS Jb.
    subst j j0. unfold join, byte1, glue in *.
    pose proof (D (B + wrap Size (rd + n0))) as [D0 E0]. pose proof (D (B + wrap Size (rd + n1))) as [D1 E1].
    pose proof (D (B + wrap Size (rd + n2))) as [D2 E2]. pose proof (D (B + wrap Size (rd + n3))) as [D3 E3].
    pose proof (D B) as [D4 _]. clear D.
    assert (M : forall a b, a <= b -> a / 256 <= b / 256) by (intros a b Hab; apply Z.div_le_mono; lia).
    pose proof (M B (B + wrap Size (rd + n0)) ltac:(lia)). pose proof (M B (B + wrap Size (rd + n1)) ltac:(lia)).
    pose proof (M B (B + wrap Size (rd + n2)) ltac:(lia)). pose proof (M B (B + wrap Size (rd + n3)) ltac:(lia)).
    rewrite E0, E1 in G. rewrite E2, E3 in Ej. clear E0 E1 E2 E3.
    unfold wrap in *.
    destruct (Z.geb_spec (rd + n0) Size); destruct (Z.geb_spec (rd + n1) Size);
    destruct (Z.geb_spec (rd + n2) Size); destruct (Z.geb_spec (rd + n3) Size); try lia.
    all: destruct lf; try lia.
Qed.

Lemma delivered_app : forall a b, delivered (a ++ b) = delivered a ++ delivered b.
Proof. intros a b. apply filter_app. Qed.

Definition rmid (s : brx) (seen : bool) (q : list Z) (f v : Z) : Prop :=
  holds Size (set_rd (br_ring s) f) q /\ br_acc s = delivered (br_got s) ++ v :: q /\
  (br_window Size s = true -> seen = false -> Z.of_nat (length q) < Size - 1).

Definition br_inv (s : brx) (seen : bool) (q : list Z) : Prop :=
  Forall is_byte q /\
  match br_pc s with
  | CIdle | CCmp | CEnable => holds Size (br_ring s) q /\ br_acc s = delivered (br_got s) ++ q
  | CCmp2 b => holds Size (br_ring s) q /\ br_acc s = delivered (br_got s) ++ q /\
      (q = [] -> b = byte1 lf (B + rb_wr (br_ring s)))
  | CSub ge => holds Size (br_ring s) q /\ br_acc s = delivered (br_got s) ++ q /\
      (q = [] -> ge = true)
  | CSub2 ge b => holds Size (br_ring s) q /\ br_acc s = delivered (br_got s) ++ q /\
      (q = [] -> ge = true /\ b = byte1 lf (B + rb_wr (br_ring s)))
  | CLoad => holds Size (br_ring s) q /\ br_acc s = delivered (br_got s) ++ q /\ q <> []
  | CInc v => holds Size (br_ring s) q /\ br_acc s = delivered (br_got s) ++ q /\ exists q', q = v :: q'
  | CIncMid v old => is_byte v /\ 0 <= old < Size /\ rmid s seen q (fin Size (old + 1)) v /\
      (rb_rd (br_ring s) = old -> Z.of_nat (length q) < Size - 1)
  | CWrap v => is_byte v /\ 0 <= rb_rd (br_ring s) <= Size /\ rmid s seen q (fin Size (rb_rd (br_ring s))) v
  | CWrapMid v => is_byte v /\ rmid s seen q 0 v
  end.

Definition full_check (w d : Z) : bool := if w + 1 >=? Size then 0 =? d else w + 1 =? d.

Lemma full_holds : forall (m : Z -> Z) w f q, holds Size (mkRing m w f) q ->
  full_check w f = negb (Z.of_nat (length q) <? Size - 1).
Proof.
  intros m w f q [Hr [Hq [Hw _]]]. cbn [rb_wr rb_rd] in *. unfold full_check. unfold wrap in Hw.
  destruct (Z.ltb_spec (Z.of_nat (length q)) (Size - 1)); cbn [negb];
  destruct (Z.geb_spec (w + 1) Size); destruct (Z.geb_spec (f + Z.of_nat (length q)) Size); lia.
Qed.

(** The handler where the stored read cursor is [d] but the queue begins at [f]. *)
Lemma write_any : forall (m : Z -> Z) w f d q v, holds Size (mkRing m w f) q ->
  (full_check w d = false -> Z.of_nat (length q) < Size - 1) ->
  (full_check w d = true /\ ring_write Size (mkRing m w d) v = Some (mkRing m w d, false)) \/
  (full_check w d = false /\ exists m' w',
    ring_write Size (mkRing m w d) v = Some (mkRing m' w' d, true) /\
    holds Size (mkRing m' w' f) (q ++ [v])).
Proof.
  intros m w f d q v H HF. destruct (holds_write Size HSize _ _ v H) as [r' [E H']].
  unfold ring_write in *. cbn [rb_wr rb_rd rb_mem] in *. fold (full_check w d). fold (full_check w f) in E.
  destruct (full_check w d) eqn:Ed; [left; auto|]. right. split; [reflexivity|].
  specialize (HF eq_refl). rewrite (full_holds m w f q H) in E.
  destruct (Z.ltb_spec (Z.of_nat (length q)) (Size - 1)); [|lia]. cbn [negb] in E.
  destruct (inb w Size); [|discriminate]. injection E as <-. eauto.
Qed.

Lemma old_room : forall (m : Z -> Z) w old q, 0 <= old < Size -> Z.of_nat (length q) < Size - 1 ->
  holds Size (mkRing m w (fin Size (old + 1))) q -> full_check w old = false ->
  Z.of_nat (length q) + 1 < Size - 1.
Proof.
  intros m w old q Ho Hl [Hr [_ [Hw _]]] F. cbn [rb_wr rb_rd] in *. unfold full_check in F.
  unfold fin, wrap in *. destruct (Z.geb_spec (old + 1) Size).
  - destruct (Z.geb_spec (0 + Z.of_nat (length q)) Size); destruct (Z.geb_spec (w + 1) Size); lia.
  - destruct (Z.geb_spec (old + 1 + Z.of_nat (length q)) Size); destruct (Z.geb_spec (w + 1) Size); lia.
Qed.

Definition br_isr_ev (s : brx) (e : brev) : bool :=
  match e with BrIsr _ ok => br_ien s && ok | _ => false end.

Lemma holds_req : forall m f d w (q : list Z), f = d -> holds Size (mkRing m w f) q ->
  holds Size (mkRing m w d) q.
Proof. intros; now subst. Qed.

Lemma fin_small : forall i, i < Size -> fin Size i = i.
Proof. intros i H. unfold fin. destruct (Z.geb_spec i Size); lia. Qed.
Lemma fin_big : forall i, Size <= i -> fin Size i = 0.
Proof. intros i H. unfold fin. destruct (Z.geb_spec i Size); lia. Qed.

(** The end of a Read: the byte is returned. *)
Lemma got_snoc : forall got v (q : list Z), is_byte v ->
  delivered got ++ v :: q = delivered (got ++ [s16 v]) ++ q.
Proof.
  intros got v q Hv. unfold is_byte in Hv. rewrite s16_small by lia. rewrite delivered_app.
  unfold delivered at 3. cbn [filter]. destruct (Z.leb_spec 0 v); [|lia].
  now rewrite app_snoc_assoc.
Qed.

Lemma snoc_nil : forall (q : list Z) x, q ++ [x] = [] -> False.
Proof. intros q x H. destruct q; discriminate. Qed.

Lemma br_step_inv : forall s seen q e, br_inv s seen q ->
  br_window Size s && br_isr_ev s e && seen = false ->
  exists s' q', br_step lf sf B Size s e = Some s' /\
    br_inv s' (br_window Size s' && br_window Size s && (seen || br_isr_ev s e)) q'.
Proof.
  intros s seen q e [Hb Hinv] Hg. destruct s as [[m w d] ien pc got acc]. destruct e as [| |x ok].
  - (* start *)
    unfold br_isr_ev. rewrite orb_false_r.
    destruct pc as [| |b|ge|ge b| |v|v old|v|v|]; cbn [br_step br_pc br_ring br_ien br_got br_acc] in *.
    all: eexists; exists q; (split; [reflexivity|]); (split; [exact Hb|]); try exact Hinv.
    + destruct Hinv as [H0 [H1 [[H2 [H3 H4]] H5]]]. cbn [br_pc br_ring br_ien br_got br_acc].
      split; [exact H0|]. split; [exact H1|]. split; [|exact H5]. split; [exact H2|].
      split; [exact H3|]. intros E1 E2. rewrite E1 in E2. exact (H4 E1 E2).
    + destruct Hinv as [H0 [H1 [H2 [H3 H4]]]]. cbn [br_pc br_ring br_ien br_got br_acc].
      split; [exact H0|]. split; [exact H1|]. split; [exact H2|].
      split; [exact H3|]. intros E1 E2. rewrite E1 in E2. exact (H4 E1 E2).
    + destruct Hinv as [H0 [H2 [H3 H4]]]. cbn [br_pc br_ring br_ien br_got br_acc].
      split; [exact H0|]. split; [exact H2|].
      split; [exact H3|]. intros E1 E2. rewrite E1 in E2. exact (H4 E1 E2).
  - (* main step *)
    unfold br_isr_ev. rewrite orb_false_r. cbn [br_step]. unfold br_main.
    destruct pc as [| |b|ge|ge b| |v|v old|v|v|];
      cbn [br_pc br_ring br_ien br_got br_acc rb_mem rb_wr rb_rd set_rd] in *.
    + eexists. exists q. split; [reflexivity|]. split; [exact Hb|]. exact Hinv.
    + destruct Hinv as [H1 H2]. eexists. exists q. split; [reflexivity|]. split; [exact Hb|].
      cbn [br_pc br_ring br_ien br_got br_acc rb_wr]. auto.
    + destruct Hinv as [H1 [H2 H3]]. eexists. exists q. split; [reflexivity|]. split; [exact Hb|].
      cbn [br_pc br_ring br_ien br_got br_acc]. split; [exact H1|]. split; [exact H2|].
      intros Eq. rewrite (H3 Eq), join_same. destruct H1 as [Hr [_ [Hw _]]]. subst q.
      cbn [length rb_wr rb_rd] in *. unfold wrap in Hw.
      destruct (Z.geb_spec (d + Z.of_nat 0) Size); lia.
    + destruct Hinv as [H1 [H2 H3]]. eexists. exists q. split; [reflexivity|]. split; [exact Hb|].
      cbn [br_pc br_ring br_ien br_got br_acc rb_wr]. split; [exact H1|]. split; [exact H2|]. auto.
    + destruct Hinv as [H1 [H2 H3]]. eexists. exists q. split; [reflexivity|]. split; [exact Hb|].
      destruct (sub_len Size ge (join lf b (B + w) - B) d >? 0) eqn:EL;
        cbn [br_pc br_ring br_ien br_got br_acc]; [|auto].
      split; [exact H1|]. split; [exact H2|]. intros Eq. destruct (H3 Eq) as [-> ->].
      rewrite join_same in EL. destruct H1 as [Hr [_ [Hw _]]]. subst q.
      cbn [length rb_wr rb_rd] in *. unfold wrap in Hw.
      destruct (Z.geb_spec (d + Z.of_nat 0) Size); [lia|]. unfold sub_len in EL.
      replace (B + w - B - d) with 0 in EL by lia. discriminate.
    + destruct Hinv as [H1 [H2 H3]]. cbn [rb_rd] in *.
      assert (Hin : inb d Size = true) by (apply inb_true; destruct H1; cbn [rb_rd] in *; lia).
      rewrite Hin. eexists. exists q. split; [reflexivity|]. split; [exact Hb|].
      cbn [br_pc br_ring br_ien br_got br_acc]. split; [exact H1|]. split; [exact H2|].
      destruct q as [|y q]; [now elim H3|]. exists q. destruct H1 as [_ [_ [_ Hi]]].
      cbn [length items rb_mem rb_rd] in Hi. injection Hi as Hx _. now rewrite <- Hx.
    + destruct Hinv as [H1 [H2 [q' H3]]]. subst q. inversion Hb as [|? ? Hx Hb']. clear Hb.
      eexists. exists q'. split; [reflexivity|]. split; [exact Hb'|].
      cbn [br_pc br_ring br_ien br_got br_acc rb_mem rb_wr rb_rd].
      pose proof H1 as [Hrd [Hq _]]. cbn [rb_rd length] in *.
      destruct (holds_read Size HSize _ _ _ H1) as [r' [E H']].
      split; [exact Hx|]. split; [exact Hrd|]. split; [|intros _; lia]. split.
      { unfold ring_read in E. cbn [rb_mem rb_wr rb_rd] in E. destruct (inb d Size); [|discriminate].
        injection E as <- _. exact H'. }
      split; [exact H2|]. intros _ _. lia.
    + destruct Hinv as [H0 [H1 [[H2 [H3 H4]] H5]]].
      eexists. exists q. split; [reflexivity|]. split; [exact Hb|].
      cbn [br_pc br_ring br_ien br_got br_acc set_rd rb_mem rb_wr rb_rd].
      split; [exact H0|]. split; [lia|]. split; [exact H2|]. split; [exact H3|].
      intros E1 E2. rewrite E1 in E2. cbn [andb] in E2.
      unfold br_window in E1. cbn [br_pc br_ring set_rd rb_rd] in E1.
      destruct (br_window Size (mkBr (mkRing m w d) ien (CIncMid v old) got acc)) eqn:Ew.
      * apply H4; [reflexivity|]. exact E2.
      * unfold br_window in Ew. cbn [br_pc br_ring rb_rd] in Ew.
        destruct (Z.eqb_spec d old) as [->|]; [now apply H5|]. cbn [negb andb] in Ew.
        destruct (Z.eqb_spec d (old + 1)); [|discriminate].
        destruct (Z.ltb_spec d Size); [lia|discriminate].
    + destruct Hinv as [H0 [H1 [H2 [H3 H4]]]]. cbn [rb_rd] in *.
      destruct (Z.geb_spec d Size) as [Hge|Hlt].
      * eexists. exists q. split; [reflexivity|]. split; [exact Hb|].
        cbn [br_pc br_ring br_ien br_got br_acc]. split; [exact H0|].
        split; [rewrite (fin_big d Hge) in H2; exact H2|]. split; [exact H3|]. intros E1 E2.
        assert (Ew : br_window Size (mkBr (mkRing m w d) ien (CWrap v) got acc) = true).
        { unfold br_window. cbn [br_pc br_ring rb_rd]. lia. }
        rewrite E1, Ew in E2. apply H4; [exact Ew|exact E2].
      * eexists. exists q. split; [reflexivity|]. split; [exact Hb|].
        cbn [br_pc br_ring br_ien br_got br_acc]. split.
        { apply (holds_req m (fin Size d)); [now apply fin_small|exact H2]. }
        rewrite <- got_snoc by exact H0. exact H3.
    + destruct Hinv as [H0 [H2 [H3 H4]]].
      eexists. exists q. split; [reflexivity|]. split; [exact Hb|].
      cbn [br_pc br_ring br_ien br_got br_acc]. split; [exact H2|].
      rewrite <- got_snoc by exact H0. exact H3.
    + destruct Hinv as [H1 H2].
      eexists. exists q. split; [reflexivity|]. split; [exact Hb|].
      cbn [br_pc br_ring br_ien br_got br_acc]. split; [exact H1|]. rewrite delivered_app.
      change (delivered [-1]) with (@nil Z). now rewrite app_nil_r.
  - (* handler *)
    unfold br_isr_ev in *. cbn [br_step br_ien] in *. unfold br_isr. cbn [br_ien br_ring br_pc br_got br_acc].
    destruct (ien && ok) eqn:Eio.
    2:{ rewrite orb_false_r. eexists. exists q. split; [reflexivity|]. split; [exact Hb|].
        destruct pc as [| |b|ge|ge b| |v|v old|v|v|]; cbn [br_pc br_ring br_ien br_got br_acc] in *;
          try exact Hinv.
        - destruct Hinv as [H0 [H1 [[H2 [H3 H4]] H5]]].
          split; [exact H0|]. split; [exact H1|]. split; [|exact H5]. split; [exact H2|].
          split; [exact H3|]. intros E1 E2. rewrite E1 in E2. exact (H4 E1 E2).
        - destruct Hinv as [H0 [H1 [H2 [H3 H4]]]].
          split; [exact H0|]. split; [exact H1|]. split; [exact H2|].
          split; [exact H3|]. intros E1 E2. rewrite E1 in E2. exact (H4 E1 E2).
        - destruct Hinv as [H0 [H2 [H3 H4]]].
          split; [exact H0|]. split; [exact H2|].
          split; [exact H3|]. intros E1 E2. rewrite E1 in E2. exact (H4 E1 E2). }
    rewrite orb_true_r, andb_true_r in *.
    assert (HF : exists f, holds Size (mkRing m w f) q /\
      (full_check w d = false -> Z.of_nat (length q) < Size - 1)).
    { destruct pc as [| |b|ge|ge b| |v|v old|v|v|]; cbn [br_pc br_ring br_ien br_got br_acc] in Hinv.
      8:{ destruct Hinv as [H0 [H1 [[H2 [H3 H4]] H5]]]. exists (fin Size (old + 1)).
          split; [exact H2|]. intros HL.
          destruct (br_window Size (mkBr (mkRing m w d) ien (CIncMid v old) got acc)) eqn:Ew.
          - apply H4; [reflexivity|]. rewrite andb_true_l in Hg. exact Hg.
          - unfold br_window in Ew. cbn [br_pc br_ring rb_rd] in Ew.
            destruct (Z.eqb_spec d old) as [->|]; [now apply H5|]. cbn [negb andb] in Ew.
            destruct (Z.eqb_spec d (old + 1)); [|discriminate].
            destruct (Z.ltb_spec d Size); [|discriminate].
            rewrite (full_holds m w d q) in HL; [lia|].
            apply (holds_req m (fin Size (old + 1))); [|exact H2]. rewrite fin_small; lia. }
      8:{ destruct Hinv as [H0 [H1 [H2 [H3 H4]]]]. cbn [rb_rd] in *. exists (fin Size d).
          split; [exact H2|]. intros HL.
          destruct (br_window Size (mkBr (mkRing m w d) ien (CWrap v) got acc)) eqn:Ew.
          - apply H4; [reflexivity|]. rewrite andb_true_l in Hg. exact Hg.
          - unfold br_window in Ew. cbn [br_pc br_ring rb_rd] in Ew.
            rewrite (full_holds m w d q) in HL; [lia|].
            apply (holds_req m (fin Size d)); [|exact H2]. rewrite fin_small; lia. }
      8:{ destruct Hinv as [H0 [H2 [H3 H4]]]. exists 0. split; [exact H2|]. intros HL.
          destruct (br_window Size (mkBr (mkRing m w d) ien (CWrapMid v) got acc)) eqn:Ew.
          - apply H4; [reflexivity|]. rewrite andb_true_l in Hg. exact Hg.
          - unfold br_window in Ew. cbn [br_pc br_ring rb_rd] in Ew.
            rewrite (full_holds m w d q) in HL; [lia|]. apply (holds_req m 0); [|exact H2]. lia. }
      all: exists d; (assert (HQ : holds Size (mkRing m w d) q) by tauto);
        (split; [exact HQ|]); rewrite (full_holds m w d q HQ); lia. }
    destruct HF as [f0 [Hf0 Hl]].
    destruct (write_any m w f0 d q (u8 x) Hf0 Hl) as [[HC E]|[HC [m' [w' [E _]]]]].
    + rewrite E. eexists. exists q. split; [reflexivity|]. split; [exact Hb|].
      destruct pc as [| |b|ge|ge b| |v|v old|v|v|]; cbn [br_pc br_ring br_ien br_got br_acc] in *;
        try exact Hinv.
      * destruct Hinv as [H0 [H1 [[H2 [H3 H4]] H5]]].
        split; [exact H0|]. split; [exact H1|]. split; [|exact H5]. split; [exact H2|].
        split; [exact H3|]. intros E1 E2. unfold br_window in *. cbn [br_pc br_ring] in *.
        rewrite E1 in E2. discriminate.
      * destruct Hinv as [H0 [H1 [H2 [H3 H4]]]].
        split; [exact H0|]. split; [exact H1|]. split; [exact H2|].
        split; [exact H3|]. intros E1 E2. unfold br_window in *. cbn [br_pc br_ring] in *.
        rewrite E1 in E2. discriminate.
      * destruct Hinv as [H0 [H2 [H3 H4]]].
        split; [exact H0|]. split; [exact H2|].
        split; [exact H3|]. intros E1 E2. unfold br_window in *. cbn [br_pc br_ring] in *.
        rewrite E1 in E2. discriminate.
    + rewrite E. exists (mkBr (mkRing m' w' d) ien pc got (acc ++ [u8 x])), (q ++ [u8 x]).
      split; [reflexivity|]. split.
      { apply Forall_app. split; [exact Hb|]. constructor; [apply u8_range|constructor]. }
      assert (HN : forall f, holds Size (mkRing m w f) q -> holds Size (mkRing m' w' f) (q ++ [u8 x])).
      { intros f H. destruct (write_any m w f d q (u8 x) H Hl) as [[HC2 _]|[_ [m2 [w2 [E2 H2]]]]]; [congruence|].
        rewrite E2 in E. injection E as -> ->. exact H2. }
      destruct pc as [| |b|ge|ge b| |v|v old|v|v|];
        cbn [br_pc br_ring br_ien br_got br_acc rb_wr rb_mem rb_rd] in *.
      * destruct Hinv as [H1 H2]. split; [now apply HN|]. now rewrite H2, app_assoc.
      * destruct Hinv as [H1 H2]. split; [now apply HN|]. now rewrite H2, app_assoc.
      * destruct Hinv as [H1 [H2 H3]]. split; [now apply HN|]. split; [now rewrite H2, app_assoc|].
        intros Y; now apply snoc_nil in Y.
      * destruct Hinv as [H1 [H2 H3]]. split; [now apply HN|]. split; [now rewrite H2, app_assoc|].
        intros Y; now apply snoc_nil in Y.
      * destruct Hinv as [H1 [H2 H3]]. split; [now apply HN|]. split; [now rewrite H2, app_assoc|].
        intros Y; now apply snoc_nil in Y.
      * destruct Hinv as [H1 [H2 H3]]. split; [now apply HN|]. split; [now rewrite H2, app_assoc|].
        intros Y; now apply snoc_nil in Y.
      * destruct Hinv as [H1 [H2 [q' H3]]]. split; [now apply HN|]. split; [now rewrite H2, app_assoc|].
        subst q. exists (q' ++ [u8 x]). reflexivity.
      * destruct Hinv as [H0 [H1 [[H2 [H3 H4]] H5]]]. cbn [br_ring set_rd rb_mem rb_wr] in H2.
        split; [exact H0|]. split; [exact H1|]. split.
        { split; [now apply HN|]. cbn [br_acc br_got] in *.
          split; [rewrite H3, <- app_assoc; reflexivity|].
          intros E1 E2. unfold br_window in *. cbn [br_pc br_ring rb_rd] in *.
          rewrite E1 in E2. discriminate. }
        intros ->. rewrite app_length. cbn [length].
        pose proof (old_room m w old q H1 (Hl HC) H2 HC). lia.
      * destruct Hinv as [H0 [H1 [H2 [H3 H4]]]]. cbn [br_ring set_rd rb_mem rb_wr] in H2.
        split; [exact H0|]. split; [exact H1|]. split; [now apply HN|]. cbn [br_acc br_got] in *.
        split; [rewrite H3, <- app_assoc; reflexivity|].
        intros E1 E2. unfold br_window in *. cbn [br_pc br_ring rb_rd] in *.
        rewrite E1 in E2. discriminate.
      * destruct Hinv as [H0 [H2 [H3 H4]]]. cbn [br_ring set_rd rb_mem rb_wr] in H2.
        split; [exact H0|]. split; [now apply HN|]. cbn [br_acc br_got] in *.
        split; [rewrite H3, <- app_assoc; reflexivity|].
        intros E1 E2. unfold br_window in *. cbn [br_pc br_ring rb_rd] in *.
        rewrite E1 in E2. discriminate.
      * destruct Hinv as [H1 H2]. split; [now apply HN|]. now rewrite H2, app_assoc.
Qed.

Lemma br_run_inv : forall evs s seen q, br_inv s seen q -> br_polite lf sf B Size s seen evs = true ->
  exists s' seen' q', br_run lf sf B Size s evs = Some s' /\ br_inv s' seen' q'.
Proof.
  intros evs. induction evs as [|e evs IH]; intros s seen q H HP; cbn [br_run br_polite] in *.
  - eauto.
  - fold (br_isr_ev s e) in HP.
    destruct (br_window Size s && br_isr_ev s e && seen) eqn:Hg; [discriminate|].
    destruct (br_step_inv s seen q e H Hg) as [s' [q' [E H']]]. rewrite E in *.
    eapply IH; eassumption.
Qed.

Lemma br_init_inv : forall m, br_inv (br_init m) false [].
Proof.
  intros m. split; [constructor|]. cbn [br_init br_pc br_ring br_acc br_got].
  split; [apply (holds_clear Size HSize (mkRing m 0 0))|reflexivity].
Qed.

Lemma br_fifo_l : forall m evs, br_polite lf sf B Size (br_init m) false evs = true ->
  exists s, br_run lf sf B Size (br_init m) evs = Some s /\
    exists rest, br_acc s = delivered (br_got s) ++ br_pending (br_pc s) ++ rest /\
      Z.of_nat (length rest) <= Size - 1 /\
      (br_pc s = CIdle -> ring_length Size (br_ring s) = Z.of_nat (length rest)).
Proof.
  intros m evs HP.
  destruct (br_run_inv evs _ _ _ (br_init_inv m) HP) as [s [seen [q [E [_ H]]]]].
  exists s. split; [exact E|]. exists q.
  destruct (br_pc s); cbn [br_pending app].
  - destruct H as [H1 H2]. pose proof H1 as [_ [Hq _]]. split; [exact H2|]. split; [lia|].
    intros _. now apply holds_length.
  - destruct H as [[_ [Hq _]] H2]. split; [exact H2|]. split; [lia|discriminate].
  - destruct H as [[_ [Hq _]] [H2 _]]. split; [exact H2|]. split; [lia|discriminate].
  - destruct H as [[_ [Hq _]] [H2 _]]. split; [exact H2|]. split; [lia|discriminate].
  - destruct H as [[_ [Hq _]] [H2 _]]. split; [exact H2|]. split; [lia|discriminate].
  - destruct H as [[_ [Hq _]] [H2 _]]. split; [exact H2|]. split; [lia|discriminate].
  - destruct H as [[_ [Hq _]] [H2 _]]. split; [exact H2|]. split; [lia|discriminate].
  - destruct H as [_ [_ [[[_ [Hq _]] [H2 _]] _]]]. split; [exact H2|]. split; [lia|discriminate].
  - destruct H as [_ [_ [[_ [Hq _]] [H2 _]]]]. split; [exact H2|]. split; [lia|discriminate].
  - destruct H as [_ [[_ [Hq _]] [H2 _]]]. split; [exact H2|]. split; [lia|discriminate].
  - destruct H as [[_ [Hq _]] H2]. split; [exact H2|]. split; [lia|discriminate].
Qed.

(** ** At most 256 bytes *)
Lemma low_byte : forall a b, 0 <= a < 256 -> 0 <= b < 256 -> (B + a) mod 256 = (B + b) mod 256 -> a = b.
Proof.
  intros a b Ha Hb E. pose proof (Z.div_mod (B + a) 256 ltac:(discriminate)).
  pose proof (Z.div_mod (B + b) 256 ltac:(discriminate)). lia.
Qed.
Lemma glue_low : forall lo hi, glue (lo mod 256) hi mod 256 = lo mod 256.
Proof.
  intros lo hi. unfold glue. rewrite Z.add_comm, (Z.mul_comm 256 hi), Z.mod_add by discriminate.
  apply Z.mod_mod. discriminate.
Qed.

Lemma half_inc : forall old t, Size <= 256 -> 0 <= old < Size -> 0 <= t < Size ->
  t = half sf (B + old) (B + old + 1) - B -> t = old \/ t = fin Size (old + 1).
Proof.
  intros old t HS Ho Ht E. assert (E' : B + t = half sf (B + old) (B + old + 1)) by lia. clear E.
  unfold half in E'. destruct sf.
  - right. assert (M : (B + t) mod 256 = (B + (old + 1)) mod 256).
    { rewrite E', glue_low. f_equal. lia. }
    destruct (Z.eq_dec (old + 1) 256) as [E256|N256].
    + assert (M2 : (B + t) mod 256 = (B + 0) mod 256).
      { rewrite M, E256. rewrite Z.add_0_r. replace (B + 256) with (B + 1 * 256) by lia.
        apply Z.mod_add. discriminate. }
      apply low_byte in M2; [|lia|lia]. rewrite fin_big by lia. exact M2.
    + apply low_byte in M; [|lia|lia]. unfold fin. destruct (Z.geb_spec (old + 1) Size); lia.
  - left. assert (M : (B + t) mod 256 = (B + old) mod 256) by (rewrite E'; apply glue_low).
    apply low_byte in M; lia.
Qed.

Lemma half_wrap : forall t, Size <= 256 -> 0 <= t < Size ->
  t = half sf (B + Size) B - B -> t = 0.
Proof.
  intros t HS Ht E. assert (E' : B + t = half sf (B + Size) B) by lia. clear E.
  unfold half in E'. destruct sf.
  - assert (M : (B + t) mod 256 = (B + 0) mod 256) by (rewrite E', glue_low; f_equal; lia).
    apply low_byte in M; lia.
  - assert (M : (B + t) mod 256 = (B + Size) mod 256) by (rewrite E'; apply glue_low).
    destruct (Z.eq_dec Size 256) as [E256|N256].
    + assert (M2 : (B + t) mod 256 = (B + 0) mod 256).
      { rewrite M, E256. rewrite Z.add_0_r. replace (B + 256) with (B + 1 * 256) by lia.
        apply Z.mod_add. discriminate. }
      apply low_byte in M2; lia.
    + apply low_byte in M; lia.
Qed.

(** What memory holds between the two stores. *)
Definition torn (s : brx) : Prop :=
  match br_pc s with
  | CIncMid _ old => rb_rd (br_ring s) = half sf (B + old) (B + old + 1) - B
  | CWrapMid _ => rb_rd (br_ring s) = half sf (B + Size) B - B
  | _ => True
  end.

Lemma ring_write_rd : forall (r r' : ring Z) v b, ring_write Size r v = Some (r', b) -> rb_rd r' = rb_rd r.
Proof.
  intros r r' v b E. unfold ring_write in E.
  destruct (if rb_wr r + 1 >=? Size then 0 =? rb_rd r else rb_wr r + 1 =? rb_rd r);
    [|destruct (inb (rb_wr r) Size); [|discriminate]]; injection E as <- _; reflexivity.
Qed.

Lemma torn_step : forall s seen q e s', br_inv s seen q -> torn s ->
  br_step lf sf B Size s e = Some s' -> torn s'.
Proof.
  intros s seen q e s' [_ Hinv] HT E. destruct e as [| |x ok]; cbn [br_step] in E.
  - destruct (br_pc s) eqn:Hpc; injection E as <-; unfold torn in *; cbn [br_pc]; try rewrite Hpc in *;
      exact HT || exact Logic.I.
  - unfold br_main in E. unfold torn in *.
    destruct (br_pc s) eqn:Hpc;
      try (destruct (inb (rb_rd (br_ring s)) Size); [|discriminate]);
      try (injection E as <-; cbn [br_pc]; try rewrite Hpc; exact Logic.I).
    + injection E as <-. cbn [br_pc]. destruct (sub_len _ _ _ _ >? 0); exact Logic.I.
    + injection E as <-. cbn [br_pc br_ring set_rd rb_rd]. reflexivity.
    + destruct (Z.geb_spec (rb_rd (br_ring s)) Size) as [Hge|Hlt]; injection E as <-;
        cbn [br_pc br_ring set_rd rb_rd]; [|exact Logic.I].
      destruct Hinv as [_ [H1 _]]. replace (rb_rd (br_ring s)) with Size by lia. reflexivity.
  - unfold br_isr in E. destruct (br_ien s && ok); [|injection E as <-; exact HT].
    destruct (ring_write Size (br_ring s) (u8 x)) as [[r b]|] eqn:EW; [|discriminate].
    injection E as <-. unfold torn in *. cbn [br_pc br_ring]. rewrite (ring_write_rd _ _ _ _ EW). exact HT.
Qed.

Lemma br_run_torn : forall evs s seen q, br_inv s seen q -> torn s ->
  br_polite lf sf B Size s seen evs = true ->
  exists s' seen' q', br_run lf sf B Size s evs = Some s' /\ br_inv s' seen' q' /\ torn s' /\
    forall e, br_polite lf sf B Size s seen (evs ++ [e]) = true ->
      br_window Size s' && br_isr_ev s' e && seen' = false.
Proof.
  intros evs. induction evs as [|e evs IH]; intros s seen q H HT HP; cbn [br_run br_polite app] in *.
  - exists s, seen, q. split; [reflexivity|]. split; [exact H|]. split; [exact HT|]. intros e.
    fold (br_isr_ev s e). destruct (br_window Size s && br_isr_ev s e && seen); [discriminate|reflexivity].
  - fold (br_isr_ev s e) in *.
    destruct (br_window Size s && br_isr_ev s e && seen) eqn:Hg; [discriminate|].
    destruct (br_step_inv s seen q e H Hg) as [s' [q' [E H']]]. rewrite E in *.
    apply (IH s' _ q'); [exact H'|exact (torn_step s seen q e s' H HT E)|exact HP].
Qed.

(** A refused character finds at least Size - 1 bytes stored and not delivered. *)
Lemma br_dropped_l : forall m evs s x, Size <= 256 ->
  br_polite lf sf B Size (br_init m) false evs = true ->
  br_polite lf sf B Size (br_init m) false (evs ++ [BrIsr x true]) = true ->
  br_run lf sf B Size (br_init m) evs = Some s -> br_ien s = true ->
  exists s', br_step lf sf B Size s (BrIsr x true) = Some s' /\
    (br_acc s' = br_acc s ++ [u8 x] \/
     br_acc s' = br_acc s /\
     Z.of_nat (length (br_acc s)) - Z.of_nat (length (delivered (br_got s))) >= Size - 1).
Proof.
  intros m evs s x HS HP HP2 HE Hien.
  destruct (br_run_torn evs _ _ _ (br_init_inv m) Logic.I HP) as [s0 [seen [q [E [[Hb H] [HT Hg]]]]]].
  rewrite E in HE. injection HE as ->. specialize (Hg _ HP2).
  destruct (br_step_inv s seen q (BrIsr x true) (conj Hb H) Hg) as [s' [q' [Es _]]].
  exists s'. split; [exact Es|]. destruct s as [[mm w d] ien pc got acc].
  cbn [br_ien] in Hien. subst ien. cbn [br_step] in Es. unfold br_isr in Es. cbn [br_ien br_ring br_pc br_got br_acc andb] in *.
  destruct (full_check w d) eqn:FC.
  2:{ left. unfold ring_write in Es. cbn [rb_wr rb_rd rb_mem] in Es. fold (full_check w d) in Es. rewrite FC in Es.
      destruct (inb w Size); [|discriminate]. injection Es as <-. reflexivity. }
  right. split.
  { unfold ring_write in Es. cbn [rb_wr rb_rd rb_mem] in Es. fold (full_check w d) in Es. rewrite FC in Es.
    injection Es as <-. reflexivity. }
  unfold torn in HT. cbn [br_pc br_ring rb_rd] in HT.
  assert (FW : forall f l, holds Size (mkRing mm w f) l -> 0 <= w < Size).
  { intros f l HH. exact (holds_wr Size _ _ _ HH). }
  assert (FD : forall f l, holds Size (mkRing mm w f) l -> d = fin Size (w + 1)).
  { intros f l HH. specialize (FW f l HH). unfold full_check in FC. unfold fin.
    destruct (w + 1 >=? Size); lia. }
  assert (FB : forall f l, holds Size (mkRing mm w f) l -> 0 <= d < Size).
  { intros f l HH. rewrite (FD f l HH). specialize (FW f l HH). unfold fin.
    destruct (Z.geb_spec (w + 1) Size); lia. }
  assert (FULL : holds Size (mkRing mm w d) q -> Z.of_nat (length q) = Size - 1).
  { intros HH. pose proof (full_holds mm w d q HH) as X. rewrite FC in X. destruct HH as [_ [Hq _]]. lia. }
  assert (ALM : forall old, 0 <= old < Size -> d = old -> holds Size (mkRing mm w (fin Size (old + 1))) q ->
    Z.of_nat (length q) + 1 >= Size - 1).
  { intros old Ho -> [Hr [_ [Hw _]]]. cbn [rb_wr rb_rd] in *. unfold full_check in FC. unfold fin, wrap in *.
    destruct (Z.geb_spec (old + 1) Size).
    - destruct (Z.geb_spec (0 + Z.of_nat (length q)) Size); destruct (Z.geb_spec (w + 1) Size); lia.
    - destruct (Z.geb_spec (old + 1 + Z.of_nat (length q)) Size); destruct (Z.geb_spec (w + 1) Size); lia. }
  assert (LEN : forall a (l : list Z), Z.of_nat (length (a ++ l)) - Z.of_nat (length a) = Z.of_nat (length l)).
  { intros a l. rewrite app_length. lia. }
  destruct pc as [| |b|ge|ge b| |v|v old|v|v|]; cbn [br_pc br_ring br_ien br_got br_acc] in *.
  8:{ destruct H as [_ [H1 [[H2 [H3 _]] _]]]. cbn [br_ring set_rd rb_mem rb_wr br_acc br_got] in *.
      rewrite H3, LEN. cbn [length].
      destruct (half_inc old d HS H1 (FB _ _ H2) HT) as [X|X].
      - pose proof (ALM old H1 X H2). lia.
      - rewrite X in FULL. specialize (FULL H2). lia. }
  8:{ destruct H as [_ [H1 [H2 [H3 _]]]]. cbn [br_ring set_rd rb_mem rb_wr rb_rd br_acc br_got] in *.
      rewrite H3, LEN. cbn [length]. pose proof (FB _ _ H2). rewrite fin_small in H2 by lia.
      specialize (FULL H2). lia. }
  8:{ destruct H as [_ [H2 [H3 _]]]. cbn [br_ring set_rd rb_mem rb_wr rb_rd br_acc br_got] in *.
      rewrite H3, LEN. cbn [length]. pose proof (half_wrap d HS (FB _ _ H2) HT) as X.
      rewrite X in FULL. specialize (FULL H2). lia. }
  all: destruct H as [H1 H2];
    match type of H2 with _ /\ _ => destruct H2 as [H2 _] | _ => idtac end;
    rewrite H2, LEN; specialize (FULL H1); lia.
Qed.

(** While a Read that began with something queued goes on. *)
Definition plenty (g0 : list Z) (s : brx) : Prop :=
  (br_got s = g0 /\
   match br_pc s with
   | CCmp => exists q, holds Size (br_ring s) q /\ Forall is_byte q /\ 1 <= Z.of_nat (length q)
   | CCmp2 b => exists q n0, holds Size (br_ring s) q /\ Forall is_byte q /\
       1 <= n0 <= Z.of_nat (length q) /\ b = byte1 lf (B + wrap Size (rb_rd (br_ring s) + n0))
   | CSub ge => exists q n0 n1, holds Size (br_ring s) q /\ Forall is_byte q /\
       1 <= n0 /\ n0 <= n1 /\ n1 <= Z.of_nat (length q) /\
       ge = (join lf (byte1 lf (B + wrap Size (rb_rd (br_ring s) + n0)))
               (B + wrap Size (rb_rd (br_ring s) + n1)) - B >=? rb_rd (br_ring s))
   | CSub2 ge b => exists q n0 n1 n2, holds Size (br_ring s) q /\ Forall is_byte q /\
       1 <= n0 /\ n0 <= n1 /\ n1 <= n2 /\ n2 <= Z.of_nat (length q) /\
       ge = (join lf (byte1 lf (B + wrap Size (rb_rd (br_ring s) + n0)))
               (B + wrap Size (rb_rd (br_ring s) + n1)) - B >=? rb_rd (br_ring s)) /\
       b = byte1 lf (B + wrap Size (rb_rd (br_ring s) + n2))
   | CLoad => exists q, holds Size (br_ring s) q /\ Forall is_byte q /\ 1 <= Z.of_nat (length q)
   | CInc v | CIncMid v _ | CWrap v | CWrapMid v => is_byte v
   | _ => False
   end) \/ exists v ext, br_got s = g0 ++ v :: ext /\ is_byte v.

Lemma br_got_step : forall s e s', br_step lf sf B Size s e = Some s' ->
  exists ext, br_got s' = br_got s ++ ext.
Proof.
  intros [[m w d] ien pc got acc] e s' H. destruct e as [| |x ok]; cbn [br_step br_pc] in H.
  - destruct pc; injection H as <-; exists []; cbn [br_got]; now rewrite app_nil_r.
  - unfold br_main in H. cbn [br_ring br_ien br_pc br_got br_acc rb_mem rb_wr rb_rd] in H.
    destruct pc as [| |b|ge|ge b| |v|v old|v|v|];
      repeat match type of H with
      | (if ?c then Some _ else _) = _ => destruct c
      end; try discriminate; injection H as <-; cbn [br_got];
      first [exists []; now rewrite app_nil_r | eexists; reflexivity].
  - unfold br_isr in H. cbn [br_ring br_ien br_pc br_got br_acc] in H.
    destruct (ien && ok); [destruct (ring_write Size (mkRing m w d) (u8 x)) as [[r b]|]|];
      try discriminate; injection H as <-; exists []; cbn [br_got]; now rewrite app_nil_r.
Qed.

Lemma br_got_run : forall es s s', br_run lf sf B Size s es = Some s' ->
  exists ext, br_got s' = br_got s ++ ext.
Proof.
  intros es. induction es as [|e es IH]; intros s s' E; cbn [br_run] in E.
  - injection E as <-. exists []. now rewrite app_nil_r.
  - destruct (br_step lf sf B Size s e) as [s1|] eqn:E1; [|discriminate].
    destruct (br_got_step _ _ _ E1) as [a Ha]. destruct (IH s1 s' E) as [b Hb].
    exists (a ++ b). rewrite Hb, Ha. now rewrite app_assoc.
Qed.

Lemma plenty_step : forall g0 s e s', Size <= 256 -> 0 <= B -> B + Size <= 65536 -> plenty g0 s ->
  br_step lf sf B Size s e = Some s' -> plenty g0 s'.
Proof.
  intros g0 s e s' HS HB HBS [H|[v [ext [H Hv]]]] E.
  2:{ right. destruct (br_got_step _ _ _ E) as [ext' ->]. rewrite H.
      exists v, (ext ++ ext'). rewrite <- app_assoc. split; [reflexivity|exact Hv]. }
  destruct s as [[m w d] ien pc got acc]. cbn [br_pc br_ring br_ien br_got br_acc rb_rd] in H.
  destruct H as [Hgot H]. subst got.
  destruct e as [| |x ok].
  - cbn [br_step br_pc] in E. destruct pc; try contradiction; injection E as <-; left; (split; [reflexivity|exact H]).
  - cbn [br_step] in E. unfold br_main in E.
    cbn [br_ring br_ien br_pc br_got br_acc rb_mem rb_wr rb_rd] in E.
    destruct pc as [| |b|ge|ge b| |v|v old|v|v|]; try contradiction.
    + injection E as <-. left. split; [reflexivity|]. cbn [br_pc br_ring rb_rd].
      destruct H as [q [H1 [Hb H2]]]. exists q, (Z.of_nat (length q)). split; [exact H1|].
      split; [exact Hb|]. split; [lia|]. destruct H1 as [_ [_ [Hw _]]]. cbn [rb_wr rb_rd] in Hw. now rewrite Hw.
    + injection E as <-. left. split; [reflexivity|]. cbn [br_pc br_ring rb_rd].
      destruct H as [q [n0 [H1 [Hb [H2 ->]]]]]. exists q, n0, (Z.of_nat (length q)). split; [exact H1|].
      split; [exact Hb|]. split; [lia|]. split; [lia|]. split; [lia|].
      destruct H1 as [_ [_ [Hw _]]]. cbn [rb_wr rb_rd] in Hw. now rewrite Hw.
    + injection E as <-. left. split; [reflexivity|]. cbn [br_pc br_ring rb_rd].
      destruct H as [q [n0 [n1 [H1 [Hb [H2 [H3 [H4 ->]]]]]]]]. exists q, n0, n1, (Z.of_nat (length q)).
      split; [exact H1|]. split; [exact Hb|]. split; [lia|]. split; [lia|]. split; [lia|]. split; [lia|].
      split; [reflexivity|]. destruct H1 as [_ [_ [Hw _]]]. cbn [rb_wr rb_rd] in Hw. now rewrite Hw.
    + injection E as <-. left. split; [reflexivity|]. cbn [br_pc br_ring rb_rd].
      destruct H as [q [n0 [n1 [n2 [H1 [Hb [H2 [H3 [H4 [H5 [-> ->]]]]]]]]]]].
      pose proof H1 as [Hr [Hq [Hw _]]]. cbn [rb_wr rb_rd] in *.
      pose proof (small_len d n0 n1 n2 (Z.of_nat (length q)) HS HB HBS Hr H2 H3 H4 H5 Hq) as SL.
      rewrite <- Hw in SL. rewrite (proj2 (Z.gtb_lt _ _) (Z.gt_lt _ _ SL)). exists q. split; [exact H1|]. split; [exact Hb|lia].
    + destruct H as [q [H1 [Hb H2]]]. pose proof H1 as [_ [_ [_ Hi]]].
      destruct (inb d Size); [|discriminate]. injection E as <-. left. split; [reflexivity|]. cbn [br_pc].
      destruct q as [|y q]; [cbn [length] in H2; lia|]. inversion Hb as [|? ? Hy _].
      cbn [length items rb_mem rb_rd] in Hi. injection Hi as Hx _. now rewrite <- Hx.
    + injection E as <-. left. split; [reflexivity|]. exact H.
    + injection E as <-. left. split; [reflexivity|]. exact H.
    + destruct (d >=? Size); injection E as <-.
      * left. split; [reflexivity|]. exact H.
      * right. exists v, []. cbn [br_got]. unfold is_byte in *. rewrite s16_small by lia. auto.
    + injection E as <-. right. exists v, []. cbn [br_got]. unfold is_byte in *. rewrite s16_small by lia. auto.
  - cbn [br_step] in E. unfold br_isr in E. cbn [br_ring br_ien br_pc br_got br_acc] in E.
    destruct (ien && ok); [|injection E as <-; left; split; [reflexivity|exact H]].
    destruct (ring_write Size (mkRing m w d) (u8 x)) as [[r b]|] eqn:EW; [|discriminate].
    pose proof (ring_write_rd _ _ _ _ EW) as ER. cbn [rb_rd] in ER.
    assert (G : forall q, holds Size (mkRing m w d) q -> Forall is_byte q ->
      exists q', holds Size r q' /\ Forall is_byte q' /\ Z.of_nat (length q) <= Z.of_nat (length q')).
    { intros q H1 Hb. destruct (holds_write Size HSize _ _ (u8 x) H1) as [r' [E' H']].
      rewrite EW in E'. injection E' as -> ->. eexists. split; [exact H'|].
      destruct (Z.of_nat (length q) <? Size - 1); [|split; [exact Hb|lia]]. split.
      - apply Forall_app. split; [exact Hb|]. constructor; [apply u8_range|constructor].
      - rewrite app_length. lia. }
    injection E as <-. left. split; [reflexivity|].
    destruct pc as [| |bb|ge|ge bb| |v|v old|v|v|]; cbn [br_pc br_ring]; try rewrite ER; try exact H.
    + destruct H as [q [H1 [Hb H2]]]. destruct (G q H1 Hb) as [q' [G1 [G2 G3]]]. exists q'. split; [exact G1|]. split; [exact G2|lia].
    + destruct H as [q [n0 [H1 [Hb [H2 H3]]]]]. destruct (G q H1 Hb) as [q' [G1 [G2 G3]]].
      exists q', n0. split; [exact G1|]. split; [exact G2|]. split; [lia|exact H3].
    + destruct H as [q [n0 [n1 [H1 [Hb [H2 [H3 [H4 H5]]]]]]]]. destruct (G q H1 Hb) as [q' [G1 [G2 G3]]].
      exists q', n0, n1. split; [exact G1|]. split; [exact G2|]. split; [lia|]. split; [lia|]. split; [lia|exact H5].
    + destruct H as [q [n0 [n1 [n2 [H1 [Hb [H2 [H3 [H4 [H5 H6]]]]]]]]]]. destruct (G q H1 Hb) as [q' [G1 [G2 G3]]].
      exists q', n0, n1, n2. split; [exact G1|]. split; [exact G2|]. split; [lia|]. split; [lia|]. split; [lia|]. split; [lia|exact H6].
    + destruct H as [q [H1 [Hb H2]]]. destruct (G q H1 Hb) as [q' [G1 [G2 G3]]]. exists q'. split; [exact G1|]. split; [exact G2|lia].
Qed.

Lemma plenty_run : forall g0 es s s', Size <= 256 -> 0 <= B -> B + Size <= 65536 -> plenty g0 s ->
  br_run lf sf B Size s es = Some s' -> plenty g0 s'.
Proof.
  intros g0 es. induction es as [|e es IH]; intros s s' HS HB HBS H E; cbn [br_run] in E.
  - congruence.
  - destruct (br_step lf sf B Size s e) as [s1|] eqn:E1; [|discriminate].
    apply (IH s1 s' HS HB HBS); [|exact E]. exact (plenty_step g0 s e s1 HS HB HBS H E1).
Qed.

Lemma br_not_empty_l : forall m evs s es s', Size <= 256 -> 0 <= B -> B + Size <= 65536 ->
  br_polite lf sf B Size (br_init m) false evs = true ->
  br_run lf sf B Size (br_init m) evs = Some s -> br_pc s = CIdle ->
  ring_length Size (br_ring s) > 0 ->
  br_run lf sf B Size s (BrStart :: es) = Some s' ->
  br_got s' <> br_got s ++ [-1].
Proof.
  intros m evs s es s' HS HB HBS HP HE Hpc HL HR HD.
  destruct (br_run_inv evs _ _ _ (br_init_inv m) HP) as [s0 [seen [q [E [Hb H]]]]].
  rewrite E in HE. injection HE as ->. rewrite Hpc in H. destruct H as [H1 H2].
  rewrite (holds_length Size HSize _ _ H1) in HL.
  cbn [br_run br_step] in HR. rewrite Hpc in HR.
  assert (R0 : plenty (br_got s) (mkBr (br_ring s) (br_ien s) CCmp (br_got s) (br_acc s))).
  { left. cbn [br_pc br_got br_ring]. split; [reflexivity|]. exists q. split; [exact H1|]. split; [exact Hb|lia]. }
  pose proof (plenty_run _ es _ _ HS HB HBS R0 HR) as [[R _]|[v [ext [R Hv]]]].
  - rewrite R in HD. apply (f_equal (@length _)) in HD. rewrite app_length in HD. cbn [length] in HD. lia.
  - rewrite R in HD. apply app_inv_head in HD. injection HD as -> _. unfold is_byte in Hv. lia.
Qed.

Lemma br_enabled_l : forall m evs s, br_polite lf sf B Size (br_init m) false evs = true ->
  br_run lf sf B Size (br_init m) evs = Some s -> br_pc s = CIdle -> ring_length Size (br_ring s) = 0 ->
  br_run lf sf B Size s br_read = Some (mkBr (br_ring s) true CIdle (br_got s ++ [-1]) (br_acc s)).
Proof.
  intros m evs s HP HR HI HL. destruct (br_run_inv evs _ _ _ (br_init_inv m) HP) as [s1 [seen [q [E [_ H]]]]].
  rewrite HR in E. injection E as <-. destruct s as [r ien pc got acc]. cbn [br_pc br_ring br_acc br_got] in *. subst pc.
  destruct H as [H _]. assert (Q := holds_length Size HSize _ _ H). rewrite HL in Q. destruct H as (H1 & _ & H3 & _).
  rewrite <- Q, Z.add_0_r in H3. assert (W : rb_wr r = rb_rd r).
  { rewrite H3. unfold wrap. destruct (Z.geb_spec (rb_rd r) Size); lia. }
  unfold br_read. cbn [repeat]. cbn [br_run br_step br_main br_pc br_ring br_ien br_got br_acc].
  rewrite join_same. replace (B + rb_wr r - B) with (rb_rd r) by lia. rewrite (proj2 (Z.geb_le _ _) (Z.le_refl _)).
  unfold sub_len. rewrite Z.sub_diag. change (u16 0 >? 0) with false.
  cbn [br_run br_step br_main br_pc br_ring br_ien br_got br_acc]. reflexivity.
Qed.
End S.

(** ** Which values are offered and stored *)
Lemma bt_calls_step : forall lf sf B Size s e s', bt_step lf sf B Size s e = Some s' ->
  bt_offered s' = bt_offered s ++ (match e, bt_pc s with BtStart v, BIdle => [u8 v] | _, _ => [] end).
Proof.
  intros lf sf B Size s e s' E. unfold bt_offered. destruct e as [v| |]; cbn [bt_step] in E.
  - destruct (bt_pc s) eqn:P; injection E as <-; cbn [bt_done bt_pc]; rewrite ?P, ?app_nil_r; reflexivity.
  - unfold bt_main in E. cbv zeta in E. destruct (bt_pc s) eqn:P; repeat match type of E with (if ?b then _ else _) = _ => destruct b; [|try discriminate E] end; injection E as <-;
      cbn [bt_done bt_pc]; rewrite ?P, ?app_nil_r, ?map_app; reflexivity.
  - rewrite app_nil_r. unfold bt_isr in E. destruct (bt_ien s); [|now injection E as <-]. destruct (negb _); [|now injection E as <-].
    destruct (ring_read Size (bt_ring s)) as [[r v]|]; [now injection E as <-|discriminate E].
Qed.
Lemma bt_calls_run : forall lf sf B Size evs s s', bt_run lf sf B Size s evs = Some s' ->
  bt_offered s' = bt_offered s ++ map u8 (bt_calls lf sf B Size s evs).
Proof.
  intros lf sf B Size. induction evs as [|e evs IH]; intros s s' E; cbn [bt_run bt_calls] in *.
  - injection E as <-. cbn [map]. now rewrite app_nil_r.
  - destruct (bt_step lf sf B Size s e) as [s1|] eqn:E1; [|discriminate E].
    rewrite (IH _ _ E), (bt_calls_step _ _ _ _ _ _ _ E1), <- app_assoc. f_equal.
    rewrite map_app. f_equal. destruct e; try reflexivity. destruct (bt_pc s); reflexivity.
Qed.
Lemma br_stores_l : forall lf sf B Size s e s', br_step lf sf B Size s e = Some s' ->
  br_acc s' = br_acc s \/ exists x, e = BrIsr x true /\ br_ien s = true /\ br_acc s' = br_acc s ++ [u8 x].
Proof.
  intros lf sf B Size s e s' E. destruct e as [| |x ok]; cbn [br_step] in E.
  - left. destruct (br_pc s); injection E as <-; reflexivity.
  - left. unfold br_main in E. cbv zeta in E. destruct (br_pc s); repeat match type of E with (if ?b then _ else _) = _ => destruct b; [|try discriminate E] end; injection E as <-; reflexivity.
  - unfold br_isr in E. destruct (br_ien s) eqn:I, ok; cbn [andb] in E; try (left; injection E as <-; reflexivity).
    destruct (ring_write Size (br_ring s) (u8 x)) as [[r b]|]; [|discriminate E]. injection E as <-. cbn [br_acc].
    destruct b; [right; exists x; auto|left; reflexivity].
Qed.
