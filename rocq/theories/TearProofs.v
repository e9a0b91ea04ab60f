(** Invariants of the interrupt shared ring buffers, byte by byte. *)
Require Import ZArith List Bool Lia ZifyBool.
Import ListNotations.
From Verif Require Import Base BaseFacts RingModel RingSpec RingProofs StreamSpec StreamProofs
  TearModel TearSpec.
Open Scope Z_scope.

Lemma join_same : forall lf p, join lf (byte1 lf p) p = p.
Proof.
  intros lf p. pose proof (Z.div_mod p 256 ltac:(discriminate)) as H. unfold join, byte1, glue.
  destruct lf; clear - H; lia.
Qed.

Section S.
Variables (lf sf : bool) (B Size : Z).
Hypothesis HSize : 1 <= Size <= 65535.

Definition fin (i : Z) : Z := if i >=? Size then 0 else i.

Lemma fin_wrap : forall rd n, 0 <= rd < Size -> 0 <= n < Size - 1 ->
  fin (wrap Size (rd + n) + 1) = wrap Size (rd + (n + 1)).
Proof.
  intros rd n Hr Hn. unfold fin, wrap.
  destruct (Z.geb_spec (rd + n) Size); destruct (Z.geb_spec (rd + (n + 1)) Size).
  all: try (destruct (Z.geb_spec (rd + n - Size + 1) Size); lia).
  all: destruct (Z.geb_spec (rd + n + 1) Size); lia.
Qed.

(** ** Transmit *)

Definition mid (s : btx) (seen : bool) (q : list Z) (f v : Z) : Prop :=
  holds Size (set_wr (bt_ring s) f) q /\ accepted (bt_done s) ++ [v] = bt_sent s ++ q /\
  (bt_window Size s = true -> seen = false -> q <> []).

Definition bt_inv (s : btx) (seen : bool) (q : list Z) : Prop :=
  Forall is_byte q /\
  match bt_pc s with
  | BIdle => holds Size (bt_ring s) q /\ accepted (bt_done s) = bt_sent s ++ q /\
             (q <> [] -> bt_ien s = true)
  | BLoad v => is_byte v /\ holds Size (bt_ring s) q /\ accepted (bt_done s) = bt_sent s ++ q
  | BCheck v b => is_byte v /\ holds Size (bt_ring s) q /\ accepted (bt_done s) = bt_sent s ++ q /\
      (Z.of_nat (length q) = Size - 1 -> b = byte1 lf (B + rb_rd (bt_ring s)))
  | BStore v => is_byte v /\ holds Size (bt_ring s) q /\ accepted (bt_done s) = bt_sent s ++ q /\
                Z.of_nat (length q) < Size - 1
  | BInc v => is_byte v /\ holds Size (bt_ring s) q /\ accepted (bt_done s) = bt_sent s ++ q /\
              Z.of_nat (length q) < Size - 1 /\ rb_mem (bt_ring s) (rb_wr (bt_ring s)) = v
  | BIncMid v old => 0 <= old < Size /\ mid s seen q (fin (old + 1)) v /\
      (rb_wr (bt_ring s) = old -> q <> [])
  | BWrap v => 0 <= rb_wr (bt_ring s) <= Size /\ mid s seen q (fin (rb_wr (bt_ring s))) v
  | BWrapMid v => mid s seen q 0 v
  | BEnable => holds Size (bt_ring s) q /\ accepted (bt_done s) = bt_sent s ++ q
  end.

(** Reading does not look at the write cursor. *)
Lemma read_any : forall m f w rd x (q : list Z), holds Size (mkRing m f rd) (x :: q) ->
  exists rd', ring_read Size (mkRing m w rd) = Some (mkRing m w rd', x) /\
    holds Size (mkRing m f rd') q.
Proof.
  intros m f w rd x q H. destruct (holds_read Size HSize _ _ _ H) as [r' [E H']].
  unfold ring_read in *. cbn [rb_rd rb_mem rb_wr] in *. destruct (inb rd Size); [|discriminate].
  injection E as <- <-. eexists. split; [reflexivity|exact H'].
Qed.

(** The handler in a state where the stored write cursor is [w] but the queue ends at [f]. *)
Lemma isr_any : forall m f w rd q pc sent done,
  holds Size (mkRing m f rd) q -> Forall is_byte q ->
  (ring_length Size (mkRing m w rd) <> 0 -> q <> []) ->
  (ring_length Size (mkRing m w rd) = 0 /\
   bt_isr Size (mkBt (mkRing m w rd) true pc sent done)
   = Some (mkBt (mkRing m w rd) false pc sent done)) \/
  (ring_length Size (mkRing m w rd) <> 0 /\ exists x q' rd', q = x :: q' /\
   bt_isr Size (mkBt (mkRing m w rd) true pc sent done)
   = Some (mkBt (mkRing m w rd') true pc (sent ++ [x]) done) /\ holds Size (mkRing m f rd') q').
Proof.
  intros m f w rd q pc sent done H Hb Hl. unfold bt_isr. cbn [bt_ien bt_ring bt_pc bt_sent bt_done].
  destruct (Z.eqb_spec (ring_length Size (mkRing m w rd)) 0) as [E|E]; cbn [negb].
  - left. auto.
  - right. split; [exact E|]. specialize (Hl E). destruct q as [|x q']; [now elim Hl|].
    destruct (read_any m f w rd x q' H) as [rd' [E' H']]. exists x, q', rd'.
    split; [reflexivity|]. rewrite E'. inversion Hb as [|? ? Hx _]. rewrite (u8_small x Hx). auto.
Qed.

(** With the old write cursor still in place the handler sees one item less. *)
Lemma old_length : forall (m : Z -> Z) old rd (q : list Z), 0 <= old < Size -> q <> [] ->
  holds Size (mkRing m (fin (old + 1)) rd) q ->
  ring_length Size (mkRing m old rd) = Z.of_nat (length q) - 1.
Proof.
  intros m old rd q Ho Hq [Hr [Hl [Hw _]]]. unfold ring_length. cbn [rb_wr rb_rd] in *.
  destruct q as [|x q]; [now elim Hq|]. cbn [length] in *. unfold fin, wrap in Hw.
  destruct (Z.geb_spec (old + 1) Size);
    destruct (Z.geb_spec (rd + Z.of_nat (S (length q))) Size);
    destruct (Z.geb_spec old rd); rewrite u16_small; lia.
Qed.

Definition bt_isr_ev (s : btx) (e : btev) : bool := match e with BtIsr => bt_ien s | _ => false end.

Lemma holds_eq : forall m f w rd (q : list Z), f = w -> holds Size (mkRing m f rd) q ->
  holds Size (mkRing m w rd) q.
Proof. intros; now subst. Qed.

Lemma bt_step_inv : forall s seen q e, bt_inv s seen q ->
  bt_window Size s && bt_isr_ev s e && seen = false ->
  exists s' q', bt_step lf sf B Size s e = Some s' /\
    bt_inv s' (bt_window Size s' && bt_window Size s && (seen || bt_isr_ev s e)) q'.
Proof.
  intros s seen q e [Hb Hinv] Hg. destruct s as [[m w rd] ien pc sent done]. destruct e as [v| |].
  - (* start *)
    unfold bt_isr_ev. rewrite orb_false_r.
    destruct pc as [|v0|v0 b|v0|v0|v0 old|v0|v0|]; cbn [bt_step bt_pc bt_ring bt_ien bt_sent bt_done] in *.
    1:{ eexists. exists q. split; [reflexivity|]. split; [exact Hb|].
        cbn [bt_pc bt_ring bt_ien bt_sent bt_done]. split; [apply u8_range|]. tauto. }
    all: eexists; exists q; (split; [reflexivity|]); (split; [exact Hb|]);
      cbn [bt_pc bt_ring bt_ien bt_sent bt_done]; try exact Hinv.
    + destruct Hinv as [H1 [[H2 [H3 H4]] H5]]. split; [exact H1|]. split; [|exact H5].
      split; [exact H2|]. split; [exact H3|]. intros E1 E2. apply H4; [exact E1|].
      rewrite E1 in E2. exact E2.
    + destruct Hinv as [H1 [H2 [H3 H4]]]. split; [exact H1|].
      split; [exact H2|]. split; [exact H3|]. intros E1 E2. apply H4; [exact E1|].
      rewrite E1 in E2. exact E2.
    + destruct Hinv as [H2 [H3 H4]].
      split; [exact H2|]. split; [exact H3|]. intros E1 E2. apply H4; [exact E1|].
      rewrite E1 in E2. exact E2.
  - (* main step *)
    unfold bt_isr_ev. rewrite orb_false_r. cbn [bt_step]. unfold bt_main.
    destruct pc as [|v0|v0 b|v0|v0|v0 old|v0|v0|]; cbn [bt_pc bt_ring bt_ien bt_sent bt_done set_wr rb_mem rb_wr rb_rd] in *.
    + eexists. exists q. split; [reflexivity|]. split; [exact Hb|]. exact Hinv.
    + destruct Hinv as [H1 [H2 H3]]. eexists. exists q. split; [reflexivity|]. split; [exact Hb|].
      cbn [bt_pc bt_ring bt_ien bt_sent bt_done]. auto.
    + destruct Hinv as [Hv [H1 [H2 H3]]].
      pose proof (holds_write Size HSize _ q v0 H1) as [r' [E _]]. unfold ring_write in E.
      cbn [rb_mem rb_wr rb_rd] in E.
      destruct (if w + 1 >=? Size then 0 =? join lf b (B + rd) - B
                else w + 1 =? join lf b (B + rd) - B) eqn:EC.
      * eexists. exists q. split; [reflexivity|]. split; [exact Hb|].
        cbn [bt_pc bt_ring bt_ien bt_sent bt_done]. split; [exact H1|].
        rewrite accepted_snoc. now rewrite app_nil_r.
      * eexists. exists q. split; [reflexivity|]. split; [exact Hb|].
        cbn [bt_pc bt_ring bt_ien bt_sent bt_done]. split; [exact Hv|]. split; [exact H1|].
        split; [exact H2|].
        destruct (Z.eq_dec (Z.of_nat (length q)) (Size - 1)) as [Ef|Nf].
        2:{ destruct H1 as [_ [Hq _]]. lia. }
        exfalso. specialize (H3 Ef). cbn [rb_rd] in H3. subst b. rewrite join_same in EC.
        replace (B + rd - B) with rd in EC by lia. rewrite EC in E.
        destruct (inb w Size); [|discriminate]. injection E as _ E. lia.
    + destruct Hinv as [Hv [H1 [H2 H3]]]. pose proof (holds_wr Size _ _ _ H1) as Hwr.
      cbn [rb_wr] in Hwr.
      assert (Hin : inb w Size = true) by (apply inb_true; lia). rewrite Hin.
      eexists. exists q. split; [reflexivity|]. split; [exact Hb|].
      cbn [bt_pc bt_ring bt_ien bt_sent bt_done set_wr rb_mem rb_wr rb_rd].
      split; [exact Hv|]. split; [exact (holds_store Size HSize _ _ _ v0 H1)|].
      split; [exact H2|]. split; [exact H3|]. apply upd_same.
    + destruct Hinv as [Hv [H1 [H2 [H3 H4]]]]. pose proof (holds_wr Size _ _ _ H1) as Hwr.
      cbn [rb_mem rb_wr rb_rd] in *.
      eexists. exists (q ++ [v0]). split; [reflexivity|]. split.
      { apply Forall_app. split; [exact Hb|]. constructor; [exact Hv|constructor]. }
      assert (Hne : q ++ [v0] <> []) by (destruct q; discriminate).
      cbn [bt_pc bt_ring bt_ien bt_sent bt_done set_wr rb_mem rb_wr rb_rd].
      split; [exact Hwr|]. split; [|intros _; exact Hne].
      split; [exact (holds_inc Size HSize _ _ _ v0 H1 H3 H4)|].
      split; [|intros _ _; exact Hne]. cbn [bt_done bt_sent]. rewrite H2, <- app_assoc. reflexivity.
    + destruct Hinv as [H1 [[H2 [H3 H4]] H5]].
      eexists. exists q. split; [reflexivity|]. split; [exact Hb|].
      cbn [bt_pc bt_ring bt_ien bt_sent bt_done set_wr rb_mem rb_wr rb_rd].
      split; [lia|]. split; [exact H2|]. split; [exact H3|].
      intros E1 E2. rewrite E1 in E2. cbn [andb] in E2.
      unfold bt_window in E1. cbn [bt_pc bt_ring set_wr rb_wr] in E1.
      destruct (bt_window Size (mkBt (mkRing m w rd) ien (BIncMid v0 old) sent done)) eqn:Ew.
      * apply H4; [reflexivity|]. exact E2.
      * unfold bt_window in Ew. cbn [bt_pc bt_ring rb_wr] in Ew.
        destruct (Z.eqb_spec w old) as [->|]; [now apply H5|]. cbn [negb andb] in Ew.
        destruct (Z.eqb_spec w (old + 1)); [|discriminate].
        destruct (Z.ltb_spec w Size); [lia|discriminate].
    + destruct Hinv as [H1 [H2 [H3 H4]]]. cbn [rb_wr] in *.
      destruct (Z.geb_spec w Size) as [Hge|Hlt].
      * eexists. exists q. split; [reflexivity|]. split; [exact Hb|].
        cbn [bt_pc bt_ring bt_ien bt_sent bt_done set_wr rb_mem rb_wr rb_rd].
        assert (Ef : fin w = 0).
        { unfold fin. destruct (Z.geb_spec w Size); [reflexivity|lia]. }
        split; [rewrite Ef in H2; exact H2|]. split; [exact H3|]. intros E1 E2.
        assert (Ew : bt_window Size (mkBt (mkRing m w rd) ien (BWrap v0) sent done) = true).
        { unfold bt_window. cbn [bt_pc bt_ring rb_wr]. lia. }
        rewrite E1, Ew in E2. apply H4; [exact Ew|exact E2].
      * eexists. exists q. split; [reflexivity|]. split; [exact Hb|].
        cbn [bt_pc bt_ring bt_ien bt_sent bt_done]. split.
        { apply (holds_eq m (fin w)); [|exact H2]. unfold fin. destruct (Z.geb_spec w Size); lia. }
        rewrite accepted_snoc. exact H3.
    + destruct Hinv as [H2 [H3 H4]].
      eexists. exists q. split; [reflexivity|]. split; [exact Hb|].
      cbn [bt_pc bt_ring bt_ien bt_sent bt_done]. split; [exact H2|].
      rewrite accepted_snoc. exact H3.
    + destruct Hinv as [H1 H2].
      eexists. exists q. split; [reflexivity|]. split; [exact Hb|].
      cbn [bt_pc bt_ring bt_ien bt_sent bt_done]. auto.
  - (* handler *)
    unfold bt_isr_ev in *. cbn [bt_step]. destruct ien.
    2:{ unfold bt_isr. cbn [bt_ien] in *. rewrite orb_false_r. eexists. exists q.
        split; [reflexivity|]. split; [exact Hb|].
        destruct pc as [|v0|v0 b|v0|v0|v0 old|v0|v0|]; cbn [bt_pc bt_ring bt_ien bt_sent bt_done] in *;
          try exact Hinv.
        - destruct Hinv as [H1 [[H2 [H3 H4]] H5]]. split; [exact H1|]. split; [|exact H5].
          split; [exact H2|]. split; [exact H3|]. intros E1 E2. apply H4; [exact E1|].
          rewrite E1 in E2. exact E2.
        - destruct Hinv as [H1 [H2 [H3 H4]]]. split; [exact H1|].
          split; [exact H2|]. split; [exact H3|]. intros E1 E2. apply H4; [exact E1|].
          rewrite E1 in E2. exact E2.
        - destruct Hinv as [H2 [H3 H4]].
          split; [exact H2|]. split; [exact H3|]. intros E1 E2. apply H4; [exact E1|].
          rewrite E1 in E2. exact E2. }
    cbn [bt_ien] in *. rewrite orb_true_r, andb_true_r in *.
    (* the cursor at which the queue really ends *)
    assert (HF : exists f, holds Size (mkRing m f rd) q /\
      (ring_length Size (mkRing m w rd) <> 0 -> q <> [])).
    { destruct pc as [|v0|v0 b|v0|v0|v0 old|v0|v0|]; cbn [bt_pc bt_ring bt_ien bt_sent bt_done] in Hinv.
      6:{ destruct Hinv as [H1 [[H2 [H3 H4]] H5]]. exists (fin (old + 1)).
          split; [exact H2|]. intros HL.
          destruct (bt_window Size (mkBt (mkRing m w rd) true (BIncMid v0 old) sent done)) eqn:Ew.
          - apply H4; [reflexivity|]. rewrite andb_true_l in Hg. exact Hg.
          - unfold bt_window in Ew. cbn [bt_pc bt_ring rb_wr] in Ew.
            destruct (Z.eqb_spec w old) as [->|]; [now apply H5|]. cbn [negb andb] in Ew.
            destruct (Z.eqb_spec w (old + 1)); [|discriminate].
            destruct (Z.ltb_spec w Size); [|discriminate].
            assert (HQ : holds Size (mkRing m w rd) q).
            { apply (holds_eq m (fin (old + 1))); [|exact H2]. unfold fin.
              destruct (Z.geb_spec (old + 1) Size); lia. }
            rewrite (holds_length Size HSize _ _ HQ) in HL. now destruct q. }
      6:{ destruct Hinv as [H1 [H2 [H3 H4]]]. cbn [rb_wr] in *. exists (fin w).
          split; [exact H2|]. intros HL.
          destruct (bt_window Size (mkBt (mkRing m w rd) true (BWrap v0) sent done)) eqn:Ew.
          - apply H4; [reflexivity|]. rewrite andb_true_l in Hg. exact Hg.
          - unfold bt_window in Ew. cbn [bt_pc bt_ring rb_wr] in Ew.
            assert (HQ : holds Size (mkRing m w rd) q).
            { apply (holds_eq m (fin w)); [|exact H2]. unfold fin.
              destruct (Z.geb_spec w Size); lia. }
            rewrite (holds_length Size HSize _ _ HQ) in HL. now destruct q. }
      6:{ destruct Hinv as [H2 [H3 H4]]. exists 0. split; [exact H2|]. intros HL.
          destruct (bt_window Size (mkBt (mkRing m w rd) true (BWrapMid v0) sent done)) eqn:Ew.
          - apply H4; [reflexivity|]. rewrite andb_true_l in Hg. exact Hg.
          - unfold bt_window in Ew. cbn [bt_pc bt_ring rb_wr] in Ew.
            assert (HQ : holds Size (mkRing m w rd) q).
            { apply (holds_eq m 0); [|exact H2]. lia. }
            rewrite (holds_length Size HSize _ _ HQ) in HL. now destruct q. }
      all: exists w; (assert (HQ : holds Size (mkRing m w rd) q) by tauto);
        (split; [exact HQ|]); rewrite (holds_length Size HSize _ _ HQ); now destruct q. }
    destruct HF as [f0 [Hf0 Hl]].
    destruct (isr_any m f0 w rd q pc sent done Hf0 Hb Hl) as [[HL E]|[HL [x [q' [rd' [Eq [E _]]]]]]].
    + rewrite E. eexists. exists q. split; [reflexivity|]. split; [exact Hb|].
      destruct pc as [|v0|v0 b|v0|v0|v0 old|v0|v0|]; cbn [bt_pc bt_ring bt_ien bt_sent bt_done] in *;
        try tauto.
      * destruct Hinv as [H1 [H2 H3]]. split; [exact H1|]. split; [exact H2|].
        rewrite (holds_length Size HSize _ _ H1) in HL. destruct q; [now intros H|].
        cbn [length] in HL. lia.
      * destruct Hinv as [H1 [[H2 [H3 H4]] H5]]. split; [exact H1|]. split; [|exact H5].
        split; [exact H2|]. split; [exact H3|]. intros E1 E2. unfold bt_window in *.
        cbn [bt_pc bt_ring] in *. rewrite E1 in E2. discriminate.
      * destruct Hinv as [H1 [H2 [H3 H4]]]. split; [exact H1|]. split; [exact H2|].
        split; [exact H3|]. intros E1 E2. unfold bt_window in *.
        cbn [bt_pc bt_ring] in *. rewrite E1 in E2. discriminate.
      * destruct Hinv as [H2 [H3 H4]]. split; [exact H2|].
        split; [exact H3|]. intros E1 E2. unfold bt_window in *.
        cbn [bt_pc bt_ring] in *. rewrite E1 in E2. discriminate.
    + rewrite E. exists (mkBt (mkRing m w rd') true pc (sent ++ [x]) done), q'.
      split; [reflexivity|]. subst q. inversion Hb as [|? ? Hx Hb']. subst. split; [exact Hb'|].
      assert (HN : forall f, holds Size (mkRing m f rd) (x :: q') -> holds Size (mkRing m f rd') q').
      { intros f H. destruct (read_any m f w rd x q' H) as [rd2 [E2 H2]].
        unfold bt_isr in E. cbn [bt_ien bt_ring bt_pc bt_sent bt_done] in E.
        rewrite E2 in E. destruct (negb (ring_length Size (mkRing m w rd) =? 0)); [|discriminate].
        injection E as E3 _. subst rd2. exact H2. }
      destruct pc as [|v0|v0 b|v0|v0|v0 old|v0|v0|];
        cbn [bt_pc bt_ring bt_ien bt_sent bt_done rb_wr rb_mem rb_rd] in *.
      * destruct Hinv as [H1 [H2 H3]]. split; [now apply HN|]. split; [rewrite app_snoc_assoc; exact H2|auto].
      * destruct Hinv as [H1 [H2 H3]]. split; [exact H1|]. split; [now apply HN|].
        rewrite app_snoc_assoc; exact H3.
      * destruct Hinv as [H1 [H2 [H3 H4]]]. split; [exact H1|]. split; [now apply HN|].
        split; [rewrite app_snoc_assoc; exact H3|]. intros Ef. exfalso. destruct H2 as [_ [Hq _]].
        cbn [length] in Hq. lia.
      * destruct Hinv as [H1 [H2 [H3 H4]]]. split; [exact H1|]. split; [now apply HN|].
        split; [rewrite app_snoc_assoc; exact H3|]. cbn [length] in H4. lia.
      * destruct Hinv as [H1 [H2 [H3 [H4 H5]]]]. split; [exact H1|]. split; [now apply HN|].
        split; [rewrite app_snoc_assoc; exact H3|]. cbn [length] in H4. split; [lia|exact H5].
      * destruct Hinv as [H1 [[H2 [H3 H4]] H5]]. split; [exact H1|].
        cbn [bt_ring set_wr rb_mem rb_rd] in H2. split.
        { split; [now apply HN|]. cbn [bt_done bt_sent] in *.
          split; [rewrite app_snoc_assoc; exact H3|].
          intros E1 E2. unfold bt_window in *. cbn [bt_pc bt_ring rb_wr] in *.
          rewrite E1 in E2. discriminate. }
        intros ->. rewrite (old_length m old rd (x :: q') H1) in HL; [|discriminate|exact H2].
        cbn [length] in HL. destruct q'; [cbn [length] in HL; lia|discriminate].
      * destruct Hinv as [H1 [H2 [H3 H4]]]. split; [exact H1|].
        cbn [bt_ring set_wr rb_mem rb_rd] in H2. split; [now apply HN|]. cbn [bt_done bt_sent] in *.
        split; [rewrite app_snoc_assoc; exact H3|].
        intros E1 E2. unfold bt_window in *. cbn [bt_pc bt_ring rb_wr] in *.
        rewrite E1 in E2. discriminate.
      * destruct Hinv as [H2 [H3 H4]].
        cbn [bt_ring set_wr rb_mem rb_rd] in H2. split; [now apply HN|]. cbn [bt_done bt_sent] in *.
        split; [rewrite app_snoc_assoc; exact H3|].
        intros E1 E2. unfold bt_window in *. cbn [bt_pc bt_ring rb_wr] in *.
        rewrite E1 in E2. discriminate.
      * destruct Hinv as [H1 H2]. split; [now apply HN|]. rewrite app_snoc_assoc; exact H2.
Qed.

Lemma bt_run_inv : forall evs s seen q, bt_inv s seen q -> bt_polite lf sf B Size s seen evs = true ->
  exists s' seen' q', bt_run lf sf B Size s evs = Some s' /\ bt_inv s' seen' q'.
Proof.
  intros evs. induction evs as [|e evs IH]; intros s seen q H HP; cbn [bt_run bt_polite] in *.
  - eauto.
  - fold (bt_isr_ev s e) in HP.
    destruct (bt_window Size s && bt_isr_ev s e && seen) eqn:Hg; [discriminate|].
    destruct (bt_step_inv s seen q e H Hg) as [s' [q' [E H']]]. rewrite E in *.
    eapply IH; eassumption.
Qed.

Lemma bt_init_inv : forall m, bt_inv (bt_init m) false [].
Proof.
  intros m. split; [constructor|]. cbn [bt_init bt_pc bt_ring bt_done bt_sent bt_ien].
  split; [apply (holds_clear Size HSize (mkRing m 0 0))|]. split; [reflexivity|].
  intros H; now elim H.
Qed.

Lemma bt_fifo_l : forall m evs, bt_polite lf sf B Size (bt_init m) false evs = true ->
  exists s, bt_run lf sf B Size (bt_init m) evs = Some s /\
    exists rest, accepted (bt_done s) ++ bt_pending (bt_pc s) = bt_sent s ++ rest /\
      Z.of_nat (length rest) <= Size - 1 /\
      (bt_pc s = BIdle -> ring_length Size (bt_ring s) = Z.of_nat (length rest) /\
                          (rest <> [] -> bt_ien s = true)).
Proof.
  intros m evs HP.
  destruct (bt_run_inv evs _ _ _ (bt_init_inv m) HP) as [s [seen [q [E H]]]].
  exists s. split; [exact E|]. exists q. destruct H as [_ H].
  destruct (bt_pc s); cbn [bt_pending]; rewrite ?app_nil_r.
  - destruct H as [H1 [H2 H3]]. pose proof H1 as [_ [Hq _]]. split; [exact H2|]. split; [lia|].
    intros _. split; [now apply holds_length|exact H3].
  - destruct H as [_ [[_ [Hq _]] H2]]. split; [exact H2|]. split; [lia|discriminate].
  - destruct H as [_ [[_ [Hq _]] [H2 _]]]. split; [exact H2|]. split; [lia|discriminate].
  - destruct H as [_ [[_ [Hq _]] [H2 _]]]. split; [exact H2|]. split; [lia|discriminate].
  - destruct H as [_ [[_ [Hq _]] [H2 _]]]. split; [exact H2|]. split; [lia|discriminate].
  - destruct H as [_ [[[_ [Hq _]] [H2 _]] _]]. split; [exact H2|]. split; [lia|discriminate].
  - destruct H as [_ [[_ [Hq _]] [H2 _]]]. split; [exact H2|]. split; [lia|discriminate].
  - destruct H as [[_ [Hq _]] [H2 _]]. split; [exact H2|]. split; [lia|discriminate].
  - destruct H as [[_ [Hq _]] H2]. split; [exact H2|]. split; [lia|discriminate].
Qed.

Lemma bt_run_app : forall a b s, bt_run lf sf B Size s (a ++ b) =
  match bt_run lf sf B Size s a with Some s' => bt_run lf sf B Size s' b | None => None end.
Proof.
  intros a. induction a as [|e a IH]; intros b s; cbn [app bt_run]; [reflexivity|].
  destruct (bt_step lf sf B Size s e); [apply IH|reflexivity].
Qed.

(** Draining: from an idle state the handler alone sends everything and then turns itself off. *)
Lemma bt_drain : forall q m w rd sent done, holds Size (mkRing m w rd) q -> Forall is_byte q ->
  exists s', bt_run lf sf B Size (mkBt (mkRing m w rd) true BIdle sent done)
    (repeat BtIsr (S (length q))) = Some s' /\
    bt_sent s' = sent ++ q /\ bt_ien s' = false /\ bt_done s' = done.
Proof.
  intros q. induction q as [|x q IH]; intros m w rd sent done H Hb.
  - cbn [length repeat bt_run bt_step].
    destruct (isr_any m w w rd [] BIdle sent done H Hb) as [[_ E]|[HL _]].
    + rewrite (holds_length Size HSize _ _ H). now intros X.
    + rewrite E. eexists. split; [reflexivity|]. cbn [bt_sent bt_ien bt_done]. now rewrite app_nil_r.
    + rewrite (holds_length Size HSize _ _ H) in HL. now elim HL.
  - change (repeat BtIsr (S (length (x :: q)))) with (BtIsr :: repeat BtIsr (S (length q))).
    cbn [bt_run bt_step].
    destruct (isr_any m w w rd (x :: q) BIdle sent done H Hb) as [[HL _]|[_ [y [q' [rd' [Eq [E H']]]]]]].
    + discriminate.
    + rewrite (holds_length Size HSize _ _ H) in HL. cbn [length] in HL. lia.
    + rewrite E. assert (y = x /\ q' = q) as [-> ->] by (split; congruence).
      inversion Hb as [|? ? _ Hb']. destruct (IH m w rd' (sent ++ [x]) done H' Hb') as [s' [E' [A [C D]]]].
      exists s'. split; [exact E'|]. rewrite A, <- app_assoc. auto.
Qed.

Lemma bt_drains_l : forall m evs s, bt_polite lf sf B Size (bt_init m) false evs = true ->
  bt_run lf sf B Size (bt_init m) evs = Some s -> bt_pc s = BIdle ->
  exists n s', bt_run lf sf B Size (bt_init m) (evs ++ repeat BtIsr n) = Some s' /\
    bt_sent s' = accepted (bt_done s) /\ bt_done s' = bt_done s /\ bt_ien s' = false.
Proof.
  intros m evs s HP HE Hpc.
  destruct (bt_run_inv evs _ _ _ (bt_init_inv m) HP) as [s0 [seen [q [E [Hb H]]]]].
  rewrite E in HE. injection HE as ->. rewrite Hpc in H. destruct H as [H1 [H2 H3]].
  destruct s as [[m' w rd] ien pc sent done]. cbn [bt_pc bt_ring bt_ien bt_sent bt_done] in *.
  subst pc. destruct ien.
  - destruct (bt_drain q m' w rd sent done H1 Hb) as [s' [E' [A [C D]]]].
    exists (S (length q)), s'. rewrite bt_run_app, E. rewrite H2. auto.
  - exists 0%nat. eexists. cbn [repeat]. rewrite app_nil_r. split; [exact E|].
    cbn [bt_sent bt_done bt_ien]. split; [|auto]. destruct q as [|x q]; [now rewrite H2, app_nil_r|].
    assert (false = true) by (apply H3; discriminate). discriminate.
Qed.

(** ** A buffer of at most 256 bytes: a torn cursor is recognised by its low byte. *)
Lemma join_small : forall a b t, Size <= 256 -> 0 <= a < Size -> 0 <= b < Size -> 0 <= t < Size ->
  t = join lf (byte1 lf (B + a)) (B + b) - B -> t = a \/ t = b.
Proof.
  intros a b t HS Ha Hb Ht E. unfold join, byte1, glue in E. clear HSize. destruct lf.
  - left. assert (M : (B + t) mod 256 = (B + a) mod 256).
    { replace (B + t) with ((B + a) mod 256 + ((B + b) / 256) * 256) by lia.
      rewrite Z.mod_add by discriminate. now rewrite Z.mod_mod. }
    clear E. pose proof (Z.div_mod (B + t) 256 ltac:(discriminate)).
    pose proof (Z.div_mod (B + a) 256 ltac:(discriminate)). lia.
  - right. assert (M : (B + t) mod 256 = (B + b) mod 256).
    { replace (B + t) with ((B + b) mod 256 + ((B + a) / 256) * 256) by lia.
      rewrite Z.mod_add by discriminate. now rewrite Z.mod_mod. }
    clear E. pose proof (Z.div_mod (B + t) 256 ltac:(discriminate)).
    pose proof (Z.div_mod (B + b) 256 ltac:(discriminate)). lia.
Qed.

(** While a Write that began with room goes on. *)
Definition roomy (v : Z) (d0 : list (Z * bool)) (s : btx) : Prop :=
  (match bt_pc s with
   | BLoad x => x = v /\ bt_done s = d0 /\
       exists q, holds Size (bt_ring s) q /\ Forall is_byte q /\ Z.of_nat (length q) < Size - 1
   | BCheck x b => x = v /\ bt_done s = d0 /\
       exists q r1 n, holds Size (bt_ring s) q /\ Forall is_byte q /\ 0 <= r1 < Size /\
         0 <= n < Size - 1 /\ b = byte1 lf (B + r1) /\ rb_wr (bt_ring s) = wrap Size (r1 + n) /\
         Z.of_nat (length q) <= n
   | BStore x | BInc x | BIncMid x _ | BWrap x | BWrapMid x => x = v /\ bt_done s = d0
   | _ => False
   end) \/ exists ext, bt_done s = d0 ++ (v, true) :: ext.

Lemma bt_done_step : forall s e s' , bt_step lf sf B Size s e = Some s' ->
  exists ext, bt_done s' = bt_done s ++ ext.
Proof.
  intros [[m w rd] ien pc sent done] e s' H. destruct e as [v| |]; cbn [bt_step bt_pc] in H.
  - destruct pc; injection H as <-; exists []; cbn [bt_done]; now rewrite app_nil_r.
  - unfold bt_main in H. cbn [bt_ring bt_ien bt_pc bt_sent bt_done rb_mem rb_wr rb_rd] in H.
    destruct pc as [|v0|v0 b|v0|v0|v0 old|v0|v0|];
      repeat match type of H with
      | (if ?c then Some _ else _) = _ => destruct c
      end; try discriminate; injection H as <-; cbn [bt_done];
      first [exists []; now rewrite app_nil_r | eexists; reflexivity].
  - unfold bt_isr in H. cbn [bt_ring bt_ien bt_pc bt_sent bt_done] in H.
    destruct ien; [destruct (negb (ring_length Size (mkRing m w rd) =? 0));
                   [destruct (ring_read Size (mkRing m w rd)) as [[r x]|]|]|];
      try discriminate; injection H as <-; exists []; cbn [bt_done]; now rewrite app_nil_r.
Qed.

Lemma bt_done_run : forall es s s', bt_run lf sf B Size s es = Some s' ->
  exists ext, bt_done s' = bt_done s ++ ext.
Proof.
  intros es. induction es as [|e es IH]; intros s s' E; cbn [bt_run] in E.
  - injection E as <-. exists []. now rewrite app_nil_r.
  - destruct (bt_step lf sf B Size s e) as [s1|] eqn:E1; [|discriminate].
    destruct (bt_done_step _ _ _ E1) as [a Ha]. destruct (IH s1 s' E) as [b Hb].
    exists (a ++ b). rewrite Hb, Ha. now rewrite app_assoc.
Qed.

Lemma roomy_step : forall v d0 s e s', Size <= 256 -> roomy v d0 s ->
  bt_step lf sf B Size s e = Some s' -> roomy v d0 s'.
Proof.
  intros v d0 s e s' HS [H|[ext H]] E.
  2:{ right. destruct (bt_done_step _ _ _ E) as [ext' ->]. rewrite H.
      exists (ext ++ ext'). now rewrite <- app_assoc. }
  destruct s as [[m w rd] ien pc sent done]. cbn [bt_pc bt_ring bt_ien bt_sent bt_done] in H.
  destruct e as [v1| |].
  - cbn [bt_step bt_pc] in E. destruct pc; try contradiction; injection E as <-; left; exact H.
  - cbn [bt_step] in E. unfold bt_main in E.
    cbn [bt_ring bt_ien bt_pc bt_sent bt_done rb_mem rb_wr rb_rd] in E.
    destruct pc as [|v0|v0 b|v0|v0|v0 old|v0|v0|]; try contradiction.
    + injection E as <-. left. destruct H as [-> [-> [q [H1 [Hb H2]]]]].
      cbn [bt_pc bt_ring bt_done rb_wr]. split; [reflexivity|]. split; [reflexivity|].
      pose proof H1 as [Hr [Hq [Hw _]]]. cbn [rb_rd rb_wr] in *.
      exists q, rd, (Z.of_nat (length q)). repeat (split; [first [assumption|lia|reflexivity]|]). lia.
    + destruct H as [-> [-> [q [r1 [n [H1 [Hb [Hr1 [Hn [-> [Hw Hl]]]]]]]]]]]. cbn [rb_wr] in Hw.
      destruct (if w + 1 >=? Size then 0 =? join lf (byte1 lf (B + r1)) (B + rd) - B
                else w + 1 =? join lf (byte1 lf (B + r1)) (B + rd) - B) eqn:EC.
      * exfalso. pose proof H1 as [Hr [Hq [Hw2 _]]]. cbn [rb_rd rb_wr] in *.
        pose proof (fin_wrap r1 n Hr1 Hn) as HF. rewrite <- Hw in HF.
        assert (ET : fin (w + 1) = join lf (byte1 lf (B + r1)) (B + rd) - B).
        { unfold fin. destruct (w + 1 >=? Size); apply Z.eqb_eq; exact EC. }
        assert (HT : 0 <= fin (w + 1) < Size).
        { rewrite HF. unfold wrap. destruct (Z.geb_spec (r1 + (n + 1)) Size); lia. }
        destruct (join_small r1 rd _ HS Hr1 Hr HT ET) as [X|X].
        -- rewrite HF in X. unfold wrap in X. destruct (Z.geb_spec (r1 + (n + 1)) Size); lia.
        -- unfold fin in X. unfold wrap in Hw2.
           destruct (Z.geb_spec (w + 1) Size);
             destruct (Z.geb_spec (rd + Z.of_nat (length q)) Size); lia.
      * injection E as <-. left. cbn [bt_pc bt_done]. auto.
    + destruct (inb w Size); [|discriminate]. injection E as <-. left. exact H.
    + injection E as <-. left. exact H.
    + injection E as <-. left. exact H.
    + destruct H as [-> ->]. destruct (w >=? Size); injection E as <-.
      * left. cbn [bt_pc bt_done]. auto.
      * right. exists []. reflexivity.
    + destruct H as [-> ->]. injection E as <-. right. exists []. reflexivity.
  - cbn [bt_step] in E. destruct ien.
    2:{ unfold bt_isr in E. cbn [bt_ien] in E. injection E as <-. left. exact H. }
    assert (HG : bt_done s' = done /\ bt_pc s' = pc).
    { unfold bt_isr in E. cbn [bt_ring bt_ien bt_pc bt_sent bt_done] in E.
      destruct (negb (ring_length Size (mkRing m w rd) =? 0));
        [destruct (ring_read Size (mkRing m w rd)) as [[r x]|]|];
      try discriminate; injection E as <-; auto. }
    destruct HG as [Ed Ep]. left. rewrite Ed, Ep.
    destruct pc as [|v0|v0 b|v0|v0|v0 old|v0|v0|]; try exact H.
    + destruct H as [H0 [H00 [q [H1 [Hb H2]]]]]. split; [exact H0|]. split; [exact H00|].
      destruct (isr_any m w w rd q (BLoad v0) sent done H1 Hb) as [[_ E1]|[_ [x [q' [rd' [Eq [E1 H']]]]]]].
      { rewrite (holds_length Size HSize _ _ H1). now destruct q. }
      * rewrite E1 in E. injection E as <-. exists q. auto.
      * rewrite E1 in E. injection E as <-. exists q'. subst q. inversion Hb.
        cbn [length] in H2. split; [exact H'|]. split; [assumption|lia].
    + destruct H as [H0 [H00 [q [r1 [n [H1 [Hb [Hr1 [Hn [Eb [Hw Hl]]]]]]]]]]].
      split; [exact H0|]. split; [exact H00|].
      destruct (isr_any m w w rd q (BCheck v0 b) sent done H1 Hb) as [[_ E1]|[_ [x [q' [rd' [Eq [E1 H']]]]]]].
      { rewrite (holds_length Size HSize _ _ H1). now destruct q. }
      * rewrite E1 in E. injection E as <-. exists q, r1, n. auto 10.
      * rewrite E1 in E. injection E as <-. exists q', r1, n. subst q. inversion Hb.
        cbn [length] in Hl. repeat (split; [first [assumption|lia]|]). lia.
Qed.

Lemma roomy_run : forall v d0 es s s', Size <= 256 -> roomy v d0 s ->
  bt_run lf sf B Size s es = Some s' -> roomy v d0 s'.
Proof.
  intros v d0 es. induction es as [|e es IH]; intros s s' HS H E; cbn [bt_run] in E.
  - congruence.
  - destruct (bt_step lf sf B Size s e) as [s1|] eqn:E1; [|discriminate].
    apply (IH s1 s' HS); [|exact E]. exact (roomy_step v d0 s e s1 HS H E1).
Qed.

Lemma bt_refused_l : forall m evs s v es s', Size <= 256 ->
  bt_polite lf sf B Size (bt_init m) false evs = true ->
  bt_run lf sf B Size (bt_init m) evs = Some s -> bt_pc s = BIdle ->
  bt_run lf sf B Size s (BtStart v :: es) = Some s' ->
  bt_done s' = bt_done s ++ [(u8 v, false)] ->
  ring_length Size (bt_ring s) = Size - 1.
Proof.
  intros m evs s v es s' HS HP HE Hpc HR HD.
  destruct (bt_run_inv evs _ _ _ (bt_init_inv m) HP) as [s0 [seen [q [E [Hb H]]]]].
  rewrite E in HE. injection HE as ->. rewrite Hpc in H. destruct H as [H1 [H2 H3]].
  rewrite (holds_length Size HSize _ _ H1).
  destruct (Z.eq_dec (Z.of_nat (length q)) (Size - 1)) as [Ef|Nf]; [exact Ef|]. exfalso.
  assert (Hlt : Z.of_nat (length q) < Size - 1) by (destruct H1 as [_ [Hq _]]; lia).
  cbn [bt_run bt_step] in HR. rewrite Hpc in HR.
  assert (R0 : roomy (u8 v) (bt_done s) (mkBt (bt_ring s) (bt_ien s) (BLoad (u8 v)) (bt_sent s) (bt_done s))).
  { left. cbn [bt_pc bt_done bt_ring]. split; [reflexivity|]. split; [reflexivity|]. eauto. }
  pose proof (roomy_run _ _ es _ _ HS R0 HR) as [R|[ext R]].
  - assert (X : bt_done s' = bt_done s) by (destruct (bt_pc s'); tauto).
    rewrite X in HD. apply (f_equal (@length _)) in HD. rewrite app_length in HD. cbn [length] in HD. lia.
  - rewrite R in HD. apply app_inv_head in HD. discriminate.
Qed.
End S.
