(** Invariants of the interrupt shared ring buffers. *)
Require Import ZArith List Bool Lia ZifyBool.
Import ListNotations.
From Verif Require Import Base BaseFacts RingModel RingSpec RingProofs StreamModel StreamSpec.
Open Scope Z_scope.

Lemma app_snoc_assoc : forall A (a b : list A) x, (a ++ [x]) ++ b = a ++ x :: b.
Proof. intros A a b x. rewrite <- app_assoc. reflexivity. Qed.

Section S.
Variable Size : Z.
Hypothesis HSize : 1 <= Size <= 65535.

Lemma accepted_snoc : forall d v b, accepted (d ++ [(v, b)]) = accepted d ++ (if b then [v] else []).
Proof.
  intros d v b. unfold accepted. rewrite filter_app, map_app. cbn [filter snd].
  now destruct b.
Qed.

(** The ring with the transient write cursor wrapped. *)
Definition wnorm {T} (r : ring T) : ring T :=
  mkRing (rb_mem r) (if rb_wr r >=? Size then 0 else rb_wr r) (rb_rd r).
Definition rnorm {T} (r : ring T) : ring T :=
  mkRing (rb_mem r) (rb_wr r) (if rb_rd r >=? Size then 0 else rb_rd r).

Lemma holds_wr : forall T (r : ring T) q, holds Size r q -> 0 <= rb_wr r < Size.
Proof.
  intros T r q [Hrd [Hq [Hw _]]]. rewrite Hw. unfold wrap.
  destruct (Z.geb_spec (rb_rd r + Z.of_nat (length q)) Size); lia.
Qed.

Definition is_byte (v : Z) : Prop := 0 <= v < 256.

Definition tx_inv (s : txs) (seen : bool) (q : list Z) : Prop :=
  Forall is_byte q /\
  match t_pc s with
  | TIdle => holds Size (t_ring s) q /\ accepted (t_done s) = t_sent s ++ q /\
             (q <> [] -> t_ien s = true)
  | TCheck v => is_byte v /\ holds Size (t_ring s) q /\ accepted (t_done s) = t_sent s ++ q /\
                (q <> [] -> t_ien s = true)
  | TEnable => holds Size (t_ring s) q /\ accepted (t_done s) = t_sent s ++ q
  | TStore v => is_byte v /\ holds Size (t_ring s) q /\ accepted (t_done s) = t_sent s ++ q /\
                Z.of_nat (length q) < Size - 1
  | TInc v => is_byte v /\ holds Size (t_ring s) q /\ accepted (t_done s) = t_sent s ++ q /\
              Z.of_nat (length q) < Size - 1 /\ rb_mem (t_ring s) (rb_wr (t_ring s)) = v
  | TWrap v => 0 <= rb_wr (t_ring s) <= Size /\ holds Size (wnorm (t_ring s)) q /\
               accepted (t_done s) ++ [v] = t_sent s ++ q /\
               (rb_wr (t_ring s) = Size -> seen = false -> 0 < rb_rd (t_ring s))
  end.

(** Storing at the write cursor of a ring that is not full. *)
Lemma holds_store : forall T (r : ring T) q v, holds Size r q ->
  holds Size (mkRing (upd (rb_mem r) (rb_wr r) v) (rb_wr r) (rb_rd r)) q.
Proof.
  intros T r q v H. pose proof (holds_wr _ _ _ H) as Hwr. destruct H as [Hrd [Hq [Hw Hi]]].
  unfold holds. cbn [rb_mem rb_wr rb_rd]. repeat split; try lia.
  rewrite Hi at 1. apply items_ext; try lia.
  intros k Hk. rewrite upd_other; [reflexivity|].
  rewrite Hw. unfold wrap.
  destruct (Z.geb_spec (rb_rd r + k) Size);
    destruct (Z.geb_spec (rb_rd r + Z.of_nat (length q)) Size); lia.
Qed.

(** Advancing the write cursor over a stored item. *)
Lemma holds_inc : forall T (r : ring T) q v, holds Size r q -> Z.of_nat (length q) < Size - 1 ->
  rb_mem r (rb_wr r) = v ->
  holds Size (wnorm (mkRing (rb_mem r) (rb_wr r + 1) (rb_rd r))) (q ++ [v]).
Proof.
  intros T r q v H Hl Hv. pose proof (holds_wr _ _ _ H) as Hwr. destruct H as [Hrd [Hq [Hw Hi]]].
  unfold holds, wnorm. cbn [rb_mem rb_wr rb_rd]. rewrite app_length. cbn [length].
  replace (length q + 1)%nat with (S (length q)) by lia. repeat split; try lia.
  - rewrite Hw. unfold wrap.
    destruct (Z.geb_spec (rb_rd r + Z.of_nat (length q)) Size);
    destruct (Z.geb_spec (rb_rd r + Z.of_nat (S (length q))) Size).
    all: try (destruct (Z.geb_spec (rb_rd r + Z.of_nat (length q) - Size + 1) Size); lia).
    all: destruct (Z.geb_spec (rb_rd r + Z.of_nat (length q) + 1) Size); lia.
  - rewrite items_snoc by lia. rewrite <- Hw, Hv. f_equal. exact Hi.
Qed.

(** A handler run during the window, provided the read cursor is not at 0. *)
Lemma window_read : forall (r : ring Z) q, 0 <= rb_wr r <= Size -> holds Size (wnorm r) q ->
  (rb_wr r = Size -> 0 < rb_rd r) ->
  ring_length Size r = Z.of_nat (length q) /\
  match q with
  | [] => True
  | x :: q' => exists r', ring_read Size r = Some (r', x) /\ holds Size (wnorm r') q' /\
      rb_wr r' = rb_wr r
  end.
Proof.
  intros r q Hwr H Hp.
  assert (HL : ring_length Size r = Z.of_nat (length q)).
  { rewrite <- (holds_length Size HSize _ _ H). unfold ring_length, wnorm.
    destruct H as [Hrd _]. unfold wnorm in Hrd. cbn [rb_mem rb_wr rb_rd] in *.
    destruct (Z.geb_spec (rb_wr r) Size) as [Hge|Hlt].
    - destruct (Z.geb_spec (rb_wr r) (rb_rd r)); [|lia].
      destruct (Z.geb_spec 0 (rb_rd r)); [lia|]. f_equal. lia.
    - reflexivity. }
  split; [exact HL|]. destruct q as [|x q]; [exact I|].
  destruct (holds_read Size HSize _ _ _ H) as [r' [E H']].
  unfold ring_read in E. unfold wnorm in E. cbn [rb_mem rb_wr rb_rd] in E.
  unfold ring_read. destruct (inb (rb_rd r) Size); [|discriminate].
  injection E as <- <-. eexists. split; [reflexivity|]. cbn [rb_wr]. split; [exact H'|reflexivity].
Qed.

Lemma tx_step_inv : forall s seen q e, tx_inv s seen q ->
  (tx_in_window Size s && (match e with TxIsr => t_ien s | _ => false end) && seen = false) ->
  exists s' q', tx_step Size s e = Some s' /\
    tx_inv s' (tx_in_window Size s' && tx_in_window Size s &&
               (seen || (match e with TxIsr => t_ien s | _ => false end))) q'.
Proof.
  intros s seen q e [Hb Hinv] Hg. destruct s as [r ien pc sent done]. destruct e as [v| |].
  - (* start *)
    destruct pc as [|v0|v0|v0|v0|]; cbn [tx_step t_pc t_ring t_ien t_sent t_done] in *.
    + eexists. exists q. split; [reflexivity|]. split; [exact Hb|].
      cbn [t_pc t_ring t_ien t_sent t_done]. split; [apply u8_range|]. exact Hinv.
    + eexists. exists q. split; [reflexivity|]. split; [exact Hb|]. exact Hinv.
    + eexists. exists q. split; [reflexivity|]. split; [exact Hb|]. exact Hinv.
    + eexists. exists q. split; [reflexivity|]. split; [exact Hb|]. exact Hinv.
    + eexists. exists q. split; [reflexivity|]. split; [exact Hb|].
      cbn [t_pc t_ring t_ien t_sent t_done tx_in_window] in *.
      destruct Hinv as [H1 [H2 [H3 H4]]]. repeat split; try tauto; try lia; try apply H2.
      all: try exact H3. intros Hs. rewrite orb_false_r.
      destruct (Z.geb_spec (rb_wr r) Size); [|lia]. cbn [andb]. intros E. now apply H4.
    + eexists. exists q. split; [reflexivity|]. split; [exact Hb|]. exact Hinv.
  - (* main step *)
    cbn [tx_step tx_main t_pc t_ring t_ien t_sent t_done] in *.
    destruct pc as [|v0|v0|v0|v0|]; cbn [tx_step tx_main t_pc t_ring t_ien t_sent t_done] in *.
    + eexists. exists q. split; [reflexivity|]. split; [exact Hb|]. exact Hinv.
    + destruct Hinv as [Hv [H1 [H2 H3]]].
      pose proof (holds_write Size HSize r q v0 H1) as [r' [E _]]. unfold ring_write in E.
      destruct (if rb_wr r + 1 >=? Size then 0 =? rb_rd r else rb_wr r + 1 =? rb_rd r).
      * eexists. exists q. split; [reflexivity|]. split; [exact Hb|].
        cbn [t_pc t_ring t_ien t_sent t_done]. split; [exact H1|].
        rewrite accepted_snoc. now rewrite app_nil_r.
      * eexists. exists q. split; [reflexivity|]. split; [exact Hb|].
        cbn [t_pc t_ring t_ien t_sent t_done]. repeat split; try tauto; try apply H1; try apply Hv.
        destruct (inb (rb_wr r) Size); [|discriminate]. injection E as _ E. lia.
    + destruct Hinv as [Hv [H1 [H2 H3]]]. pose proof (holds_wr _ _ _ H1) as Hwr.
      assert (Hin : inb (rb_wr r) Size = true) by (apply inb_true; lia). rewrite Hin.
      eexists. exists q. split; [reflexivity|]. split; [exact Hb|].
      cbn [t_pc t_ring t_ien t_sent t_done rb_mem rb_wr rb_rd].
      split; [exact Hv|]. split; [now apply holds_store|]. split; [exact H2|]. split; [exact H3|].
      apply upd_same.
    + destruct Hinv as [Hv [H1 [H2 [H3 H4]]]]. pose proof (holds_wr _ _ _ H1) as Hwr.
      eexists. exists (q ++ [v0]). split; [reflexivity|]. split.
      { apply Forall_app. split; [exact Hb|]. constructor; [exact Hv|constructor]. }
      cbn [t_pc t_ring t_ien t_sent t_done rb_mem rb_wr rb_rd].
      split; [lia|]. split; [now apply holds_inc|]. split.
      { rewrite H2. now rewrite <- app_assoc. }
      intros E _. destruct H1 as [Hrd [Hq [Hw _]]]. unfold wrap in Hw.
      destruct (Z.geb_spec (rb_rd r + Z.of_nat (length q)) Size); lia.
    + destruct Hinv as [H1 [H2 [H3 H4]]].
      eexists. exists q. split; [reflexivity|]. split; [exact Hb|].
      cbn [t_pc t_ring t_ien t_sent t_done]. split; [exact H2|].
      rewrite accepted_snoc. exact H3.
    + destruct Hinv as [H1 H2].
      eexists. exists q. split; [reflexivity|]. split; [exact Hb|].
      cbn [t_pc t_ring t_ien t_sent t_done]. auto.
  - (* handler *)
    cbn [tx_step]. unfold tx_isr. cbn [t_pc t_ring t_ien t_sent t_done] in *.
    destruct ien.
    2:{ eexists. exists q. split; [reflexivity|]. split; [exact Hb|].
        cbn [t_pc t_ring t_ien t_sent t_done tx_in_window] in *.
        destruct pc as [|v0|v0|v0|v0|]; try exact Hinv.
        destruct Hinv as [H1 [H2 [H3 H4]]]. split; [exact H1|]. split; [exact H2|].
        split; [exact H3|]. intros E. rewrite orb_false_r.
        unfold tx_in_window. cbn [t_pc t_ring].
        destruct (Z.geb_spec (rb_wr r) Size); [|lia]. cbn [andb]. intros E'. now apply H4. }
    assert (HR : ring_length Size r = Z.of_nat (length q) /\
      match q with
      | [] => True
      | x :: q' => exists r', ring_read Size r = Some (r', x) /\
          match pc with
          | TWrap _ => holds Size (wnorm r') q'
          | TInc v => holds Size r' q' /\ rb_mem r' = rb_mem r
          | _ => holds Size r' q'
          end /\ rb_wr r' = rb_wr r
      end).
    { assert (HB : holds Size r q -> ring_length Size r = Z.of_nat (length q) /\
        match q with [] => True | x :: q' => exists r', ring_read Size r = Some (r', x) /\
          (holds Size r' q' /\ rb_mem r' = rb_mem r) /\ rb_wr r' = rb_wr r end).
      { intros H. split; [now apply holds_length|]. destruct q as [|x q]; [exact I|].
        destruct (holds_read Size HSize _ _ _ H) as [r' [E H']]. exists r'. split; [exact E|].
        unfold ring_read in E. destruct (inb (rb_rd r) Size); [|discriminate].
        injection E as <- _. cbn [rb_mem rb_wr]. auto. }
      destruct pc as [|v0|v0|v0|v0|].
      5:{ destruct Hinv as [H1 [H2 [H3 H4]]]. apply window_read; try assumption.
          intros E. apply H4; [exact E|].
          unfold tx_in_window in Hg. cbn [t_pc t_ring] in Hg. destruct (Z.geb_spec (rb_wr r) Size); [|lia].
          destruct seen; [discriminate|reflexivity]. }
      all: destruct HB as [HB1 HB2]; [tauto|]; split; [exact HB1|]; destruct q as [|x q]; [exact I|];
           destruct HB2 as [r' [E [[H' Hm] Hw']]]; exists r'; auto. }
    destruct HR as [HL HR]. rewrite HL. destruct q as [|x q].
    + cbn [length Z.of_nat Z.eqb negb]. eexists. exists []. split; [reflexivity|].
      split; [exact Hb|]. cbn [t_pc t_ring t_ien t_sent t_done].
      destruct pc as [|v0|v0|v0|v0|]; cbn [t_pc] in *.
      * split; [tauto|]. split; [tauto|]. intros H; now elim H.
      * split; [tauto|]. split; [tauto|]. split; [tauto|]. intros H; now elim H.
      * tauto.
      * tauto.
      * destruct Hinv as [H1 [H2 [H3 H4]]]. split; [exact H1|]. split; [exact H2|].
        split; [exact H3|]. intros E. unfold tx_in_window. cbn [t_pc t_ring].
        destruct (Z.geb_spec (rb_wr r) Size); [|lia]. cbn [andb]. rewrite orb_true_r. discriminate.
      * tauto.
    + destruct (Z.eqb_spec (Z.of_nat (length (x :: q))) 0) as [E0|_]; [cbn [length] in E0; lia|].
      cbn [negb]. destruct HR as [r' [E [H' Hw']]]. rewrite E.
      eexists. exists q. split; [reflexivity|].
      inversion Hb as [|? ? Hx Hb']; subst. split; [exact Hb'|].
      cbn [t_pc t_ring t_ien t_sent t_done]. rewrite (u8_small x Hx).
      destruct pc as [|v0|v0|v0|v0|]; cbn [t_pc] in *.
      * rewrite app_snoc_assoc. split; [exact H'|]. split; [tauto|]. auto.
      * rewrite app_snoc_assoc. split; [tauto|]. split; [exact H'|]. split; [tauto|]. auto.
      * rewrite app_snoc_assoc. split; [tauto|]. split; [exact H'|]. split; [tauto|].
        cbn [length] in *. lia.
      * rewrite app_snoc_assoc. destruct H' as [H' Hm]. split; [tauto|]. split; [exact H'|].
        split; [tauto|]. cbn [length] in *. split; [lia|]. rewrite Hm, Hw'. tauto.
      * rewrite app_snoc_assoc. destruct Hinv as [H1 [H2 [H3 H4]]]. rewrite Hw'.
        split; [exact H1|]. split; [exact H'|]. split; [exact H3|].
        intros E1. unfold tx_in_window. cbn [t_pc t_ring]. rewrite Hw'.
        destruct (Z.geb_spec (rb_wr r) Size); [|lia]. cbn [andb]. rewrite orb_true_r. discriminate.
      * rewrite app_snoc_assoc. split; [exact H'|]. tauto.
Qed.

Lemma tx_run_inv : forall evs s seen q, tx_inv s seen q -> tx_polite Size s seen evs = true ->
  exists s' seen' q', tx_run Size s evs = Some s' /\ tx_inv s' seen' q'.
Proof.
  intros evs. induction evs as [|e evs IH]; intros s seen q H HP; cbn [tx_run tx_polite] in *.
  - eauto.
  - destruct (tx_in_window Size s && (match e with TxIsr => t_ien s | _ => false end) && seen) eqn:Hg;
      [discriminate|].
    destruct (tx_step_inv s seen q e H Hg) as [s' [q' [E H']]]. rewrite E in *.
    eapply IH; eassumption.
Qed.

Lemma tx_init_inv : forall m, tx_inv (tx_init m) false [].
Proof.
  intros m. split; [constructor|]. cbn [tx_init t_pc t_ring t_done t_sent t_ien].
  split; [apply (holds_clear Size HSize (mkRing m 0 0))|]. split; [reflexivity|].
  intros H; now elim H.
Qed.

(** Draining: from an idle state the handler alone sends everything and then turns itself off. *)
Lemma tx_drain : forall q s seen, tx_inv s seen q -> t_pc s = TIdle -> t_ien s = true ->
  exists s', tx_run Size s (repeat TxIsr (S (length q))) = Some s' /\
    t_sent s' = accepted (t_done s) /\ t_ien s' = false /\ t_pc s' = TIdle /\ t_done s' = t_done s.
Proof.
  intros q. induction q as [|x q IH]; intros s seen H Hpc Hien.
  - destruct s as [r ien pc sent done]. cbn [t_pc t_ien] in *. subst pc ien.
    destruct H as [_ [H1 [H2 _]]]. cbn [t_pc t_ring t_done t_sent t_ien] in *.
    cbn [length repeat tx_run tx_step]. unfold tx_isr. cbn [t_pc t_ring t_done t_sent t_ien].
    rewrite (holds_length Size HSize _ _ H1). cbn [length Z.of_nat Z.eqb negb].
    eexists. split; [reflexivity|]. cbn [t_pc t_ring t_done t_sent t_ien].
    rewrite app_nil_r in H2. auto.
  - destruct s as [r ien pc sent done]. cbn [t_pc t_ien] in *. subst pc ien.
    destruct H as [Hb [H1 [H2 _]]]. cbn [t_pc t_ring t_done t_sent t_ien] in *.
    change (repeat TxIsr (S (length (x :: q)))) with (TxIsr :: repeat TxIsr (S (length q))).
    cbn [tx_run tx_step]. unfold tx_isr. cbn [t_pc t_ring t_done t_sent t_ien].
    rewrite (holds_length Size HSize _ _ H1).
    destruct (Z.eqb_spec (Z.of_nat (length (x :: q))) 0) as [E0|_]; [cbn [length] in E0; lia|].
    cbn [negb]. destruct (holds_read Size HSize _ _ _ H1) as [r' [E H']]. rewrite E.
    inversion Hb as [|? ? Hx Hb']; subst.
    specialize (IH (mkTx r' true TIdle (sent ++ [u8 x]) done) false).
    cbn [t_pc t_ring t_done t_sent t_ien] in IH. apply IH; try reflexivity.
    split; [exact Hb'|]. cbn [t_pc t_ring t_done t_sent t_ien]. split; [exact H'|].
    rewrite (u8_small x Hx), app_snoc_assoc. auto.
Qed.

(** ** Receive *)

Definition vals (got : list Z) : list Z := filter (fun v => 0 <=? v) got.

Lemma vals_app : forall a b, vals (a ++ b) = vals a ++ vals b.
Proof. intros a b. apply filter_app. Qed.

Definition rx_inv (s : rxs) (seen : bool) (q : list Z) : Prop :=
  Forall is_byte q /\
  match r_pc s with
  | RIdle | RCmp | REnable => holds Size (r_ring s) q /\ r_acc s = vals (r_got s) ++ q
  | RSub ge => holds Size (r_ring s) q /\ r_acc s = vals (r_got s) ++ q /\
      (ge = false -> rb_wr (r_ring s) < rb_rd (r_ring s))
  | RLoad => holds Size (r_ring s) q /\ r_acc s = vals (r_got s) ++ q /\ q <> []
  | RInc v => holds Size (r_ring s) q /\ r_acc s = vals (r_got s) ++ q /\ exists q', q = v :: q'
  | RWrap v => is_byte v /\ 0 <= rb_rd (r_ring s) <= Size /\ holds Size (rnorm (r_ring s)) q /\
      r_acc s = vals (r_got s) ++ v :: q /\
      (rb_rd (r_ring s) = Size -> seen = false -> rb_wr (r_ring s) < Size - 1)
  end.

Lemma sub_length : forall (r : ring Z) q ge, holds Size r q -> (ge = false -> rb_wr r < rb_rd r) ->
  ((if ge then u16 (rb_wr r - rb_rd r) else u16 (Size - (rb_rd r - rb_wr r))) >? 0) =
  match q with [] => false | _ => true end.
Proof.
  intros r q ge H Hge. pose proof (holds_wr _ _ _ H) as Hwr. destruct H as [Hrd [Hq [Hw _]]].
  unfold wrap in Hw. destruct q as [|x q].
  - cbn [length] in Hw. destruct (Z.geb_spec (rb_rd r + Z.of_nat 0) Size); [lia|].
    destruct ge; [|specialize (Hge eq_refl); lia].
    replace (rb_wr r - rb_rd r) with 0 by lia. reflexivity.
  - cbn [length] in *. destruct ge.
    + unfold u16. destruct (Z.geb_spec (rb_rd r + Z.of_nat (S (length q))) Size); lia.
    + specialize (Hge eq_refl). unfold u16.
      destruct (Z.geb_spec (rb_rd r + Z.of_nat (S (length q))) Size); lia.
Qed.

Lemma write_below : forall (r r' : ring Z) v b, ring_write Size r v = Some (r', b) ->
  rb_wr r < rb_rd r < Size -> rb_wr r' < rb_rd r'.
Proof.
  intros r r' v b E H. unfold ring_write in E.
  destruct (Z.geb_spec (rb_wr r + 1) Size); [lia|].
  destruct (Z.eqb_spec (rb_wr r + 1) (rb_rd r)).
  - injection E as <- _. lia.
  - destruct (inb (rb_wr r) Size); [|discriminate]. injection E as <- _. cbn [rb_wr rb_rd]. lia.
Qed.

(** A handler write during the window. *)
Lemma window_write : forall (r : ring Z) q v, 0 <= rb_rd r <= Size -> holds Size (rnorm r) q ->
  (rb_rd r = Size -> rb_wr r < Size - 1) ->
  exists r', ring_write Size r v = Some (r', Z.of_nat (length q) <? Size - 1) /\
    holds Size (rnorm r') (if Z.of_nat (length q) <? Size - 1 then q ++ [v] else q) /\
    rb_rd r' = rb_rd r.
Proof.
  intros r q v Hrd H Hp. destruct (holds_write Size HSize _ q v H) as [r' [E H']].
  unfold ring_write in E. unfold rnorm in E at 1 2 3 4 5 6. cbn [rb_mem rb_wr rb_rd] in E.
  pose proof (holds_wr _ _ _ H) as Hwr. cbn [rnorm rb_wr] in Hwr.
  assert (Hc : (if rb_wr r + 1 >=? Size then 0 =? rb_rd r else rb_wr r + 1 =? rb_rd r) =
               (if rb_wr r + 1 >=? Size then 0 =? (if rb_rd r >=? Size then 0 else rb_rd r)
                else rb_wr r + 1 =? (if rb_rd r >=? Size then 0 else rb_rd r))).
  { destruct (Z.geb_spec (rb_rd r) Size) as [Hg|Hl]; [|reflexivity].
    assert (rb_rd r = Size) by lia. specialize (Hp H0).
    destruct (Z.geb_spec (rb_wr r + 1) Size); lia. }
  unfold ring_write. rewrite Hc.
  destruct (if rb_wr r + 1 >=? Size then 0 =? (if rb_rd r >=? Size then 0 else rb_rd r)
                else rb_wr r + 1 =? (if rb_rd r >=? Size then 0 else rb_rd r)).
  - injection E as Er Eb. rewrite <- Eb in *. eexists. split; [reflexivity|].
    split; [|reflexivity]. exact H.
  - destruct (inb (rb_wr r) Size); [|discriminate].
    injection E as Er Eb. subst r'. rewrite <- Eb in *. eexists. split; [reflexivity|].
    split; [|reflexivity]. exact H'.
Qed.

Lemma rx_step_inv : forall s seen q e, rx_inv s seen q ->
  (rx_in_window Size s && (match e with RxIsr _ _ => true | _ => false end) && seen = false) ->
  exists s' q', rx_step Size s e = Some s' /\
    rx_inv s' (rx_in_window Size s' && rx_in_window Size s &&
               (seen || (match e with RxIsr _ _ => true | _ => false end))) q'.
Proof.
  intros s seen q e [Hb Hinv] Hg. destruct s as [r ien pc got acc]. destruct e as [| |d ok].
  - (* start *)
    destruct pc as [| |ge| |v0|v0|]; cbn [rx_step r_pc r_ring r_ien r_got r_acc] in *.
    all: eexists; exists q; (split; [reflexivity|]); (split; [exact Hb|]); try exact Hinv.
    cbn [r_pc r_ring r_ien r_got r_acc rx_in_window] in *.
    destruct Hinv as [H0 [H1 [H2 [H3 H4]]]].
    split; [exact H0|]. split; [exact H1|]. split; [exact H2|]. split; [exact H3|].
    intros E. rewrite orb_false_r.
    destruct (Z.geb_spec (rb_rd r) Size); [|lia]. cbn [andb]. intros E'. now apply H4.
  - (* main step *)
    cbn [rx_step]. unfold rx_main.
    destruct pc as [| |ge| |v0|v0|]; cbn [r_pc r_ring r_ien r_got r_acc] in *.
    + eexists. exists q. split; [reflexivity|]. split; [exact Hb|]. exact Hinv.
    + eexists. exists q. split; [reflexivity|]. split; [exact Hb|].
      cbn [r_pc r_ring r_ien r_got r_acc]. destruct Hinv as [H1 H2].
      split; [exact H1|]. split; [exact H2|]. intros E.
      destruct (Z.geb_spec (rb_wr r) (rb_rd r)); [discriminate|lia].
    + destruct Hinv as [H1 [H2 H3]]. cbv zeta. rewrite (sub_length r q ge H1 H3).
      eexists. exists q. split; [reflexivity|]. split; [exact Hb|].
      destruct q as [|x q]; cbn [r_pc r_ring r_ien r_got r_acc]; [auto|].
      split; [exact H1|]. split; [exact H2|discriminate].
    + destruct Hinv as [H1 [H2 H3]].
      assert (Hin : inb (rb_rd r) Size = true) by (apply inb_true; destruct H1; lia).
      rewrite Hin. eexists. exists q. split; [reflexivity|]. split; [exact Hb|].
      cbn [r_pc r_ring r_ien r_got r_acc]. split; [exact H1|]. split; [exact H2|].
      destruct q as [|x q]; [now elim H3|]. exists q. destruct H1 as [_ [_ [_ Hi]]].
      cbn [length items] in Hi. injection Hi as Hx _. now rewrite <- Hx.
    + destruct Hinv as [H1 [H2 [q' H3]]]. subst q.
      eexists. exists q'. split; [reflexivity|].
      inversion Hb as [|? ? Hx Hb']. clear Hb. cbn [r_acc] in *. split; [exact Hb'|].
      cbn [r_pc r_ring r_ien r_got r_acc rb_mem rb_wr rb_rd].
      pose proof (holds_wr _ _ _ H1) as Hwr.
      destruct (holds_read Size HSize _ _ _ H1) as [r' [E H']].
      pose proof H1 as [Hrd [Hq [Hw Hi]]].
      split; [exact Hx|]. split; [lia|]. split.
      { unfold ring_read in E. destruct (inb (rb_rd r) Size); [|discriminate].
        injection E as <- _. exact H'. }
      split; [exact H2|]. intros E1 _. cbn [length] in *. unfold wrap in Hw.
      destruct (Z.geb_spec (rb_rd r + Z.of_nat (S (length q'))) Size); lia.
    + destruct Hinv as [H0 [H1 [H2 [H3 H4]]]].
      eexists. exists q. split; [reflexivity|]. split; [exact Hb|].
      cbn [r_pc r_ring r_ien r_got r_acc rb_mem rb_wr rb_rd]. split; [exact H2|].
      unfold is_byte in H0. rewrite s16_small by lia. rewrite vals_app. cbn [vals filter].
      destruct (Z.leb_spec 0 v0); [|lia]. rewrite app_snoc_assoc. exact H3.
    + destruct Hinv as [H1 H2].
      eexists. exists q. split; [reflexivity|]. split; [exact Hb|].
      cbn [r_pc r_ring r_ien r_got r_acc]. rewrite vals_app. cbn [vals filter].
      destruct (Z.leb_spec 0 (-1)); [lia|]. rewrite app_nil_r. auto.
  - (* handler *)
    cbn [rx_step]. unfold rx_isr. cbn [r_pc r_ring r_ien r_got r_acc] in *.
    destruct (ien && ok) eqn:Eio.
    2:{ eexists. exists q. split; [reflexivity|]. split; [exact Hb|].
        cbn [r_pc r_ring r_ien r_got r_acc rx_in_window] in *.
        destruct pc as [| |ge| |v0|v0|]; try exact Hinv.
        destruct Hinv as [H0 [H1 [H2 [H3 H4]]]].
        split; [exact H0|]. split; [exact H1|]. split; [exact H2|]. split; [exact H3|].
        intros E. unfold rx_in_window. cbn [r_pc r_ring].
        destruct (Z.geb_spec (rb_rd r) Size); [|lia]. cbn [andb].
        rewrite orb_true_r. discriminate. }
    assert (Hv : is_byte (u8 d)) by apply u8_range.
    assert (Hb2 : forall b : bool, Forall is_byte (if b then q ++ [u8 d] else q)).
    { intros b. destruct b; [|exact Hb]. apply Forall_app. split; [exact Hb|].
      constructor; [exact Hv|constructor]. }
    destruct pc as [| |ge| |v0|v0|].
    6:{ destruct Hinv as [H0 [H1 [H2 [H3 H4]]]]. cbn [r_ring r_pc r_got r_acc r_ien] in *.
        destruct (window_write r q (u8 d) H1 H2) as [r' [E [H' Hr']]].
        { intros E. apply H4; [exact E|]. unfold rx_in_window in Hg. cbn [r_pc r_ring] in Hg.
          destruct (Z.geb_spec (rb_rd r) Size); [|lia]. destruct seen; [discriminate|reflexivity]. }
        rewrite E. eexists. eexists. split; [reflexivity|]. split; [apply (Hb2 (Z.of_nat (length q) <? Size - 1))|].
        cbn [r_pc r_ring r_ien r_got r_acc]. rewrite Hr'.
        split; [exact H0|]. split; [exact H1|]. split; [exact H'|]. split.
        { destruct (Z.of_nat (length q) <? Size - 1); [|exact H3].
          rewrite H3, <- app_assoc. reflexivity. }
        intros E1. unfold rx_in_window. cbn [r_pc r_ring]. rewrite Hr'.
        destruct (Z.geb_spec (rb_rd r) Size); [|lia]. cbn [andb]. rewrite orb_true_r. discriminate. }
    all: cbn [r_ring r_pc r_got r_acc r_ien] in *;
      destruct Hinv as [H1 H2];
      destruct (holds_write Size HSize r q (u8 d) H1) as [r' [E H']];
      rewrite E; eexists; eexists; (split; [reflexivity|]);
      (split; [apply (Hb2 (Z.of_nat (length q) <? Size - 1))|]);
      cbn [r_pc r_ring r_ien r_got r_acc].
    1,2,6: split; [exact H'|]; destruct (Z.of_nat (length q) <? Size - 1);
           [rewrite H2, <- app_assoc; reflexivity|exact H2].
    + destruct H2 as [H2 H3]. split; [exact H'|]. split.
      * destruct (Z.of_nat (length q) <? Size - 1); [rewrite H2, <- app_assoc; reflexivity|exact H2].
      * intros Ege. specialize (H3 Ege). apply (write_below _ _ _ _ E).
        destruct H1 as [Hrd _]. lia.
    + destruct H2 as [H2 H3]. split; [exact H'|]. split.
      * destruct (Z.of_nat (length q) <? Size - 1); [rewrite H2, <- app_assoc; reflexivity|exact H2].
      * destruct (Z.of_nat (length q) <? Size - 1); [|exact H3]. now destruct q.
    + destruct H2 as [H2 [q' H3]]. split; [exact H'|]. split.
      * destruct (Z.of_nat (length q) <? Size - 1); [rewrite H2, <- app_assoc; reflexivity|exact H2].
      * subst q. destruct (Z.of_nat (length (v0 :: q')) <? Size - 1); eexists; cbn [app]; reflexivity.
Qed.

Lemma rx_run_inv : forall evs s seen q, rx_inv s seen q -> rx_polite Size s seen evs = true ->
  exists s' seen' q', rx_run Size s evs = Some s' /\ rx_inv s' seen' q'.
Proof.
  intros evs. induction evs as [|e evs IH]; intros s seen q H HP; cbn [rx_run rx_polite] in *.
  - eauto.
  - destruct (rx_in_window Size s && (match e with RxIsr _ _ => true | _ => false end) && seen) eqn:Hg;
      [discriminate|].
    destruct (rx_step_inv s seen q e H Hg) as [s' [q' [E H']]]. rewrite E in *.
    eapply IH; eassumption.
Qed.

Lemma rx_init_inv : forall m, rx_inv (rx_init m) false [].
Proof.
  intros m. split; [constructor|]. cbn [rx_init r_pc r_ring r_acc r_got].
  split; [apply (holds_clear Size HSize (mkRing m 0 0))|reflexivity].
Qed.
End S.

Section Final.
Variable Size : Z.
Hypothesis HSize : 1 <= Size <= 65535.

Lemma inv_len : forall s seen q, tx_inv Size s seen q -> t_pc s = TIdle ->
  ring_length Size (t_ring s) = Z.of_nat (length q) /\ Z.of_nat (length q) <= Size - 1 /\
  accepted (t_done s) = t_sent s ++ q /\ (q <> [] -> t_ien s = true).
Proof.
  intros s seen q [_ H] Hpc. rewrite Hpc in H. destruct H as [H1 [H2 H3]].
  split; [now apply holds_length|]. destruct H1 as [_ [Hq _]]. repeat split; auto. lia.
Qed.

Lemma tx_fifo_l : forall m evs, tx_polite Size (tx_init m) false evs = true ->
  exists s, tx_run Size (tx_init m) evs = Some s /\
    (exists rest, accepted (t_done s) ++ (match t_pc s with TWrap v => [v] | _ => [] end)
                  = t_sent s ++ rest /\ Z.of_nat (length rest) <= Size - 1 /\
       (t_pc s = TIdle -> ring_length Size (t_ring s) = Z.of_nat (length rest) /\
                          (rest <> [] -> t_ien s = true))).
Proof.
  intros m evs HP.
  destruct (tx_run_inv Size HSize evs _ _ _ (tx_init_inv Size HSize m) HP) as [s [seen [q [E H]]]].
  exists s. split; [exact E|]. exists q.
  assert (HH : accepted (t_done s) ++ (match t_pc s with TWrap v => [v] | _ => [] end)
                  = t_sent s ++ q /\ Z.of_nat (length q) <= Size - 1).
  { destruct H as [_ H]. destruct (t_pc s); rewrite ?app_nil_r.
    - destruct H as [[_ [Hq _]] [H2 _]]. split; [exact H2|lia].
    - destruct H as [_ [[_ [Hq _]] [H2 _]]]. split; [exact H2|lia].
    - destruct H as [_ [[_ [Hq _]] [H2 _]]]. split; [exact H2|lia].
    - destruct H as [_ [[_ [Hq _]] [H2 _]]]. split; [exact H2|lia].
    - destruct H as [_ [[_ [Hq _]] [H2 _]]]. split; [exact H2|lia].
    - destruct H as [[_ [Hq _]] H2]. split; [exact H2|lia]. }
  destruct HH as [HA HB]. split; [exact HA|]. split; [exact HB|].
  intros Hpc. pose proof (inv_len s seen q H Hpc). tauto.
Qed.

Lemma tx_run_app : forall a b s, tx_run Size s (a ++ b) =
  match tx_run Size s a with Some s' => tx_run Size s' b | None => None end.
Proof.
  intros a. induction a as [|e a IH]; intros b s; cbn [app tx_run]; [reflexivity|].
  destruct (tx_step Size s e); [apply IH|reflexivity].
Qed.

Lemma tx_drains_l : forall m evs s, tx_polite Size (tx_init m) false evs = true ->
  tx_run Size (tx_init m) evs = Some s -> t_pc s = TIdle ->
  exists n s', tx_run Size (tx_init m) (evs ++ repeat TxIsr n) = Some s' /\
    t_sent s' = accepted (t_done s) /\ t_done s' = t_done s /\ t_ien s' = false.
Proof.
  intros m evs s HP HE Hpc.
  destruct (tx_run_inv Size HSize evs _ _ _ (tx_init_inv Size HSize m) HP) as [s0 [seen [q [E H]]]].
  rewrite E in HE. injection HE as ->.
  destruct (t_ien s) eqn:Hien.
  - destruct (tx_drain Size HSize q s seen H Hpc Hien) as [s' [E' [H1 [H2 [_ H4]]]]].
    exists (S (length q)), s'. rewrite tx_run_app, E. auto.
  - exists 0%nat, s. cbn [repeat]. rewrite app_nil_r. split; [exact E|].
    destruct (inv_len s seen q H Hpc) as [_ [_ [H1 H2]]]. split; [|auto].
    destruct q as [|x q]; [now rewrite H1, app_nil_r|].
    assert (t_ien s = true) by (apply H2; discriminate). congruence.
Qed.

Lemma rx_fifo_l : forall m evs, rx_polite Size (rx_init m) false evs = true ->
  exists s, rx_run Size (rx_init m) evs = Some s /\
    exists rest, r_acc s = filter (fun v => 0 <=? v) (r_got s)
                           ++ (match r_pc s with RWrap v => [v] | _ => [] end) ++ rest /\
      Z.of_nat (length rest) <= Size - 1 /\
      (r_pc s = RIdle -> ring_length Size (r_ring s) = Z.of_nat (length rest)).
Proof.
  intros m evs HP.
  destruct (rx_run_inv Size HSize evs _ _ _ (rx_init_inv Size HSize m) HP) as [s [seen [q [E H]]]].
  exists s. split; [exact E|]. exists q. destruct H as [_ H]. fold (vals (r_got s)).
  destruct (r_pc s); cbn [app] in *.
  - destruct H as [H1 H2]. split; [exact H2|]. split; [destruct H1; lia|].
    intros _. now apply holds_length.
  - destruct H as [[_ [Hq _]] H2]. split; [exact H2|]. split; [lia|discriminate].
  - destruct H as [[_ [Hq _]] [H2 _]]. split; [exact H2|]. split; [lia|discriminate].
  - destruct H as [[_ [Hq _]] [H2 _]]. split; [exact H2|]. split; [lia|discriminate].
  - destruct H as [[_ [Hq _]] [H2 _]]. split; [exact H2|]. split; [lia|discriminate].
  - destruct H as [_ [_ [[_ [Hq _]] [H2 _]]]]. split; [exact H2|]. split; [lia|discriminate].
  - destruct H as [[_ [Hq _]] H2]. split; [exact H2|]. split; [lia|discriminate].
Qed.

(** Read answers -1 only when everything stored so far has been delivered. *)
Lemma rx_no_false_empty_l : forall m evs s ge, rx_polite Size (rx_init m) false evs = true ->
  rx_run Size (rx_init m) evs = Some s -> r_pc s = RSub ge ->
  exists s', rx_step Size s RxStep = Some s' /\
    (r_pc s' = REnable <-> r_acc s = filter (fun v => 0 <=? v) (r_got s)) /\
    (r_pc s' = RLoad \/ r_pc s' = REnable).
Proof.
  intros m evs s ge HP HE Hpc.
  destruct (rx_run_inv Size HSize evs _ _ _ (rx_init_inv Size HSize m) HP) as [s0 [seen [q [E H]]]].
  rewrite E in HE. injection HE as ->. destruct H as [_ H]. rewrite Hpc in H.
  destruct H as [H1 [H2 H3]]. cbn [rx_step]. unfold rx_main. rewrite Hpc. cbv zeta.
  rewrite (sub_length Size HSize _ q ge H1 H3). eexists. split; [reflexivity|]. cbn [r_pc].
  destruct q as [|x q].
  - rewrite app_nil_r in H2. fold (vals (r_got s)). tauto.
  - split; [|now left]. split; [discriminate|]. fold (vals (r_got s)). intros E'.
    rewrite E' in H2. exfalso. revert H2. generalize (vals (r_got s)). clear.
    intros l H. apply (f_equal (@length Z)) in H. rewrite app_length in H. cbn [length] in H. lia.
Qed.
End Final.

(** Witness schedules for the races in the wrap-around windows. *)
(* Size 2: first write leaves cursors at 1 after draining; the second write wraps. *)
Definition tx_bad : list txev :=
  tx_write 10 ++ [TxIsr] ++ [TxStart 20; TxStep; TxStep; TxStep; TxIsr; TxIsr; TxStep; TxStep].

Lemma tx_unrestricted_l :
  exists Size m evs s, tx_run Size (tx_init m) evs = Some s /\ t_pc s = TIdle /\
    accepted (t_done s) = [10; 20] /\ t_sent s = [10; 20; 10] /\ ring_length Size (t_ring s) = 1.
Proof.
  exists 2, (fun _ => 0), tx_bad. eexists. split; [vm_compute; reflexivity|].
  vm_compute. auto.
Qed.

(* Size 3.  The first Read enables the interrupt; three items are moved so that the read cursor
   stands on the last cell of a full buffer; two characters arrive in the window. *)
Definition rx_bad : list rxev :=
  [RxStart; RxStep; RxStep; RxStep] ++
  [RxIsr 1 true; RxIsr 2 true] ++ rx_read_evs ++ rx_read_evs ++
  [RxIsr 3 true; RxIsr 4 true] ++
  [RxStart; RxStep; RxStep; RxStep; RxStep] ++ [RxIsr 5 true; RxIsr 6 true] ++ [RxStep].

Lemma rx_unrestricted_l :
  exists Size m evs s, rx_run Size (rx_init m) evs = Some s /\ r_pc s = RIdle /\
    r_acc s = [1; 2; 3; 4; 5; 6] /\ r_got s = [-1; 1; 2; 3] /\ ring_length Size (r_ring s) = 0.
Proof.
  exists 3, (fun _ => 0), rx_bad. eexists. split; [vm_compute; reflexivity|].
  vm_compute. auto.
Qed.

Lemma split_exact : forall (T : Type) Size (a b : ring T), 0 <= rb_wr b < Size -> 0 <= rb_rd b < Size -> Size <= 65535 ->
  split_length Size a b =
    if Bool.eqb (rb_wr a >=? rb_rd a) (rb_wr b >=? rb_rd b) then ring_length Size b
    else (ring_length Size b + (if rb_wr a >=? rb_rd a then - Size else Size)) mod 65536.
Proof.
  intros T Size a b W R S. unfold split_length, ring_length, u16. change (2 ^ 16) with 65536.
  destruct (rb_wr a >=? rb_rd a) eqn:A, (rb_wr b >=? rb_rd b) eqn:B; cbn [Bool.eqb]; try reflexivity.
  - rewrite (Z.mod_small (Size - (rb_rd b - rb_wr b))) by lia. f_equal. lia.
  - rewrite (Z.mod_small (rb_wr b - rb_rd b)) by lia. f_equal. lia.
Qed.
Lemma split_length_l :
  exists (a b : ring Z) v, ring_length 16 a = 3 /\ ring_read 16 a = Some (b, v) /\
    ring_length 16 b = 2 /\ split_length 16 a b = 18.
Proof.
  exists (mkRing (fun i => i) 2 15), (mkRing (fun i => i) 2 0), 15. vm_compute. auto.
Qed.

(** The receive interrupt is off until the first Read, which answers -1 and turns it on for good. *)
Section RxFirst.
Variable Size : Z.
Definition first_inv (s : rxs) : Prop :=
  (r_ien s = false -> rb_wr (r_ring s) = 0 /\ rb_rd (r_ring s) = 0 /\ r_got s = [] /\ r_acc s = [] /\
     (r_pc s = RIdle \/ r_pc s = RCmp \/ r_pc s = RSub true \/ r_pc s = REnable)) /\
  (r_ien s = true -> exists rest, r_got s = -1 :: rest).
Lemma first_step : forall s e s', first_inv s -> rx_step Size s e = Some s' -> first_inv s'.
Proof.
  intros [[m w r] ien pc got acc] e s' [F T] H. unfold first_inv in *. cbn [r_ring r_ien r_pc r_got r_acc rb_wr rb_rd] in *.
  destruct e as [| |d ok]; cbn [rx_step r_pc] in H.
  - destruct pc; inversion H; subst; cbn [r_ring r_ien r_pc r_got r_acc rb_wr rb_rd]; split; try exact T; intros E;
      destruct (F E) as (A & B & C & D & G); repeat (split; [assumption|]); auto; exact G.
  - unfold rx_main in H. cbn [r_ring r_ien r_pc r_got r_acc rb_wr rb_rd rb_mem] in H. destruct ien.
    + destruct (T eq_refl) as [rest ->]. split.
      * destruct pc; try (destruct (inb r Size)); inversion H; subst; discriminate.
      * intros _. destruct pc; try (destruct (inb r Size)); inversion H; subst; cbn [r_got app]; eauto.
    + destruct (F eq_refl) as (-> & -> & -> & -> & G).
      destruct G as [->|[->|[->| ->]]]; cbn in H; inversion H; subst; cbn [r_ring r_ien r_pc r_got r_acc rb_wr rb_rd app];
        (split; [intros E; try discriminate E; auto 10|intros E; try discriminate E; eauto]).
  - unfold rx_isr in H. cbn [r_ring r_ien r_pc r_got r_acc] in H. destruct ien; cbn [andb] in H.
    + destruct ok; [destruct (ring_write Size (mkRing m w r) (u8 d)) as [[? ?]|]|]; inversion H; subst; (split; [discriminate|exact T]).
    + inversion H; subst. split; assumption.
Qed.
Lemma rx_first_l : forall m evs s, rx_run Size (rx_init m) evs = Some s ->
  (r_ien s = true <-> r_got s <> []) /\ (forall v rest, r_got s = v :: rest -> v = -1) /\ (r_ien s = false -> r_acc s = []).
Proof.
  intros m evs s H. assert (I : first_inv s).
  { assert (I0 : first_inv (rx_init m)) by (split; [intros _; cbn; auto 10|discriminate]).
    revert I0 H. generalize (rx_init m) as s0. induction evs as [|e evs IH]; intros s0 I0 H.
    - inversion H; subst. exact I0.
    - cbn [rx_run] in H. destruct (rx_step Size s0 e) as [s1|] eqn:E; [|discriminate]. apply (IH s1); [exact (first_step _ _ _ I0 E)|exact H]. }
  destruct I as [F T]. destruct (r_ien s).
  - destruct (T eq_refl) as [rest E]. rewrite E. split; [split; [discriminate|reflexivity]|]. split; [|discriminate].
    intros v rest' X. congruence.
  - destruct (F eq_refl) as (_ & _ & E & A & _). rewrite E. split; [split; [discriminate|congruence]|]. split; [discriminate|auto].
Qed.
End RxFirst.
