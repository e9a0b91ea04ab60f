(** C96, C97: proofs. *)
Require Import ZArith List Bool Lia ZifyBool.
Import ListNotations.
From Verif Require Import Base BaseFacts RingModel RingProofs StreamModel StreamSpec StreamProofs HwTxModel HwTxSpec.
Open Scope Z_scope.
Local Ltac Zify.zify_post_hook ::= idtac.

(** ** The hardware *)

Definition x_wf (u : utx) : Prop := x_udr u <> None -> x_shift u <> None.

Lemma put_wf : forall u d, x_wf u -> x_wf (utx_put u d).
Proof. intros [[a|] [b|] t l] d H; unfold x_wf, utx_put in *; cbn [x_udr x_shift] in *; intros X; try congruence; apply H; congruence. Qed.
Lemma tick_wf : forall u, x_wf u -> x_wf (utx_tick u).
Proof. intros [[a|] [b|] t l] H; unfold x_wf, utx_tick in *; cbn [x_udr x_shift] in *; intros X; try congruence; apply H; congruence. Qed.
Lemma wait_wf : forall u, x_wf u -> x_wf (wait_accept u).
Proof. intros u H. unfold wait_accept. destruct (accept_data u); [exact H|now apply tick_wf]. Qed.
Lemma wait_ready : forall u, x_wf u -> accept_data (wait_accept u) = true.
Proof.
  intros [[a|] [b|] t l] H; unfold x_wf in H; cbn [x_udr x_shift] in H; try reflexivity. exfalso. apply H; congruence.
Qed.

Definition all_of (u : utx) : list Z := x_line u ++ outstanding u.
Lemma put_all : forall u d, accept_data u = true -> all_of (utx_put u d) = all_of u ++ [u8 d].
Proof.
  intros [[a|] [b|] t l] d H; unfold accept_data in H; cbn [x_udr] in H; try discriminate; unfold all_of, outstanding, utx_put;
    cbn [x_udr x_shift x_line app]; rewrite ?app_nil_r, <- ?app_assoc; reflexivity.
Qed.
Lemma tick_all : forall u, all_of (utx_tick u) = all_of u.
Proof.
  intros [[a|] [b|] t l]; unfold all_of, outstanding, utx_tick; cbn [x_udr x_shift x_line app]; rewrite <- ?app_assoc; reflexivity.
Qed.
Lemma wait_all : forall u, all_of (wait_accept u) = all_of u.
Proof. intros u. unfold wait_accept. destruct (accept_data u); [reflexivity|apply tick_all]. Qed.

Lemma utx_step_all : forall u e u' a, x_wf u -> utx_step u e = (u', a) -> x_wf u' /\ all_of u' = all_of u ++ map u8 a.
Proof.
  intros u e u' a W E. destruct e as [d|d| | |]; cbn [utx_step] in E.
  - inversion E; subst. split; [now apply put_wf, wait_wf|]. unfold utx_write. rewrite put_all, wait_all; [reflexivity|now apply wait_ready].
  - unfold utx_try_write in E. destruct (accept_data u) eqn:A; cbn [negb] in E; inversion E; subst.
    + split; [now apply put_wf|]. now apply put_all.
    + split; [exact W|]. now rewrite app_nil_r.
  - inversion E; subst. cbn [map]. rewrite app_nil_r. split; [now apply wait_wf|apply wait_all].
  - inversion E; subst. cbn [map]. rewrite app_nil_r. split; [now apply tick_wf|apply tick_all].
  - inversion E; subst. cbn [map]. rewrite app_nil_r. destruct (x_txc u); split; try exact W; reflexivity.
Qed.

Lemma utx_run_all : forall evs u u' a, x_wf u -> utx_run u evs = (u', a) -> x_wf u' /\ all_of u' = all_of u ++ map u8 a.
Proof.
  induction evs as [|e evs IH]; intros u u' a W E; cbn [utx_run] in E.
  - inversion E; subst. cbn [map]. now rewrite app_nil_r.
  - destruct (utx_step u e) as [u1 x] eqn:E1. destruct (utx_run u1 evs) as [u2 y] eqn:E2. inversion E; subst.
    destruct (utx_step_all _ _ _ _ W E1) as [W1 A1]. destruct (IH _ _ _ W1 E2) as [W2 A2].
    split; [exact W2|]. now rewrite A2, A1, map_app, app_assoc.
Qed.

Lemma init_wf : x_wf utx_init.
Proof. intros H. now elim H. Qed.

Lemma hw_tx_order_l : forall evs u taken, utx_run utx_init evs = (u, taken) ->
  x_line u ++ outstanding u = map u8 taken /\ (length (outstanding u) <= 2)%nat.
Proof.
  intros evs u taken E. destruct (utx_run_all _ _ _ _ init_wf E) as [_ A]. split; [exact A|].
  unfold outstanding. destruct (x_shift u), (x_udr u); cbn; lia.
Qed.

Lemma hw_tx_try_l : forall evs u taken d, utx_run utx_init evs = (u, taken) ->
  (snd (utx_try_write u d) = false <-> length (outstanding u) = 2%nat) /\
  (snd (utx_try_write u d) = false -> fst (utx_try_write u d) = u).
Proof.
  intros evs u taken d E. destruct (utx_run_all _ _ _ _ init_wf E) as [W _]. destruct u as [[a|] [b|] t l];
    unfold utx_try_write, accept_data, outstanding, x_wf in *; cbn [x_udr x_shift negb fst snd app length] in *;
    (split; [split; intros H; try congruence; try lia|intros H; try congruence]). exfalso. apply W; congruence.
Qed.

Lemma hw_tx_flush_l : forall evs u taken, utx_run utx_init evs = (u, taken) ->
  (length (outstanding (utx_flush u)) <= 1)%nat /\
  ((length (outstanding u) <= 1)%nat -> utx_flush u = u).
Proof.
  intros evs u taken E. destruct (utx_run_all _ _ _ _ init_wf E) as [W _]. destruct u as [[a|] [b|] t l];
    unfold utx_flush, wait_accept, accept_data, utx_tick, outstanding, x_wf in *; cbn [x_udr x_shift app length] in *;
    try (split; [lia|intros; try reflexivity; lia]).
Qed.

(** getIsComplete *)
Lemma ran_dry_run : forall evs u u' a, x_wf u -> utx_run u evs = (u', a) ->
  is_complete u' = ran_dry (length (outstanding u)) (is_complete u) evs.
Proof.
  induction evs as [|e evs IH]; intros u u' a W E; cbn [utx_run] in E.
  - inversion E; subst. reflexivity.
  - destruct (utx_step u e) as [u1 x] eqn:E1. destruct (utx_run u1 evs) as [u2 y] eqn:E2. inversion E; subst u2 a.
    destruct (utx_step_all _ _ _ _ W E1) as [W1 _]. rewrite (IH _ _ _ W1 E2). clear IH E E2.
    destruct u as [[p|] [q|] t l]; try (exfalso; apply W; cbn; congruence);
      destruct e as [d|d| | |]; cbn in E1; inversion E1; subst; cbn; try reflexivity; destruct t; reflexivity.
Qed.
Lemma hw_tx_complete_l : forall evs u taken, utx_run utx_init evs = (u, taken) -> is_complete u = ran_dry 0 false evs.
Proof. intros evs u taken E. exact (ran_dry_run _ _ _ _ init_wf E). Qed.

Lemma sticks_step : forall u e, e <> XComplete -> is_complete u = true -> is_complete (fst (utx_step u e)) = true.
Proof.
  intros [[p|] [q|] t l] e N H; unfold is_complete in *; cbn [x_txc] in H; subst t; destruct e; try reflexivity; congruence.
Qed.
Lemma hw_tx_sticks_l : forall evs u u' a, ~ In XComplete evs -> is_complete u = true -> utx_run u evs = (u', a) -> is_complete u' = true.
Proof.
  induction evs as [|e evs IH]; intros u u' a N H E; cbn [utx_run] in E; [inversion E; subst; exact H|].
  pose proof (sticks_step u e) as K. destruct (utx_step u e) as [u1 x]. destruct (utx_run u1 evs) as [u2 y] eqn:E2. inversion E; subst.
  apply (IH u1 u' y); [intros X; apply N; now right|apply K; [intros X; apply N; now left|exact H]|exact E2].
Qed.
Lemma hw_tx_never_l : forall n, is_complete (utx_ticks n utx_init) = false.
Proof. induction n as [|n IH]; [reflexivity|]. exact IH. Qed.

(** ** The stream on top *)

Section P.
Variable Size : Z.
Hypothesis HSize : 1 <= Size <= 65535.

Lemma tx_inv_weaken : forall s seen seen' q, tx_inv Size s seen q ->
  (tx_in_window Size s = true -> seen' = false -> seen = false) -> tx_inv Size s seen' q.
Proof.
  intros s seen seen' q [B H] K. split; [exact B|]. unfold tx_in_window in K. destruct (t_pc s); try exact H.
  destruct H as (H1 & H2 & H3 & H4). repeat (split; [assumption|]). intros E F. apply H4; [exact E|]. apply K; [|exact F]. lia.
Qed.

Lemma u8_twice : forall v, u8 (u8 v) = u8 v.
Proof. intros v. unfold u8. apply Z.mod_mod. discriminate. Qed.

Lemma isr_sent : forall s s', tx_isr Size s = Some s' -> t_sent s' = t_sent s \/ exists v, t_sent s' = t_sent s ++ [u8 v].
Proof.
  intros s s' H. unfold tx_isr in H. destruct (t_ien s); [|inversion H; auto].
  destruct (negb (ring_length Size (t_ring s) =? 0)); [|inversion H; auto].
  destruct (ring_read Size (t_ring s)) as [[r v]|]; [|discriminate]. inversion H; subst. right. now exists v.
Qed.
Lemma other_sent : forall s e s', tx_step Size s e = Some s' -> e <> TxIsr -> t_sent s' = t_sent s.
Proof.
  intros s e s' H N. destruct e as [v| |]; cbn [tx_step] in H; [| |congruence].
  - destruct (t_pc s); inversion H; reflexivity.
  - unfold tx_main in H. destruct (t_pc s); try (inversion H; reflexivity).
    + match type of H with (if ?c then _ else _) = _ => destruct c end; inversion H; reflexivity.
    + destruct (inb (rb_wr (t_ring s)) Size); inversion H; reflexivity.
Qed.

Definition xport_inv (p : xport) (seen : bool) (q : list Z) : Prop :=
  tx_inv Size (y_tx p) seen q /\ x_wf (y_utx p) /\ all_of (y_utx p) = t_sent (y_tx p).

Lemma xport_step_inv : forall p seen q e, xport_inv p seen q ->
  let isr := match e with YIsr => t_ien (y_tx p) && accept_data (y_utx p) | _ => false end in
  tx_in_window Size (y_tx p) && isr && seen = false ->
  exists p' q', xport_step Size p e = Some p' /\
    xport_inv p' (tx_in_window Size (y_tx p') && tx_in_window Size (y_tx p) && (seen || isr)) q'.
Proof.
  intros p seen q e (I & W & A) isr G.
  assert (Same : isr = false -> tx_inv Size (y_tx p) (tx_in_window Size (y_tx p) && tx_in_window Size (y_tx p) && (seen || isr)) q).
  { intros ->. eapply tx_inv_weaken; [exact I|]. intros ->. cbn [andb]. rewrite orb_false_r. auto. }
  destruct e as [v| | |]; cbn [xport_step]; subst isr.
  - destruct (tx_step_inv Size HSize (y_tx p) seen q (TxStart v) I G) as (s' & q' & E & I'). rewrite E.
    eexists _, q'. split; [reflexivity|]. split; [exact I'|]. split; [exact W|]. cbn [y_utx y_tx]. rewrite (other_sent _ _ _ E); [exact A|discriminate].
  - destruct (tx_step_inv Size HSize (y_tx p) seen q TxStep I G) as (s' & q' & E & I'). rewrite E.
    eexists _, q'. split; [reflexivity|]. split; [exact I'|]. split; [exact W|]. cbn [y_utx y_tx]. rewrite (other_sent _ _ _ E); [exact A|discriminate].
  - destruct (t_ien (y_tx p)) eqn:Ei; cbn [andb] in *; [|eexists _, q; split; [reflexivity|]; split; [now apply Same|]; split; assumption].
    destruct (accept_data (y_utx p)) eqn:Ea; [|eexists _, q; split; [reflexivity|]; split; [now apply Same|]; split; assumption].
    destruct (tx_step_inv Size HSize (y_tx p) seen q TxIsr I) as (s' & q' & E & I'); [rewrite Ei; exact G|]. rewrite E. rewrite Ei in I'.
    eexists _, q'. split; [reflexivity|]. split; [exact I'|]. cbn [y_utx y_tx]. cbn [tx_step] in E.
    destruct (isr_sent _ _ E) as [X|[v X]]; rewrite X.
    + rewrite skipn_all. split; [exact W|exact A].
    + rewrite skipn_app, skipn_all, Nat.sub_diag. cbn [app skipn fold_left]. split; [now apply put_wf|].
      rewrite put_all by exact Ea. now rewrite u8_twice, A.
  - eexists _, q. split; [reflexivity|]. split; [now apply Same|]. cbn [y_utx y_tx]. split; [now apply tick_wf|]. now rewrite tick_all.
Qed.

Lemma xport_run_inv : forall evs p seen q, xport_inv p seen q -> xport_polite Size p seen evs = true ->
  exists p' seen' q', xport_run Size p evs = Some p' /\ xport_inv p' seen' q'.
Proof.
  induction evs as [|e evs IH]; intros p seen q H HP; cbn [xport_run xport_polite] in *; [eauto|].
  destruct (tx_in_window Size (y_tx p) && (match e with YIsr => t_ien (y_tx p) && accept_data (y_utx p) | _ => false end) && seen) eqn:Hg; [discriminate|].
  destruct (xport_step_inv p seen q e H Hg) as (p' & q' & E & H'). rewrite E in *. eapply IH; eassumption.
Qed.

Lemma xport_init_inv : forall m, xport_inv (xport_init m) false [].
Proof. intros m. split; [exact (tx_init_inv Size HSize m)|]. split; [exact init_wf|reflexivity]. Qed.

Lemma tx_inv_rest : forall s seen q, tx_inv Size s seen q ->
  accepted (t_done s) ++ (match t_pc s with TWrap v => [v] | _ => [] end) = t_sent s ++ q /\ Z.of_nat (length q) <= Size - 1.
Proof.
  intros s seen q [_ H]. destruct (t_pc s); rewrite ?app_nil_r.
  - destruct H as [[_ [Hq _]] [H2 _]]. split; [exact H2|lia].
  - destruct H as [_ [[_ [Hq _]] [H2 _]]]. split; [exact H2|lia].
  - destruct H as [_ [[_ [Hq _]] [H2 _]]]. split; [exact H2|lia].
  - destruct H as [_ [[_ [Hq _]] [H2 _]]]. split; [exact H2|lia].
  - destruct H as [_ [[_ [Hq _]] [H2 _]]]. split; [exact H2|lia].
  - destruct H as [[_ [Hq _]] H2]. split; [exact H2|lia].
Qed.

Lemma hw_tx_stream_l : forall m evs, xport_polite Size (xport_init m) false evs = true ->
  exists p queued, xport_run Size (xport_init m) evs = Some p /\
    accepted (t_done (y_tx p)) ++ (match t_pc (y_tx p) with TWrap v => [v] | _ => [] end) =
      x_line (y_utx p) ++ outstanding (y_utx p) ++ queued /\
    (length (outstanding (y_utx p)) <= 2)%nat /\ Z.of_nat (length queued) <= Size - 1.
Proof.
  intros m evs HP. destruct (xport_run_inv evs _ _ _ (xport_init_inv m) HP) as (p & seen & q & E & I & W & A).
  destruct (tx_inv_rest _ _ _ I) as [R L]. exists p, q. split; [exact E|]. split; [rewrite R, <- A; unfold all_of; now rewrite <- app_assoc|].
  split; [|exact L]. unfold outstanding. destruct (x_shift (y_utx p)), (x_udr (y_utx p)); cbn; lia.
Qed.

(** ** Progress *)

Lemma xport_run_app : forall a b p, xport_run Size p (a ++ b) =
  match xport_run Size p a with Some p' => xport_run Size p' b | None => None end.
Proof. induction a as [|e a IH]; intros b p; cbn [app xport_run]; [reflexivity|]. destruct (xport_step Size p e); [apply IH|reflexivity]. Qed.

Lemma tick_ready : forall u, x_wf u -> accept_data u = true -> accept_data (utx_tick u) = true.
Proof. intros [[a|] [b|] t l] W H; try reflexivity; discriminate. Qed.
Lemma put_tick_ready : forall u d, accept_data u = true -> accept_data (utx_tick (utx_put u d)) = true.
Proof. intros [[a|] [b|] t l] d H; try reflexivity; discriminate. Qed.

Lemma xport_drain : forall q p seen, xport_inv p seen q -> t_pc (y_tx p) = TIdle -> accept_data (y_utx p) = true ->
  exists p', xport_run Size p (concat (repeat [YIsr; YTick] (S (length q)))) = Some p' /\ t_done (y_tx p') = t_done (y_tx p) /\
    all_of (y_utx p') = accepted (t_done (y_tx p)) /\ accept_data (y_utx p') = true /\ t_ien (y_tx p') = false.
Proof.
  induction q as [|x q IH]; intros p seen I Hpc Ha; destruct I as (I & W & A);
    destruct p as [u [r ien pc sent done]]; cbn [y_tx y_utx t_pc t_sent t_done t_ien] in *; subst pc;
    destruct I as [Hb [H1 [H2 H3]]]; cbn [t_pc t_ring t_done t_sent t_ien] in *.
  - cbn [length repeat concat app xport_run xport_step y_tx y_utx t_ien t_sent]. destruct ien.
    + rewrite Ha. cbn [andb tx_step]. unfold tx_isr. cbn [t_ien t_ring t_pc t_sent t_done].
      rewrite (holds_length Size HSize _ _ H1). cbn [length Z.of_nat Z.eqb negb t_sent]. rewrite skipn_all. cbn [fold_left y_utx y_tx].
      eexists. split; [reflexivity|]. cbn [y_tx y_utx t_done t_ien]. split; [reflexivity|].
      rewrite app_nil_r in H2. rewrite tick_all. split; [congruence|]. split; [now apply tick_ready|reflexivity].
    + cbn [andb y_utx y_tx]. eexists. split; [reflexivity|]. cbn [y_tx y_utx t_done t_ien]. split; [reflexivity|].
      rewrite app_nil_r in H2. rewrite tick_all. split; [congruence|]. split; [now apply tick_ready|reflexivity].
  - change (concat (repeat [YIsr; YTick] (S (length (x :: q))))) with ([YIsr; YTick] ++ concat (repeat [YIsr; YTick] (S (length q)))).
    rewrite xport_run_app. rewrite (H3 ltac:(discriminate)) in *.
    cbn [xport_run xport_step y_tx y_utx t_ien t_sent]. rewrite Ha. cbn [andb tx_step]. unfold tx_isr. cbn [t_ien t_ring t_pc t_sent t_done].
    rewrite (holds_length Size HSize _ _ H1). destruct (Z.eqb_spec (Z.of_nat (length (x :: q))) 0) as [E0|_]; [cbn [length] in E0; lia|]. cbn [negb].
    destruct (holds_read Size HSize _ _ _ H1) as [r' [E H']]. rewrite E. cbn [t_sent].
    rewrite skipn_app, skipn_all, Nat.sub_diag. cbn [app skipn fold_left y_utx y_tx].
    pose proof (Forall_inv Hb) as Hx. pose proof (Forall_inv_tail Hb) as Hb'.
    assert (Ux : u8 x = x) by (apply u8_small; exact Hx).
    destruct (IH (mkXport (utx_tick (utx_put u (u8 x))) (mkTx r' true TIdle (sent ++ [u8 x]) done)) false) as (p' & R & D & L & Acc & Off).
    + split; [|split].
      * split; [exact Hb'|]. cbn [y_tx t_pc t_ring t_done t_sent t_ien]. split; [exact H'|]. split; [rewrite Ux, <- app_assoc; exact H2|reflexivity].
      * cbn [y_utx]. apply tick_wf, put_wf, W.
      * cbn [y_utx y_tx t_sent]. rewrite tick_all, put_all by exact Ha. now rewrite u8_twice, A.
    + reflexivity.
    + cbn [y_utx]. now apply put_tick_ready.
    + exists p'. cbn [y_tx t_done] in D, L. auto.
Qed.

Lemma hw_tx_drains_l : forall m evs p, xport_polite Size (xport_init m) false evs = true ->
  xport_run Size (xport_init m) evs = Some p -> t_pc (y_tx p) = TIdle ->
  exists more p', xport_run Size p more = Some p' /\ t_done (y_tx p') = t_done (y_tx p) /\
    Forall (fun e => e = YIsr \/ e = YTick) more /\
    x_line (y_utx p') = accepted (t_done (y_tx p)) /\ outstanding (y_utx p') = [] /\ t_ien (y_tx p') = false.
Proof.
  intros m evs p HP R Hpc. destruct (xport_run_inv evs _ _ _ (xport_init_inv m) HP) as (p1 & seen & q & E & I). rewrite R in E. inversion E; subst p1. clear E.
  assert (I1 : exists seen' q', xport_inv (mkXport (wait_accept (y_utx p)) (y_tx p)) seen' q' ).
  { exists seen, q. destruct I as (I & W & A). split; [exact I|]. cbn [y_utx y_tx]. split; [now apply wait_wf|]. now rewrite wait_all. }
  destruct I1 as (seen1 & q1 & I1). pose proof I as (_ & W & _).
  destruct (xport_drain q1 _ _ I1) as (p2 & R2 & D2 & L2 & A2 & O2); [exact Hpc|cbn [y_utx]; now apply wait_ready|].
  cbn [y_tx] in D2, L2.
  exists ((if accept_data (y_utx p) then [] else [YTick]) ++ concat (repeat [YIsr; YTick] (S (length q1))) ++ [YTick]).
  exists (mkXport (utx_tick (y_utx p2)) (y_tx p2)). rewrite xport_run_app.
  assert (E1 : xport_run Size p (if accept_data (y_utx p) then [] else [YTick]) = Some (mkXport (wait_accept (y_utx p)) (y_tx p))).
  { unfold wait_accept. destruct (accept_data (y_utx p)); destruct p; reflexivity. }
  rewrite E1, xport_run_app, R2. cbn [xport_run xport_step y_utx y_tx]. split; [reflexivity|]. split; [exact D2|]. split.
  { assert (FT : Forall (fun e => e = YIsr \/ e = YTick) [YTick]) by (apply Forall_cons; [now right|apply Forall_nil]).
    apply Forall_app. split; [destruct (accept_data (y_utx p)); [apply Forall_nil|exact FT]|]. apply Forall_app. split; [|exact FT].
    generalize (S (length q1)). intros n. induction n as [|n IHn]; cbn [repeat concat]; [apply Forall_nil|].
    apply Forall_app. split; [apply Forall_cons; [now left|exact FT]|exact IHn]. }
  assert (O3 : outstanding (utx_tick (y_utx p2)) = []).
  { destruct (y_utx p2) as [[a|] [b|] t l]; try reflexivity; discriminate. }
  split; [|split; [exact O3|exact O2]].
  pose proof (tick_all (y_utx p2)) as T. unfold all_of in T at 1. rewrite O3, app_nil_r in T. congruence.
Qed.
End P.

(** ** C97 *)

Section F.
Variable Size : Z.
Hypothesis HSize : 1 <= Size <= 65535.

Lemma isrs_read : forall i r q sent done, holds Size r q -> Forall is_byte q -> (i <= length q)%nat ->
  exists r', tx_isrs Size i (mkTx r true TIdle sent done) = Some (mkTx r' true TIdle (sent ++ firstn i q) done) /\
    holds Size r' (skipn i q) /\ rb_mem r' = rb_mem r /\ rb_wr r' = rb_wr r.
Proof.
  induction i as [|i IH]; intros r q sent done H Hb Hi; cbn [tx_isrs].
  - exists r. cbn [firstn skipn]. rewrite app_nil_r. auto.
  - destruct q as [|x q]; [cbn in Hi; lia|]. unfold tx_isr. cbn [t_ien t_ring t_pc t_sent t_done].
    rewrite (holds_length Size HSize _ _ H). destruct (Z.eqb_spec (Z.of_nat (length (x :: q))) 0) as [E0|_]; [cbn [length] in E0; lia|]. cbn [negb].
    destruct (holds_read Size HSize _ _ _ H) as [r1 [E H1]]. rewrite E.
    pose proof (Forall_inv Hb) as Hx. pose proof (Forall_inv_tail Hb) as Hb'.
    destruct (IH r1 q (sent ++ [u8 x]) done H1 Hb') as (r' & R & H' & M & W); [cbn [length] in Hi; lia|].
    assert (K : rb_mem r1 = rb_mem r /\ rb_wr r1 = rb_wr r).
    { clear - E. unfold ring_read in E. destruct (inb (rb_rd r) Size); [|discriminate]. inversion E. split; reflexivity. }
    destruct K as [K1 K2]. exists r'. cbn [firstn skipn]. rewrite R. rewrite (u8_small x Hx), <- app_assoc. split; [reflexivity|].
    split; [exact H'|]. split; congruence.
Qed.

Lemma isrs_off : forall i r pc sent done, tx_isrs Size i (mkTx r false pc sent done) = Some (mkTx r false pc sent done).
Proof. induction i as [|i IH]; intros; cbn [tx_isrs]; [reflexivity|]. apply IH. Qed.

Lemma isrs_between : forall j m k l ien sent done, 0 <= k < Size -> l = items Size m k (length l) -> Forall is_byte l -> (j <= length l)%nat ->
  exists n rd ien', (n <= j)%nat /\
    tx_isrs Size j (mkTx (mkRing m 0 k) ien TIdle sent done) = Some (mkTx (mkRing m 0 rd) ien' TIdle (sent ++ firstn n l) done).
Proof.
  induction j as [|j IH]; intros m k l ien sent done Hk Hl Hb Hj; cbn [tx_isrs].
  - exists 0%nat, k, ien. split; [lia|]. cbn [firstn]. now rewrite app_nil_r.
  - unfold tx_isr. cbn [t_ien t_ring t_pc t_sent t_done]. destruct ien.
    + unfold ring_length. cbn [rb_wr rb_rd]. destruct (Z.geb_spec 0 k) as [G|G].
      * assert (k = 0) by lia. subst k. cbn [Z.sub Z.opp Z.add]. change (u16 0) with 0. cbn [Z.eqb negb]. rewrite isrs_off.
        exists 0%nat, 0, false. split; [lia|]. cbn [firstn]. now rewrite app_nil_r.
      * rewrite u16_small by lia. destruct (Z.eqb_spec (Size - (k - 0)) 0) as [E0|_]; [lia|]. cbn [negb].
        unfold ring_read. cbn [rb_rd rb_mem rb_wr]. assert (In1 : inb k Size = true) by (apply inb_true; lia). rewrite In1.
        destruct l as [|x l]; [cbn in Hj; lia|]. cbn [length items] in Hl. injection Hl as Hx Hl.
        pose proof (Forall_inv Hb) as Hbx. pose proof (Forall_inv_tail Hb) as Hb'.
        replace (if k + 1 >=? Size then 0 else k + 1) with (wrap Size (k + 1)) by (unfold wrap; destruct (Z.geb_spec (k + 1) Size); lia).
        rewrite <- Hx. rewrite (u8_small x Hbx).
        destruct (IH m (wrap Size (k + 1)) l true (sent ++ [x]) done) as (n & rd & ien' & Hn & R); auto.
        { unfold wrap. destruct (Z.geb_spec (k + 1) Size); lia. }
        { cbn [length] in Hj. lia. }
        exists (S n), rd, ien'. split; [lia|]. rewrite R. cbn [firstn]. now rewrite <- app_assoc.
    + rewrite isrs_off. exists 0%nat, k, false. split; [lia|]. cbn [firstn]. now rewrite app_nil_r.
Qed.

Lemma isrs_empty : forall l m ien sent done, exists ien',
  tx_isrs Size l (mkTx (mkRing m 0 0) ien TIdle sent done) = Some (mkTx (mkRing m 0 0) ien' TIdle sent done).
Proof.
  induction l as [|l IH]; intros m ien sent done; cbn [tx_isrs]; [now exists ien|].
  unfold tx_isr. cbn [t_ien t_ring t_pc t_sent t_done]. destruct ien; [|apply IH].
  replace (ring_length Size (mkRing m 0 0)) with 0 by reflexivity. cbn [Z.eqb negb]. apply IH.
Qed.

Lemma flush_inv : forall s seen q i j l, tx_inv Size s seen q -> t_pc s = TIdle -> (i + j <= length q)%nat ->
  exists s' n, tx_flush Size i j l s = Some s' /\ (i <= n <= i + j)%nat /\ t_sent s' = t_sent s ++ firstn n q /\
    t_done s' = t_done s /\ t_pc s' = TIdle /\ rb_wr (t_ring s') = 0 /\ rb_rd (t_ring s') = 0.
Proof.
  intros [r ien pc sent done] seen q i j l I Hpc Hij. cbn [t_pc] in Hpc. subst pc.
  destruct I as [Hb [H1 [_ H3]]]. cbn [t_pc t_ring t_ien] in *. unfold tx_flush.
  assert (R1 : exists r' ien', tx_isrs Size i (mkTx r ien TIdle sent done) = Some (mkTx r' ien' TIdle (sent ++ firstn i q) done) /\
    holds Size r' (skipn i q)).
  { destruct q as [|x q].
    - destruct i; [|cbn in Hij; lia]. exists r, ien. cbn [tx_isrs firstn skipn]. rewrite app_nil_r. auto.
    - rewrite (H3 ltac:(discriminate)). destruct (isrs_read i r (x :: q) sent done H1 Hb ltac:(lia)) as (r' & R & H' & _). eauto. }
  destruct R1 as (r' & ien' & R1 & H'). rewrite R1. unfold with_ring, clear_wr. cbn [t_ring t_ien t_pc t_sent t_done].
  destruct H' as [Hrd [_ [_ Hi]]].
  destruct (isrs_between j (rb_mem r') (rb_rd r') (skipn i q) ien' (sent ++ firstn i q) done) as (n & rd & ien2 & Hn & R2); auto.
  { rewrite <- (firstn_skipn i q) in Hb. apply Forall_app in Hb. tauto. }
  { rewrite skipn_length. lia. }
  rewrite R2. unfold clear_rd. cbn [t_ring t_ien t_pc t_sent t_done rb_mem rb_wr].
  destruct (isrs_empty l (rb_mem r') ien2 ((sent ++ firstn i q) ++ firstn n (skipn i q)) done) as (ien3 & R3). rewrite R3.
  eexists _, (i + n)%nat. split; [reflexivity|]. split; [lia|]. cbn [t_sent t_done t_pc t_ring rb_wr rb_rd].
  split; [|auto]. rewrite <- app_assoc. f_equal.
  rewrite <- (firstn_skipn i q) at 3. rewrite firstn_app, firstn_firstn, firstn_length. rewrite !Nat.min_r by lia. f_equal. f_equal. lia.
Qed.

Lemma tx_flush_clean_l : forall m evs s i j l, tx_polite Size (tx_init m) false evs = true -> tx_run Size (tx_init m) evs = Some s ->
  t_pc s = TIdle -> Z.of_nat i + Z.of_nat j <= ring_length Size (t_ring s) ->
  exists s' n, tx_flush Size i j l s = Some s' /\ (i <= n <= i + j)%nat /\
    t_sent s' = firstn (length (t_sent s) + n) (accepted (t_done s)) /\ ring_length Size (t_ring s') = 0 /\
    t_pc s' = TIdle /\ exists c, tx_close Size i j l s = Some c /\ t_sent c = t_sent s' /\ ring_length Size (t_ring c) = 0 /\
    forall k, tx_isrs Size k c = Some c.
Proof.
  intros m evs s i j l HP R Hpc Hij.
  destruct (tx_run_inv Size HSize evs _ _ _ (tx_init_inv Size HSize m) HP) as (s1 & seen & q & E & I). rewrite R in E. inversion E; subst s1.
  destruct (inv_len Size HSize s seen q I Hpc) as (L & _ & A & _). rewrite L in Hij.
  destruct (flush_inv s seen q i j l I Hpc ltac:(lia)) as (s' & n & F & Hn & Sn & _ & Pc & W0 & R0).
  exists s', n. split; [exact F|]. split; [exact Hn|]. split; [rewrite A, firstn_app_2; exact Sn|].
  assert (L0 : ring_length Size (t_ring s') = 0) by (unfold ring_length; rewrite W0, R0; reflexivity).
  split; [exact L0|]. split; [exact Pc|]. unfold tx_close. rewrite F. eexists. split; [reflexivity|]. split; [reflexivity|]. split; [exact L0|].
  intros k. apply isrs_off.
Qed.

Lemma tx_flush_stale_l : forall m evs s, tx_polite Size (tx_init m) false evs = true -> tx_run Size (tx_init m) evs = Some s ->
  t_pc s = TIdle -> t_ien s = true -> rb_wr (t_ring s) <> 0 ->
  exists s', tx_flush Size (Z.to_nat (ring_length Size (t_ring s))) 1 0 s = Some s' /\
    t_sent s' = accepted (t_done s) ++ [u8 (rb_mem (t_ring s) (rb_wr (t_ring s)))] /\
    exists c, tx_close Size (Z.to_nat (ring_length Size (t_ring s))) 1 0 s = Some c /\ t_sent c = t_sent s'.
Proof.
  intros m evs s HP R Hpc Hien Hw.
  destruct (tx_run_inv Size HSize evs _ _ _ (tx_init_inv Size HSize m) HP) as (s1 & seen & q & E & I). rewrite R in E. inversion E; subst s1. clear E.
  destruct (inv_len Size HSize s seen q I Hpc) as (L & _ & A & _). rewrite L, Nat2Z.id. unfold tx_close.
  destruct s as [r ien pc sent done]. cbn [t_pc t_ien t_ring t_done t_sent] in *. subst pc ien.
  destruct I as [Hb [H1 _]]. cbn [t_pc t_ring t_ien] in *. unfold tx_flush.
  destruct (isrs_read (length q) r q sent done H1 Hb (le_n _)) as (r' & R1 & H' & M & W). rewrite R1.
  rewrite skipn_all in H'. destruct H' as [Hrd [_ [Hw' _]]]. cbn [length Z.of_nat] in Hw'.
  assert (Erd : rb_rd r' = rb_wr r). { unfold wrap in Hw'. rewrite Z.add_0_r in Hw'. destruct (Z.geb_spec (rb_rd r') Size); lia. }
  unfold with_ring, clear_wr. cbn [t_ring t_ien t_pc t_sent t_done tx_isrs]. unfold tx_isr. cbn [t_ring t_ien t_pc t_sent t_done].
  unfold ring_length. cbn [rb_wr rb_rd]. destruct (Z.geb_spec 0 (rb_rd r')) as [G|G]; [lia|].
  rewrite u16_small by lia. destruct (Z.eqb_spec (Size - (rb_rd r' - 0)) 0) as [E0|_]; [lia|]. cbn [negb].
  unfold ring_read. cbn [rb_rd rb_mem rb_wr]. assert (In1 : inb (rb_rd r') Size = true) by (apply inb_true; lia). rewrite In1.
  eexists. split; [reflexivity|]. cbn [t_sent]. rewrite firstn_all, A, M, Erd. split; [reflexivity|]. eexists. split; reflexivity.
Qed.

(** UsartInputStream::Clear *)
Definition room (rd : Z) : nat := Z.to_nat (if rd =? 0 then Size - 1 else rd - 1).

Lemma write_beside : forall r l v, holds Size (clear_rd r) l -> 0 <= rb_rd r < Size -> (length l <= room (rb_rd r))%nat ->
  exists r' b, ring_write Size r v = Some (r', b) /\ rb_rd r' = rb_rd r /\
    holds Size (clear_rd r') (if Nat.ltb (length l) (room (rb_rd r)) then l ++ [v] else l).
Proof.
  intros r l v H Hk Hl. destruct (holds_write Size HSize _ l v H) as (r0 & E0 & H0).
  destruct H as [_ [Hlen [Hw _]]]. unfold clear_rd in Hw. cbn [rb_rd rb_wr] in Hw. unfold wrap in Hw. rewrite Z.add_0_l in Hw.
  destruct (Z.geb_spec (Z.of_nat (length l)) Size) as [X|_]; [lia|].
  unfold room in *. unfold ring_write in *. unfold clear_rd in E0. cbn [rb_wr rb_rd rb_mem] in E0.
  destruct (Nat.ltb_spec (length l) (Z.to_nat (if rb_rd r =? 0 then Size - 1 else rb_rd r - 1))) as [Lt|Ge].
  - destruct (Z.ltb_spec (Z.of_nat (length l)) (Size - 1)) as [Lt2|Ge2]; [|destruct (Z.eqb_spec (rb_rd r) 0); lia].
    destruct (Z.geb_spec (rb_wr r + 1) Size) as [X|X]; [lia|].
    destruct (Z.eqb_spec (rb_wr r + 1) 0) as [Y|_]; [lia|].
    destruct (Z.eqb_spec (rb_wr r + 1) (rb_rd r)) as [Y|_]; [destruct (Z.eqb_spec (rb_rd r) 0); lia|].
    destruct (inb (rb_wr r) Size); [|discriminate]. inversion E0; subst r0. eexists _, _. split; [reflexivity|]. split; [reflexivity|exact H0].
  - assert (Eq : length l = Z.to_nat (if rb_rd r =? 0 then Size - 1 else rb_rd r - 1)) by lia.
    exists r, false.
    assert (C : (if rb_wr r + 1 >=? Size then 0 =? rb_rd r else rb_wr r + 1 =? rb_rd r) = true).
    { destruct (Z.eqb_spec (rb_rd r) 0) as [K|K].
      - destruct (Z.geb_spec (rb_wr r + 1) Size); lia.
      - destruct (Z.geb_spec (rb_wr r + 1) Size); lia. }
    rewrite C. split; [reflexivity|]. split; [reflexivity|].
    destruct (Z.ltb_spec (Z.of_nat (length l)) (Size - 1)) as [Lt2|Ge2].
    + assert (Hl0 : holds Size (clear_rd r) l).
      { destruct (Z.geb_spec (rb_wr r + 1) Size) as [X|X]; [lia|]. destruct (Z.eqb_spec (rb_wr r + 1) 0) as [Y|_]; [lia|].
        destruct (inb (rb_wr r) Size); [|discriminate]. inversion E0; subst r0. unfold holds in *. cbn [clear_rd rb_rd rb_wr rb_mem] in *.
        destruct H0 as [A [B [_ D]]]. split; [lia|]. split; [lia|]. split; [unfold wrap; destruct (Z.geb_spec (0 + Z.of_nat (length l)) Size); lia|].
        rewrite app_length, Nat.add_1_r in D. rewrite items_snoc in D by lia. apply app_inj_tail in D. destruct D as [D _].
        rewrite D at 1. apply items_ext; try lia. intros k Hk2. apply upd_other. unfold wrap. destruct (Z.geb_spec (0 + k) Size); lia. }
      exact Hl0.
    + destruct (Z.geb_spec (rb_wr r + 1) Size) as [X|X]; [|lia]. change (0 =? 0) with true in E0. cbn iota in E0. inversion E0; subst r0. exact H0.
Qed.

Lemma rx_isrs_room : forall ds r l pc got acc, holds Size (clear_rd r) l -> 0 <= rb_rd r < Size -> (length l <= room (rb_rd r))%nat ->
  exists r' acc', rx_isrs Size ds (mkRx r true pc got acc) = Some (mkRx r' true pc got acc') /\
    holds Size (clear_rd r') (l ++ firstn (room (rb_rd r) - length l) (map u8 ds)).
Proof.
  induction ds as [|d ds IH]; intros r l pc got acc H Hk Hl; cbn [rx_isrs map].
  - exists r, acc. rewrite firstn_nil, app_nil_r. auto.
  - unfold rx_isr. cbn [r_ien r_ring r_pc r_got r_acc andb].
    destruct (write_beside r l (u8 d) H Hk Hl) as (r1 & b & E & K & H1). rewrite E.
    destruct (Nat.ltb_spec (length l) (room (rb_rd r))) as [Lt|Ge].
    + destruct (IH r1 (l ++ [u8 d]) pc got (if b then acc ++ [u8 d] else acc) H1) as (r' & acc' & R & H').
      { rewrite K. exact Hk. }
      { rewrite K, app_length. cbn [length]. lia. }
      exists r', acc'. split; [exact R|]. rewrite K, app_length in H'. cbn [length] in H'. rewrite <- app_assoc in H'. cbn [app] in H'.
      replace (room (rb_rd r) - length l)%nat with (S (room (rb_rd r) - (length l + 1)))%nat by lia. exact H'.
    + destruct (IH r1 l pc got (if b then acc ++ [u8 d] else acc) H1) as (r' & acc' & R & H').
      { rewrite K. exact Hk. }
      { rewrite K. exact Hl. }
      exists r', acc'. split; [exact R|]. rewrite K in H'. replace (room (rb_rd r) - length l)%nat with 0%nat in * by lia. exact H'.
Qed.

Lemma holds_drain : forall q r, holds Size r q -> drain Size (length q) r = Some q.
Proof.
  induction q as [|x q IH]; intros r H; [reflexivity|]. cbn [length drain].
  destruct (holds_read Size HSize _ _ _ H) as [r' [E H']]. rewrite E, (IH _ H'). reflexivity.
Qed.

Lemma rx_clear_l : forall m evs s ds, rx_polite Size (rx_init m) false evs = true -> rx_run Size (rx_init m) evs = Some s ->
  r_pc s = RIdle -> r_ien s = true ->
  exists s', rx_clear Size ds s = Some s' /\
    let kept := firstn (Z.to_nat (if rb_rd (r_ring s) =? 0 then Size - 1 else rb_rd (r_ring s) - 1)) (map u8 ds) in
    ring_length Size (r_ring s') = Z.of_nat (length kept) /\ drain Size (length kept) (r_ring s') = Some kept.
Proof.
  intros m evs s ds HP R Hpc Hien.
  destruct (rx_run_inv Size HSize evs _ _ _ (rx_init_inv Size HSize m) HP) as (s1 & seen & q & E & I). rewrite R in E. inversion E; subst s1. clear E.
  destruct s as [r ien pc got acc]. cbn [r_pc r_ien r_ring] in *. subst pc ien. destruct I as [_ [[Hk _] _]]. cbn [r_ring] in Hk.
  unfold rx_clear, rx_with_ring. cbn [r_ring r_ien r_pc r_got r_acc].
  destruct (rx_isrs_room ds (clear_wr r) [] RIdle got acc) as (r' & acc' & R' & H').
  { apply (holds_clear Size HSize (mkRing (rb_mem r) 0 0)). }
  { exact Hk. }
  { cbn. lia. }
  cbn [clear_wr rb_rd length app] in R', H'. rewrite Nat.sub_0_r in H'. unfold room in H'. rewrite R'.
  eexists. split; [reflexivity|]. cbn [r_ring]. split; [now apply holds_length|now apply holds_drain].
Qed.
End F.
