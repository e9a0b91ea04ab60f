(** When a Write of the stream is accepted, which values are offered, and when the handler stores a character. *)
Require Import ZArith List Bool Lia ZifyBool.
Import ListNotations.
From Verif Require Import Base BaseFacts RingModel RingSpec RingProofs StreamModel StreamSpec StreamProofs.
Open Scope Z_scope.
Local Ltac Zify.zify_post_hook ::= idtac.

Section M.
Variable Size : Z.
Hypothesis HSize : 1 <= Size <= 65535.

Lemma check_full : forall (r : ring Z) q, holds Size r q ->
  (if rb_wr r + 1 >=? Size then 0 =? rb_rd r else rb_wr r + 1 =? rb_rd r) = negb (Z.of_nat (length q) <? Size - 1).
Proof.
  intros r q (Hrd & Hq & Hw & _). unfold wrap in Hw.
  destruct (Z.geb_spec (rb_rd r + Z.of_nat (length q)) Size); destruct (Z.geb_spec (rb_wr r + 1) Size);
    destruct (Z.ltb_spec (Z.of_nat (length q)) (Size - 1)); cbn [negb]; lia.
Qed.
Lemma accept_inv : forall s seen q v, tx_inv Size s seen q -> t_pc s = TCheck v ->
  exists s', tx_step Size s TxStep = Some s' /\
    (if Z.of_nat (length (accepted (t_done s))) - Z.of_nat (length (t_sent s)) <? Size - 1
     then t_pc s' = TStore v /\ t_done s' = t_done s else t_pc s' = TEnable /\ t_done s' = t_done s ++ [(v, false)]).
Proof.
  intros s seen q v [_ H] P. rewrite P in H. destruct H as (_ & H1 & H2 & _). cbn [tx_step]. unfold tx_main. rewrite P, (check_full _ _ H1), H2, app_length.
  replace (Z.of_nat (length (t_sent s) + length q) - Z.of_nat (length (t_sent s))) with (Z.of_nat (length q)) by lia.
  destruct (Z.of_nat (length q) <? Size - 1); cbn [negb]; (eexists; split; [reflexivity|]); cbn [t_pc t_done]; auto.
Qed.
Lemma accept_l : forall m evs s v, tx_polite Size (tx_init m) false evs = true -> tx_run Size (tx_init m) evs = Some s -> t_pc s = TCheck v ->
  exists s', tx_step Size s TxStep = Some s' /\
    (if Z.of_nat (length (accepted (t_done s))) - Z.of_nat (length (t_sent s)) <? Size - 1
     then t_pc s' = TStore v /\ t_done s' = t_done s else t_pc s' = TEnable /\ t_done s' = t_done s ++ [(v, false)]).
Proof.
  intros m evs s v P R C. destruct (tx_run_inv Size HSize evs _ _ _ (tx_init_inv Size HSize m) P) as [s0 [seen [q [E H]]]].
  rewrite R in E. injection E as <-. eapply accept_inv; eassumption.
Qed.

Lemma calls_step : forall s e s', tx_step Size s e = Some s' -> offered s' = offered s ++ (match e, t_pc s with TxStart v, TIdle => [u8 v] | _, _ => [] end).
Proof.
  intros s e s' E. unfold offered. destruct e as [v| |]; cbn [tx_step] in E.
  - destruct (t_pc s) eqn:P; injection E as <-; cbn [t_done t_pc]; rewrite ?P, ?app_nil_r; reflexivity.
  - unfold tx_main in E. destruct (t_pc s) eqn:P; repeat match type of E with (if ?b then _ else _) = _ => destruct b; [|try discriminate E] end; injection E as <-;
      cbn [t_done t_pc]; rewrite ?P, ?app_nil_r, ?map_app; reflexivity.
  - rewrite app_nil_r. unfold tx_isr in E. destruct (t_ien s); [|now injection E as <-]. destruct (negb _); [|now injection E as <-].
    destruct (ring_read Size (t_ring s)) as [[r v]|]; [now injection E as <-|discriminate E].
Qed.
Lemma calls_run : forall evs s s', tx_run Size s evs = Some s' -> offered s' = offered s ++ map u8 (tx_calls Size s evs).
Proof.
  induction evs as [|e evs IH]; intros s s' E; cbn [tx_run tx_calls] in *.
  - injection E as <-. cbn [map]. now rewrite app_nil_r.
  - destruct (tx_step Size s e) as [s1|] eqn:E1; [|discriminate E]. rewrite (IH _ _ E), (calls_step _ _ _ E1), <- app_assoc. f_equal.
    rewrite map_app. f_equal. destruct e; try reflexivity. destruct (t_pc s); reflexivity.
Qed.

Definition in_flight (s : rxs) (q : list Z) : Prop :=
  Z.of_nat (length (r_acc s)) = Z.of_nat (length (vals (r_got s))) + (match r_pc s with RWrap _ => 1 | _ => 0 end) + Z.of_nat (length q).
Lemma flight : forall s seen q, rx_inv Size s seen q -> in_flight s q.
Proof.
  intros s seen q [_ H]. unfold in_flight. destruct (r_pc s).
  1-2: destruct H as [_ H]; rewrite H, app_length; lia.
  1-3: destruct H as (_ & H & _); rewrite H, app_length; lia.
  - destruct H as (_ & _ & _ & H & _). rewrite H, app_length. cbn [length]. lia.
  - destruct H as [_ H]. rewrite H, app_length. lia.
Qed.
Lemma store_inv : forall s seen q v ok, rx_inv Size s seen q -> rx_in_window Size s && seen = false ->
  exists s', rx_step Size s (RxIsr v ok) = Some s' /\ r_got s' = r_got s /\ r_pc s' = r_pc s /\ r_ien s' = r_ien s /\
    r_acc s' = r_acc s ++ (if r_ien s && ok && (rx_waiting s <? Size - 1) then [u8 v] else []).
Proof.
  intros s seen q v ok X G. pose proof (flight _ _ _ X) as F. unfold in_flight in F.
  assert (W : rx_waiting s = Z.of_nat (length q)) by (unfold rx_waiting; fold (vals (r_got s)); lia). rewrite W. clear F W.
  cbn [rx_step]. unfold rx_isr. destruct (r_ien s && ok) eqn:ON; cbn [andb]; [|exists s; rewrite app_nil_r; auto].
  assert (K : exists r', ring_write Size (r_ring s) (u8 v) = Some (r', Z.of_nat (length q) <? Size - 1)).
  { destruct X as [_ H]. destruct (r_pc s) as [| |ge| |w|w|] eqn:P.
    6: { destruct H as (_ & H1 & H2 & _ & H4). unfold rx_in_window in G. rewrite P in G.
      destruct (window_write Size HSize (r_ring s) q (u8 v) H1 H2) as (r' & E & _); [|eauto].
      intros E. apply H4; [exact E|]. destruct seen; [|reflexivity]. destruct (Z.geb_spec (rb_rd (r_ring s)) Size); [discriminate G|lia]. }
    all: destruct H as (H1 & _); destruct (holds_write Size HSize _ q (u8 v) H1) as [r' [E _]]; eauto. }
  destruct K as [r' K]. rewrite K. eexists. split; [reflexivity|]. cbn [r_got r_pc r_ien r_acc]. do 3 (split; [reflexivity|]).
  destruct (_ <? _); [reflexivity|now rewrite app_nil_r].
Qed.
Lemma polite_snoc : forall evs e s seen, rx_polite Size s seen (evs ++ [e]) = true -> rx_polite Size s seen evs = true /\
  forall s' q, rx_inv Size s seen q -> rx_run Size s evs = Some s' -> exists seen' q', rx_inv Size s' seen' q' /\
    (rx_in_window Size s' && (match e with RxIsr _ _ => true | _ => false end) && seen' = false).
Proof.
  induction evs as [|e0 evs IH]; intros e s seen P; cbn [app rx_polite rx_run] in *.
  - split; [reflexivity|]. intros s' q H E. injection E as <-. exists seen, q. split; [exact H|].
    match type of P with (if ?c then _ else _) = _ => destruct c; [discriminate P|reflexivity] end.
  - match type of P with (if ?c then _ else _) = _ => destruct c eqn:G; [discriminate P|] end.
    destruct (rx_step Size s e0) as [s1|] eqn:E1; [|split; [reflexivity|discriminate]].
    destruct (IH _ _ _ P) as [P1 P2]. split; [exact P1|]. intros s' q H E.
    destruct (rx_step_inv Size HSize s seen q e0 H G) as (s2 & q2 & E2 & H2). rewrite E1 in E2. injection E2 as <-. eapply P2; eassumption.
Qed.
Lemma store_l : forall m evs s v ok, rx_polite Size (rx_init m) false (evs ++ [RxIsr v ok]) = true -> rx_run Size (rx_init m) evs = Some s ->
  exists s', rx_step Size s (RxIsr v ok) = Some s' /\ r_got s' = r_got s /\ r_pc s' = r_pc s /\ r_ien s' = r_ien s /\
    r_acc s' = r_acc s ++ (if r_ien s && ok && (rx_waiting s <? Size - 1) then [u8 v] else []).
Proof.
  intros m evs s v ok P R. destruct (polite_snoc _ _ _ _ P) as [_ Q]. destruct (Q s [] (rx_init_inv Size HSize m) R) as (seen & q & X & G).
  eapply store_inv; [exact X|]. rewrite andb_true_r in G. exact G.
Qed.
End M.
