(** C95: proofs. *)
Require Import ZArith List Bool Lia ZifyBool.
Import ListNotations.
From Verif Require Import Base BaseFacts RingModel RingProofs StreamModel StreamProofs HwRxModel HwRxSpec.
Open Scope Z_scope.
Local Ltac Zify.zify_post_hook ::= idtac.

Fixpoint last_lost (b : bool) (o : list (Z * bool)) : bool :=
  match o with [] => b | (_, k) :: rest => last_lost (negb k) rest end.
Definition lost_of (o : list (Z * bool)) : nat := length (filter (fun c => negb (snd c)) o).
Definition busy (u : uart) : bool := match u_line u with Some _ => true | None => false end.

Lemma last_lost_snoc : forall o b d k, last_lost b (o ++ [(d, k)]) = negb k.
Proof. induction o as [|[e j] o IH]; intros; [reflexivity|]. cbn [app last_lost]. apply IH. Qed.
Lemma deliver_kept : forall o b d, deliver b (o ++ [(d, true)]) = deliver b o ++ [(d, last_lost b o)].
Proof.
  induction o as [|[e j] o IH]; intros; [reflexivity|]. destruct j; cbn [app deliver last_lost negb]; rewrite IH; reflexivity.
Qed.
Lemma deliver_lost : forall o b d, deliver b (o ++ [(d, false)]) = deliver b o.
Proof. induction o as [|[e j] o IH]; intros; [reflexivity|]. destruct j; cbn [app deliver]; rewrite IH; reflexivity. Qed.
Lemma lost_of_app : forall a b, lost_of (a ++ b) = (lost_of a + lost_of b)%nat.
Proof. intros. unfold lost_of. rewrite filter_app, app_length. reflexivity. Qed.

Definition hw_wf (u : uart) : Prop :=
  (length (u_fifo u) <= 2)%nat /\ (u_shift u <> None -> length (u_fifo u) = 2%nat) /\ (u_line u <> None -> u_shift u = None).
Definition hw_inv (o taken : list (Z * bool)) (u : uart) : Prop :=
  deliver false o = taken ++ unread u /\ last_lost false o = (match u_line u with Some b => b | None => false end) /\ hw_wf u.

Lemma settle_unread : forall f sh line, unread (uart_settle f sh line) = f ++ match sh with Some c => [c] | None => [] end.
Proof.
  intros f [c|] line; unfold uart_settle; [|reflexivity].
  destruct (Nat.ltb (length f) 2); unfold unread; cbn [u_fifo u_shift]; [apply app_nil_r|reflexivity].
Qed.
Lemma settle_line : forall f sh line, u_line (uart_settle f sh line) = line.
Proof. intros f [c|] line; unfold uart_settle; [destruct (Nat.ltb (length f) 2)|]; reflexivity. Qed.
Lemma settle_wf : forall f sh line, (length f <= 2)%nat -> (line <> None -> sh = None) -> hw_wf (uart_settle f sh line).
Proof.
  intros f [c|] line Hf Hl; unfold uart_settle.
  - destruct (Nat.ltb_spec (length f) 2); unfold hw_wf; cbn [u_fifo u_shift u_line].
    + rewrite app_length. cbn [length]. split; [lia|]. split; [congruence|]. intros X. reflexivity.
    + split; [lia|]. split; [intros _; lia|]. exact Hl.
  - unfold hw_wf; cbn [u_fifo u_shift u_line]. split; [exact Hf|]. split; [congruence|reflexivity].
Qed.

Lemma hw_run_inv : forall evs u o taken u' b, hw_inv o taken u -> uart_run u evs = (u', b) ->
  exists o', hw_inv o' (taken ++ b) u' /\ map fst o' = map fst o ++ chars (busy u) evs /\
    lost_of o' = (lost_of o + losses (length (unread u)) (busy u) evs)%nat.
Proof.
  induction evs as [|e evs IH]; intros u o taken u' b I E; cbn [uart_run] in E.
  - inversion E; subst. exists o. cbn [chars losses]. rewrite !app_nil_r, Nat.add_0_r. auto.
  - destruct (uart_step u e) as [u1 a] eqn:E1. destruct (uart_run u1 evs) as [u2 b2] eqn:E2.
    inversion E; subst u2 b. clear E. destruct I as (D & L & W & Sh & Ln).
    destruct e as [|d|]; cbn [uart_step] in E1.
    + inversion E1; subst a. clear E1. destruct u as [f sh line]. unfold uart_start in H0.
      cbn [u_fifo u_shift u_line] in *. destruct line as [b|].
      * subst u1. cbn [chars losses busy u_line].
        destruct (IH _ o taken _ _ (conj D (conj L (conj W (conj Sh Ln)))) E2) as (o' & I' & C' & N').
        exists o'. cbn [app]. auto.
      * destruct sh as [c|].
        -- assert (W2 : length f = 2%nat) by (apply Sh; discriminate).
           destruct o as [|x o0] using rev_ind.
           { cbn in D. symmetry in D. apply app_eq_nil in D. destruct D as [_ D]. unfold unread in D. cbn [u_fifo u_shift] in D.
             destruct f; discriminate. }
           clear IHo0. destruct x as [d k]. rewrite last_lost_snoc in L. destruct k; [|discriminate].
           rewrite deliver_kept in D. unfold unread in D. cbn [u_fifo u_shift] in D. rewrite app_assoc in D.
           apply app_inj_tail in D. destruct D as [D _].
           subst u1. destruct (IH (mkUart f None (Some true)) (o0 ++ [(d, false)]) taken _ _ ltac:(
             split; [unfold unread; cbn [u_fifo u_shift]; rewrite deliver_lost, app_nil_r; exact D|];
             split; [rewrite last_lost_snoc; reflexivity|];
             unfold hw_wf; cbn [u_fifo u_shift u_line]; split; [lia|]; split; [congruence|reflexivity]) E2) as (o' & I' & C' & N').
           exists o'. cbn [app]. split; [exact I'|]. cbn [chars losses busy u_line] in *.
           split; [rewrite C', !map_app; reflexivity|].
           unfold unread in *. cbn [u_fifo u_shift] in *. rewrite app_length, W2. rewrite app_nil_r, W2 in N'. cbn [length Nat.add Nat.eqb].
           rewrite N', !lost_of_app. cbn [lost_of filter snd negb length]. unfold lost_of. cbn [filter snd negb length]. lia.
        -- subst u1. destruct (IH (mkUart f None (Some false)) o taken _ _ ltac:(
             split; [exact D|]; split; [exact L|];
             unfold hw_wf; cbn [u_fifo u_shift u_line]; split; [lia|]; split; [congruence|reflexivity]) E2) as (o' & I' & C' & N').
           exists o'. cbn [app]. split; [exact I'|]. cbn [chars losses busy u_line] in *. split; [exact C'|].
           unfold unread in *. cbn [u_fifo u_shift] in *. rewrite app_nil_r in *.
           destruct (Nat.eqb_spec (length f) 3); [lia|]. exact N'.
    + inversion E1; subst a. clear E1. unfold uart_stop in H0. destruct u as [f sh line]. cbn [u_fifo u_shift u_line] in *.
      cbn [chars losses app]. destruct line as [ov|]; cbn [busy u_line].
      * assert (sh = None) by (apply Ln; discriminate). subst sh u1.
        destruct (IH (uart_settle f (Some (d, ov)) None) (o ++ [(d, true)]) taken _ _ ltac:(
          split; [rewrite settle_unread, deliver_kept, D, L; unfold unread; cbn [u_fifo u_shift]; rewrite app_nil_r, app_assoc; reflexivity|];
          split; [rewrite last_lost_snoc, settle_line; reflexivity|];
          apply settle_wf; [exact W|congruence]) E2) as (o' & I' & C' & N').
        exists o'. split; [exact I'|]. unfold busy in C', N'. rewrite settle_line in C', N'. rewrite settle_unread in N'.
        split; [rewrite C', map_app, <- app_assoc; reflexivity|].
        unfold unread. cbn [u_fifo u_shift]. rewrite app_nil_r. rewrite app_length in N'. cbn [length] in N'. rewrite Nat.add_1_r in N'.
        rewrite N', lost_of_app. unfold lost_of. cbn [filter snd negb length]. lia.
      * subst u1. destruct (IH _ o taken _ _ (conj D (conj L (conj W (conj Sh Ln)))) E2) as (o' & I' & C' & N').
        exists o'. auto.
    + unfold uart_take in E1. destruct u as [f sh line]. cbn [u_fifo u_shift u_line] in *. cbn [chars losses].
      destruct f as [|c f].
      * inversion E1; subst u1 a. assert (sh = None) by (destruct sh; [exfalso; cbn in Sh; discriminate Sh; discriminate|reflexivity]). subst sh.
        destruct (IH _ o taken _ _ (conj D (conj L (conj W (conj Sh Ln)))) E2) as (o' & I' & C' & N'). exists o'. auto.
      * inversion E1; subst u1 a. destruct (IH (uart_settle f sh line) o (taken ++ [c]) _ _ ltac:(
          split; [rewrite D, settle_unread, <- app_assoc; reflexivity|];
          split; [rewrite settle_line; exact L|];
          apply settle_wf; [cbn [length] in W; lia|exact Ln]) E2) as (o' & I' & C' & N').
        rewrite <- app_assoc in I'. exists o'. split; [exact I'|].
        unfold busy in C', N'. rewrite settle_line in C', N'. rewrite settle_unread in N'. split; [exact C'|exact N'].
Qed.

Lemma hw_init_inv : hw_inv [] [] uart_init.
Proof. split; [reflexivity|]. split; [reflexivity|]. unfold hw_wf; cbn. split; [lia|]. split; congruence. Qed.

Lemma hw_account_l : forall evs u taken, uart_run uart_init evs = (u, taken) ->
  exists o, map fst o = chars false evs /\ taken ++ unread u = deliver false o /\
    length (filter (fun c => negb (snd c)) o) = losses 0 false evs /\ (length (unread u) <= 3)%nat.
Proof.
  intros evs u taken E. destruct (hw_run_inv evs _ _ _ _ _ hw_init_inv E) as (o & (D & _ & W & Sh & _) & C & N).
  exists o. split; [exact C|]. split; [symmetry; exact D|]. split; [exact N|].
  unfold unread. rewrite app_length. destruct (u_shift u); cbn [length]; lia.
Qed.

Lemma deliver_all : forall o, lost_of o = 0%nat -> deliver false o = map (fun d => (d, false)) (map fst o).
Proof.
  induction o as [|[d k] o IH]; intros H; [reflexivity|]. unfold lost_of in H. destruct k; cbn [filter snd negb length] in H; [|discriminate].
  cbn [deliver map fst]. f_equal. apply IH. exact H.
Qed.

Lemma hw_prompt_l : forall evs u taken, uart_run uart_init evs = (u, taken) -> losses 0 false evs = 0%nat ->
  taken ++ unread u = map (fun d => (d, false)) (chars false evs).
Proof.
  intros evs u taken E H. destruct (hw_account_l evs u taken E) as (o & C & D & N & _).
  rewrite D, <- C. apply deliver_all. unfold lost_of. lia.
Qed.

(** ** Nobody reads *)

Lemma arrive_app : forall a b, arrive (a ++ b) = arrive a ++ arrive b.
Proof. induction a as [|d a IH]; intros b; [reflexivity|]. cbn [app arrive]. now rewrite IH. Qed.
Lemma uart_run_app : forall a b u, uart_run u (a ++ b) =
  let (u1, x) := uart_run u a in let (u2, y) := uart_run u1 b in (u2, x ++ y).
Proof.
  induction a as [|e a IH]; intros b u; cbn [app uart_run].
  - now destruct (uart_run u b).
  - destruct (uart_step u e) as [u1 x]. rewrite IH. destruct (uart_run u1 a) as [u2 y].
    destruct (uart_run u2 b) as [u3 z]. now rewrite app_assoc.
Qed.

Definition full_with (a b c : Z * bool) : uart := mkUart [a; b] (Some c) None.
Lemma full_run : forall ds a b c d, uart_run (full_with a b c) (arrive (ds ++ [d])) = (full_with a b (d, true), []).
Proof.
  induction ds as [|x ds IH]; intros a b c d; [reflexivity|].
  cbn [app arrive uart_run uart_step]. change (uart_stop (uart_start (full_with a b c)) x) with (full_with a b (x, true)).
  rewrite IH. reflexivity.
Qed.

Lemma hw_asleep_l : forall ds, let (u, taken) := uart_run uart_init (arrive ds) in
  taken = [] /\ unread u = if (length ds <=? 3)%nat then map (fun d => (d, false)) ds
    else map (fun d => (d, false)) (firstn 2 ds) ++ [(last ds 0, true)].
Proof.
  intros ds. destruct ds as [|a [|b [|c ds]]]; try (cbn; split; reflexivity).
  change (a :: b :: c :: ds) with ([a; b; c] ++ ds). rewrite arrive_app, uart_run_app.
  replace (uart_run uart_init (arrive [a; b; c])) with (full_with (a, false) (b, false) (c, false), @nil (Z * bool)) by reflexivity.
  destruct ds as [|d ds] using rev_ind; [cbn; split; reflexivity|]. clear IHds.
  rewrite full_run. split; [reflexivity|].
  rewrite app_length. destruct (Nat.leb_spec (length [a; b; c] + length (ds ++ [d])) 3) as [H|H].
  - rewrite app_length in H. cbn [length] in H. lia.
  - rewrite app_assoc, last_last. reflexivity.
Qed.

(** ** The stream on top *)

Lemma sub_refl : forall (l : list Z), sub l l.
Proof. induction l; [apply sub_nil|now apply sub_take]. Qed.
Lemma sub_snoc : forall (a b : list Z) x, sub a b -> sub (a ++ [x]) (b ++ [x]).
Proof. intros a b x H. induction H; cbn [app]; [apply sub_take, sub_nil|now apply sub_skip|now apply sub_take]. Qed.
Lemma sub_snoc_skip : forall (a b : list Z) x, sub a b -> sub a (b ++ [x]).
Proof. intros a b x H. induction H; cbn [app]; [apply sub_skip, sub_nil|now apply sub_skip|now apply sub_take]. Qed.
Lemma sub_length : forall (a b : list Z), sub a b -> (length a <= length b)%nat.
Proof. intros a b H. induction H; cbn [length]; lia. Qed.
Lemma sub_same : forall (a b : list Z), sub a b -> length a = length b -> a = b.
Proof.
  intros a b H. induction H; cbn [length]; intros L; [reflexivity|apply sub_length in H; lia|]. f_equal. apply IHsub. lia.
Qed.

Lemma fine_app : forall a b, fine (a ++ b) = fine a ++ fine b.
Proof. intros. unfold fine. now rewrite filter_app, map_app. Qed.
Lemma fine_all : forall l, fine (map (fun d => (d, false)) l) = l.
Proof. induction l as [|d l IH]; [reflexivity|]. unfold fine in *. cbn [map filter snd negb fst]. now rewrite IH. Qed.

Lemma fst_all : forall l : list Z, map fst (map (fun d => (d, false)) l) = l.
Proof. intros l. rewrite map_map. apply map_id. Qed.

Section P.
Variable Size : Z.
Hypothesis HSize : 1 <= Size <= 65535.

Lemma rx_inv_weaken : forall s seen seen' q, rx_inv Size s seen q ->
  (rx_in_window Size s = true -> seen' = false -> seen = false) -> rx_inv Size s seen' q.
Proof.
  intros s seen seen' q [B H] K. split; [exact B|]. unfold rx_in_window in K. destruct (r_pc s); try exact H.
  destruct H as (H1 & H2 & H3 & H4 & H5). repeat (split; [assumption|]). intros E F. apply H5; [exact E|]. apply K; [|exact F].
  lia.
Qed.

Lemma rx_accepts : forall s seen q v r b, rx_inv Size s seen q -> rx_in_window Size s && seen = false ->
  ring_write Size (r_ring s) v = Some (r, b) -> b = (Z.of_nat (length q) <? Size - 1).
Proof.
  intros s seen q v r b [_ H] K E.
  assert (G : holds Size (r_ring s) q -> b = (Z.of_nat (length q) <? Size - 1)).
  { intros G. destruct (holds_write Size HSize _ q v G) as [r' [E' _]]. rewrite E in E'. now inversion E'. }
  unfold rx_in_window in K. destruct (r_pc s); try (apply G; tauto).
  destruct H as (_ & H2 & H3 & _ & H5). destruct (window_write Size HSize _ q v H2 H3) as [r' [E' _]].
  - intros X. apply H5; [exact X|]. rewrite X in K. destruct (Z.geb_spec Size Size); [|lia]. exact K.
  - rewrite E in E'. now inversion E'.
Qed.

Lemma rx_inv_len : forall s seen q, rx_inv Size s seen q -> (length q <= length (r_acc s))%nat.
Proof.
  intros s seen q [_ H].
  destruct (r_pc s);
    [destruct H as [_ H]|destruct H as [_ H]|destruct H as (_ & H & _)|destruct H as (_ & H & _)|
     destruct H as (_ & H & _)|destruct H as (_ & _ & _ & H & _)|destruct H as [_ H]];
    rewrite H, app_length; cbn [length]; lia.
Qed.

Definition port_inv (p : port) (seen : bool) (q : list Z) : Prop :=
  rx_inv Size (p_rx p) seen q /\ sub (r_acc (p_rx p)) (map u8 (fine (p_taken p))) /\
  (Z.of_nat (length (fine (p_taken p))) <= Size - 1 -> length (r_acc (p_rx p)) = length (fine (p_taken p))).

Lemma rx_main_acc : forall s s', rx_main Size s = Some s' -> r_acc s' = r_acc s.
Proof.
  intros s s' H. unfold rx_main in H. destruct (r_pc s); try (inversion H; subst; reflexivity).
  destruct (inb (rb_rd (r_ring s)) Size); [|discriminate]. inversion H; subst; reflexivity.
Qed.
Lemma rx_start_acc : forall s s', rx_step Size s RxStart = Some s' -> r_acc s' = r_acc s.
Proof. intros s s' H. cbn [rx_step] in H. destruct (r_pc s); inversion H; subst; reflexivity. Qed.

Lemma port_step_inv : forall p seen q e, port_inv p seen q ->
  let isr := match e with PIsr => port_ready p | _ => false end in
  rx_in_window Size (p_rx p) && isr && seen = false ->
  exists p' q', port_step Size p e = Some p' /\
    port_inv p' (rx_in_window Size (p_rx p') && rx_in_window Size (p_rx p) && (seen || isr)) q'.
Proof.
  intros p seen q e (I & Sb & Ln) isr G.
  assert (Same : isr = false -> rx_inv Size (p_rx p) (rx_in_window Size (p_rx p) && rx_in_window Size (p_rx p) && (seen || isr)) q).
  { intros ->. eapply rx_inv_weaken; [exact I|]. intros ->. cbn [andb]. rewrite orb_false_r. auto. }
  destruct e as [|d| | |]; cbn [port_step]; subst isr.
  - eexists _, q. split; [reflexivity|]. split; [now apply Same|]. split; assumption.
  - eexists _, q. split; [reflexivity|]. split; [now apply Same|]. split; assumption.
  - unfold port_ready in *. destruct (r_ien (p_rx p)) eqn:Ei; [|eexists _, q; split; [reflexivity|]; split; [now apply Same|]; split; assumption].
    unfold uart_take. destruct (u_fifo (p_uart p)) as [|[d ov] f]; [eexists _, q; split; [reflexivity|]; split; [now apply Same|]; split; assumption|].
    cbn [andb] in *. destruct (rx_step_inv Size HSize (p_rx p) seen q (RxIsr d (negb ov)) I G) as (s' & q' & E & I').
    rewrite E. eexists _, q'. split; [reflexivity|]. cbn [p_rx p_taken]. split; [exact I'|].
    cbn [rx_step] in E. unfold rx_isr in E. rewrite Ei in E. cbn [andb] in E. cbn [p_rx p_taken]. rewrite fine_app.
    destruct ov; cbn [negb] in E.
    + inversion E; subst s'. change (fine [(d, true)]) with (@nil Z). rewrite app_nil_r. split; assumption.
    + change (fine [(d, false)]) with [d]. rewrite map_app, app_length. cbn [map length].
      destruct (ring_write Size (r_ring (p_rx p)) (u8 d)) as [[r b]|] eqn:W; [|discriminate]. inversion E; subst s'. cbn [r_acc].
      rewrite andb_true_r in G. pose proof (rx_accepts _ _ _ _ _ _ I G W) as Hb. pose proof (rx_inv_len _ _ _ I) as Hq.
      destruct b.
      * split; [now apply sub_snoc|]. intros X. rewrite app_length. cbn [length]. rewrite Ln by lia. reflexivity.
      * split; [now apply sub_snoc_skip|]. intros X. apply sub_length in Sb. rewrite map_length in Sb. lia.
  - destruct (rx_step_inv Size HSize (p_rx p) seen q RxStart I) as (s' & q' & E & I'); [exact G|]. rewrite E.
    eexists _, q'. split; [reflexivity|]. unfold port_inv. cbn [p_rx p_taken]. rewrite (rx_start_acc _ _ E). split; [exact I'|]. split; assumption.
  - destruct (rx_step_inv Size HSize (p_rx p) seen q RxStep I) as (s' & q' & E & I'); [exact G|]. rewrite E.
    eexists _, q'. split; [reflexivity|]. unfold port_inv. cbn [p_rx p_taken]. cbn [rx_step] in E. rewrite (rx_main_acc _ _ E). split; [exact I'|]. split; assumption.
Qed.

Lemma port_run_inv : forall evs p seen q, port_inv p seen q -> port_polite Size p seen evs = true ->
  exists p' seen' q', port_run Size p evs = Some p' /\ port_inv p' seen' q'.
Proof.
  induction evs as [|e evs IH]; intros p seen q H HP; cbn [port_run port_polite] in *; [eauto|].
  destruct (rx_in_window Size (p_rx p) && (match e with PIsr => port_ready p | _ => false end) && seen) eqn:Hg; [discriminate|].
  destruct (port_step_inv p seen q e H Hg) as (p' & q' & E & H'). rewrite E in *. eapply IH; eassumption.
Qed.

Lemma port_wire : forall evs p p', port_run Size p evs = Some p' ->
  exists taken, uart_run (p_uart p) (wire Size p evs) = (p_uart p', taken) /\ p_taken p' = p_taken p ++ taken.
Proof.
  induction evs as [|e evs IH]; intros p p' H; cbn [port_run wire] in *.
  - inversion H; subst. exists []. now rewrite app_nil_r.
  - destruct (port_step Size p e) as [p1|] eqn:E; [|discriminate]. destruct (IH _ _ H) as (t & R & T).
    rewrite uart_run_app. destruct e as [|d| | |]; cbn [port_step] in E.
    + inversion E; subst p1. cbn [uart_run uart_step p_uart p_taken] in *. rewrite R. eauto.
    + inversion E; subst p1. cbn [uart_run uart_step p_uart p_taken] in *. rewrite R. eauto.
    + destruct (r_ien (p_rx p)).
      * cbn [uart_run uart_step]. destruct (uart_take (p_uart p)) as [u' [[d ov]|]] eqn:K.
        -- destruct (rx_step Size (p_rx p) (RxIsr d (negb ov))) as [s|]; [|discriminate]. inversion E; subst p1.
           cbn [p_uart p_taken] in *. rewrite R. exists ((d, ov) :: t). split; [reflexivity|]. now rewrite T, <- app_assoc.
        -- inversion E; subst p1. assert (u' = p_uart p) as -> by (unfold uart_take in K; destruct (u_fifo (p_uart p)); congruence).
           rewrite R. eauto.
      * inversion E; subst p1. cbn [uart_run]. rewrite R. eauto.
    + cbn [uart_run]. destruct (rx_step Size (p_rx p) RxStart) as [s|]; [|discriminate]. inversion E; subst p1. cbn [p_uart p_taken] in *. rewrite R. eauto.
    + cbn [uart_run]. destruct (rx_step Size (p_rx p) RxStep) as [s|]; [|discriminate]. inversion E; subst p1. cbn [p_uart p_taken] in *. rewrite R. eauto.
Qed.

Lemma port_init_inv : forall m, port_inv (port_init m) false [].
Proof.
  intros m. split; [exact (rx_init_inv Size HSize m)|]. split; [constructor|reflexivity].
Qed.

Lemma rx_inv_rest : forall s seen q, rx_inv Size s seen q ->
  r_acc s = filter (fun v => 0 <=? v) (r_got s) ++ (match r_pc s with RWrap v => [v] | _ => [] end) ++ q /\
  Z.of_nat (length q) <= Size - 1.
Proof.
  intros s seen q [_ H]. fold (vals (r_got s)). destruct (r_pc s); cbn [app] in *.
  - destruct H as [[_ [Hq _]] H2]. split; [exact H2|lia].
  - destruct H as [[_ [Hq _]] H2]. split; [exact H2|lia].
  - destruct H as [[_ [Hq _]] [H2 _]]. split; [exact H2|lia].
  - destruct H as [[_ [Hq _]] [H2 _]]. split; [exact H2|lia].
  - destruct H as [[_ [Hq _]] [H2 _]]. split; [exact H2|lia].
  - destruct H as [_ [_ [[_ [Hq _]] [H2 _]]]]. split; [exact H2|lia].
  - destruct H as [[_ [Hq _]] H2]. split; [exact H2|lia].
Qed.

Lemma holds_run : forall q (r : ring Z), holds Size r q ->
  exists r' answers, ring_run Size r (repeat RRead (length q)) = Some (r', answers) /\ map fst answers = map ResRead q.
Proof.
  induction q as [|v q IH]; intros r H; cbn [length repeat ring_run map].
  - exists r, []. split; reflexivity.
  - destruct (holds_read Size HSize r v q H) as (r1 & E & H1). destruct (IH r1 H1) as (r2 & l & E2 & M). cbn [ring_call]. rewrite E, E2.
    eexists r2, _. split; [reflexivity|]. cbn [map fst]. now rewrite M.
Qed.
Lemma rx_inv_ring : forall s seen q, rx_inv Size s seen q -> in_ring Size s q.
Proof. intros s seen q [_ H] P. rewrite P in H. destruct H as [H _]. split; [apply holds_length; [exact HSize|exact H]|]. now apply holds_run. Qed.
Lemma port_all : forall m evs, port_polite Size (port_init m) false evs = true ->
  exists p queued o, port_run Size (port_init m) evs = Some p /\
    r_acc (p_rx p) = filter (fun v => 0 <=? v) (r_got (p_rx p))
                     ++ (match r_pc (p_rx p) with RWrap v => [v] | _ => [] end) ++ queued /\
    Z.of_nat (length queued) <= Size - 1 /\ in_ring Size (p_rx p) queued /\
    map fst o = chars false (wire Size (port_init m) evs) /\
    p_taken p ++ unread (p_uart p) = deliver false o /\
    length (filter (fun c => negb (snd c)) o) = losses 0 false (wire Size (port_init m) evs) /\
    sub (r_acc (p_rx p)) (map u8 (fine (p_taken p))) /\
    (Z.of_nat (length (fine (p_taken p))) <= Size - 1 -> r_acc (p_rx p) = map u8 (fine (p_taken p))).
Proof.
  intros m evs HP. destruct (port_run_inv evs _ _ _ (port_init_inv m) HP) as (p & seen & q & E & I & Sb & Ln).
  destruct (port_wire _ _ _ E) as (t & R & T). cbn [port_init p_taken app] in T. subst t.
  destruct (hw_account_l _ _ _ R) as (o & C & D & N & _). destruct (rx_inv_rest _ _ _ I) as [A B]. pose proof (rx_inv_ring _ _ _ I) as K.
  exists p, q, o. repeat (split; [assumption|]). intros X. apply sub_same; [exact Sb|]. rewrite map_length. now apply Ln.
Qed.

Lemma port_lossless_l : forall m evs, port_polite Size (port_init m) false evs = true ->
  losses 0 false (wire Size (port_init m) evs) = 0%nat ->
  exists p, port_run Size (port_init m) evs = Some p /\
    (length (r_acc (p_rx p)) = length (p_taken p) \/ Z.of_nat (length (p_taken p)) <= Size - 1 ->
     exists queued, in_ring Size (p_rx p) queued /\ map u8 (chars false (wire Size (port_init m) evs)) =
       filter (fun v => 0 <=? v) (r_got (p_rx p)) ++ (match r_pc (p_rx p) with RWrap v => [v] | _ => [] end) ++
       queued ++ map (fun c => u8 (fst c)) (unread (p_uart p))).
Proof.
  intros m evs HP HL. destruct (port_all m evs HP) as (p & q & o & E & A & _ & K & C & D & N & Sb & Ln).
  exists p. split; [exact E|]. intros H. exists q. split; [exact K|].
  assert (F : p_taken p ++ unread (p_uart p) = map (fun d => (d, false)) (map fst o)).
  { rewrite D. apply deliver_all. unfold lost_of. lia. }
  assert (G : map fst (p_taken p) = fine (p_taken p)).
  { symmetry in F. apply map_eq_app in F. destruct F as (l1 & l2 & _ & <- & _). now rewrite fine_all, map_map, map_id. }
  assert (Ac : r_acc (p_rx p) = map u8 (fine (p_taken p))).
  { destruct H as [H|H].
    - apply sub_same; [exact Sb|]. rewrite map_length, <- G, map_length. exact H.
    - apply Ln. rewrite <- G, map_length. exact H. }
  rewrite <- C.
  transitivity (map u8 (fine (p_taken p)) ++ map (fun c => u8 (fst c)) (unread (p_uart p))).
  - rewrite <- G. rewrite <- (map_map fst u8 (unread (p_uart p))), <- !map_app, F, fst_all. reflexivity.
  - rewrite <- Ac, A, <- !app_assoc. reflexivity.
Qed.
End P.

(** ** A lost character takes the next one along *)

Definition bit (b : bool) : nat := if b then 1%nat else 0%nat.
Lemma cost_any : forall o b, (length (fine (deliver b o)) + lost_of o + bit b <= length o + bit (last_lost b o))%nat.
Proof.
  induction o as [|[d k] o IH]; intros b; [cbn; lia|]. unfold lost_of in *. destruct k; cbn [deliver last_lost filter snd negb length].
  - specialize (IH false). change ((d, b) :: deliver false o) with ([(d, b)] ++ deliver false o). rewrite fine_app, app_length.
    destruct b; cbn [fine filter snd negb map fst length bit] in *; unfold fine in *; cbn [filter snd negb map fst length] in *; lia.
  - specialize (IH true). destruct b; cbn [bit] in *; lia.
Qed.
Lemma cost_some : forall o, (0 < lost_of o)%nat -> (length (fine (deliver false o)) + lost_of o + 1 <= length o + bit (last_lost false o))%nat.
Proof.
  induction o as [|[d k] o IH]; intros H; [cbn in H; lia|]. unfold lost_of in *. destruct k; cbn [deliver last_lost filter snd negb length] in *.
  - specialize (IH H). change ((d, false) :: deliver false o) with ([(d, false)] ++ deliver false o). rewrite fine_app, app_length.
    unfold fine at 1. cbn [filter snd negb map fst length]. lia.
  - pose proof (cost_any o true) as C. unfold lost_of in C. cbn [bit] in C. lia.
Qed.
Lemma hw_overrun_l : forall evs u taken, uart_run uart_init evs = (u, taken) -> u_line u = None -> (0 < losses 0 false evs)%nat ->
  (length (fine (taken ++ unread u)) + losses 0 false evs + 1 <= length (chars false evs))%nat.
Proof.
  intros evs u taken E L H. destruct (hw_run_inv evs _ _ _ _ _ hw_init_inv E) as (o & (D & LL & _) & C & N).
  cbn [app map lost_of filter length uart_init busy u_line unread u_fifo u_shift] in D, C, N. change (lost_of []) with 0%nat in N. cbn [Nat.add] in N.
  rewrite <- D, <- C, map_length, <- N. rewrite L in LL. pose proof (cost_some o) as K. rewrite LL in K. cbn [bit] in K. rewrite N in *. lia.
Qed.

Lemma hw_next_l : forall evs u taken, uart_run uart_init evs = (u, taken) ->
  let (u', a) := hw_try_read u in
  a = match unread u with
      | [] => (false, 0, HNotReady)
      | (d, over) :: _ => (true, d, if over then HDataOverRun else HSuccess)
      end /\ unread u' = tl (unread u).
Proof.
  intros evs u taken E. destruct (hw_run_inv evs _ _ _ _ _ hw_init_inv E) as (o & (_ & _ & W & Sh & _) & _).
  destruct u as [f sh line]. unfold hw_try_read, uart_take. cbn [u_fifo u_shift u_line] in *. destruct f as [|[d ov] f].
  - assert (sh = None) by (destruct sh; [exfalso; cbn in Sh; discriminate Sh; discriminate|reflexivity]). subst sh. split; reflexivity.
  - rewrite settle_unread. split; reflexivity.
Qed.

(** ** Latency *)

(** Completion times, [B] apart, the last not after [now]. *)
Fixpoint spaced (B now : Z) (q : list Z) : Prop :=
  match q with
  | [] => True
  | [c] => c <= now
  | c :: ((c2 :: _) as r) => c + B <= c2 /\ spaced B now r
  end.
Lemma spaced_later : forall B q now t, spaced B now q -> now <= t -> spaced B t q.
Proof.
  intros B q now t. induction q as [|c q IH]; intros H L; [exact Logic.I|]. destruct q as [|c2 q]; cbn [spaced] in *; [lia|].
  destruct H as [H1 H2]. split; [exact H1|]. now apply IH.
Qed.
Lemma spaced_tl : forall B q now, spaced B now q -> spaced B now (tl q).
Proof. intros B [|c [|c2 q]] now H; cbn [tl spaced] in *; auto. tauto. Qed.
Lemma spaced_snoc : forall B q s t, spaced B s q -> s + B <= t -> spaced B t (q ++ [t]).
Proof.
  intros B q s t. induction q as [|c q IH]; intros H L; [cbn; lia|]. destruct q as [|c2 q].
  - cbn [app spaced] in *. split; lia.
  - destruct H as [H1 H2]. specialize (IH H2 L). cbn [app] in *. split; [exact H1|exact IH].
Qed.

Lemma hw_latency_run : forall B L evs q now start, 0 <= B -> L <= 2 * B ->
  spaced B (match start with Some s => s | None => now end) q ->
  match start with Some s => s <= now | None => True end ->
  (length q <= match start with Some _ => 2 | None => 3 end)%nat ->
  paced B now start evs = true -> served L q (match start with Some _ => true | None => false end) evs = true ->
  losses (length q) (match start with Some _ => true | None => false end) (map snd evs) = 0%nat.
Proof.
  intros B L evs. induction evs as [|[t e] evs IH]; intros q now start HB HL Sp Now Len P V; [reflexivity|].
  cbn [paced served] in P, V. apply andb_prop in P, V. destruct P as [P0 P], V as [V0 V].
  cbn [map snd]. destruct e as [|d|]; cbn [losses].
  - destruct start as [s|].
    + apply (IH q t (Some s)); auto. lia.
    + destruct (Nat.eqb_spec (length q) 3) as [E|E].
      * exfalso. destruct q as [|c1 [|c2 [|c3 [|c4 q]]]]; try discriminate E. cbn [spaced forallb] in *. lia.
      * apply (IH q t (Some t)); auto; [|lia|lia]. apply (spaced_later B q now); [exact Sp|lia].
  - destruct start as [s|].
    + apply andb_prop in P. destruct P as [P1 P]. specialize (IH (q ++ [t]) t None HB HL). cbn beta iota in IH.
      rewrite app_length in IH. cbn [length] in IH. rewrite Nat.add_1_r in IH. apply IH; auto; [|lia].
      apply (spaced_snoc B q s); [exact Sp|lia].
    + apply (IH q t None); auto. apply (spaced_later B q now); [exact Sp|lia].
  - assert (T : Nat.pred (length q) = length (tl q)) by (destruct q; reflexivity). rewrite T.
    assert (T2 : (length (tl q) <= length q)%nat) by (destruct q; cbn; lia).
    apply (IH (tl q) t start); auto.
    + destruct start as [s|]; [apply spaced_tl; exact Sp|]. apply (spaced_later B _ now); [now apply spaced_tl|lia].
    + destruct start; [lia|auto].
    + destruct start; lia.
Qed.

Lemma hw_latency_l : forall B L now evs, 0 <= B -> L <= 2 * B -> paced B now None evs = true -> served L [] false evs = true ->
  losses 0 false (map snd evs) = 0%nat.
Proof.
  intros B L now evs HB HL P V. apply (hw_latency_run B L evs [] now None); auto; try exact Logic.I; cbn; lia.
Qed.

Definition hw_tight (B : Z) : list (Z * uev) :=
  [(0, UStart); (B, UStop 1); (B, UStart); (2 * B, UStop 2); (2 * B, UStart); (3 * B, UStop 3); (3 * B, UStart);
   (3 * B, UTake); (3 * B, UTake); (4 * B, UStop 4); (4 * B, UTake)].
Lemma hw_tight_l : forall B, 0 <= B -> paced B 0 None (hw_tight B) = true /\ served (2 * B + 1) [] false (hw_tight B) = true /\
  losses 0 false (map snd (hw_tight B)) = 1%nat.
Proof.
  intros B HB. unfold hw_tight. cbn [paced served map snd forallb app tl losses Nat.eqb Nat.pred]. repeat split; lia.
Qed.
