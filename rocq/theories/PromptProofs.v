(** C105: proofs. *)
Require Import ZArith List Bool Lia ZifyBool.
Import ListNotations.
From Verif Require Import Base BaseFacts RingModel StreamModel StreamSpec StreamProofs HwRxModel HwRxSpec HwRxProofs HwTxModel HwTxSpec HwTxProofs
  AvrModel AvrSpec WireModel WireSpec WireProofs WireLinkModel WireLinkProofs MidiWireModel MidiWireProofs NoiseModel NoiseSpec NoiseProofs PromptModel.
Open Scope Z_scope.
Local Ltac Zify.zify_post_hook ::= idtac.

Definition bn (b : bool) : nat := if b then 1%nat else 0%nat.

(** ** Receiver: handler runs that are due at once *)
Section Rx.
Variable Size : Z.
Variable step : port -> pev -> option port.
(** [port_step] but for what the handler makes of the character. *)
Hypothesis alike : forall p e, match e with
  | PIsr => step p e = (if r_ien (p_rx p) then match uart_take (p_uart p) with
      | (u', Some x) => step p e
      | (_, None) => Some p end else Some p) /\
      forall u' x p', r_ien (p_rx p) = true -> uart_take (p_uart p) = (u', Some x) -> step p e = Some p' ->
        exists d ok s taken, rx_step Size (p_rx p) (RxIsr d ok) = Some s /\ p' = mkPort u' s taken
  | _ => step p e = port_step Size p e
  end.
Fixpoint gpolite (p : port) (seen : bool) (evs : list pev) : bool :=
  match evs with
  | [] => true
  | e :: rest =>
      let isr := match e with PIsr => port_ready p | _ => false end in
      if rx_in_window Size (p_rx p) && isr && seen then false
      else match step p e with
           | None => true
           | Some p' => gpolite p' (rx_in_window Size (p_rx p') && rx_in_window Size (p_rx p) && (seen || isr)) rest
           end
  end.
Fixpoint gtimed (p : port) (evs : list (Z * pev)) : list (Z * uev) :=
  match evs with
  | [] => []
  | (t, e) :: rest =>
      map (fun u => (t, u))
        (match e with
         | PStart => [UStart]
         | PStop d => [UStop d]
         | PIsr => if r_ien (p_rx p) then [UTake] else []
         | PRead | PStep => []
         end) ++ match step p e with Some p' => gtimed p' rest | None => [] end
  end.
Definition pending (p : port) : nat := if r_ien (p_rx p) then length (unread (p_uart p)) else 0%nat.
Definition rx_ok (p : port) (just q w : bool) : Prop :=
  hw_wf (p_uart p) /\
  match r_pc (p_rx p) with
  | RIdle | REnable => True
  | RCmp => (pending p + bn just <= 3 + bn q)%nat
  | RSub _ => (pending p + bn just <= 2 + bn q)%nat
  | RLoad => (pending p + bn just <= 1 + bn q)%nat
  | RInc _ => (pending p + bn just <= bn q)%nat
  | RWrap _ => (pending p + bn w <= bn q)%nat
  end.
Lemma ready_pending : forall p, hw_wf (p_uart p) -> port_ready p = negb (Nat.eqb (pending p) 0).
Proof.
  intros [[f sh line] rx tk] (H1 & H2 & _). unfold port_ready, pending, unread. cbn [p_uart p_rx u_fifo u_shift] in *.
  destruct (r_ien rx); [|reflexivity]. destruct f as [|c f]; [|reflexivity]. destruct sh as [c|]; [|reflexivity].
  exfalso. specialize (H2 ltac:(congruence)). cbn [length] in H2. lia.
Qed.
Lemma pending_3 : forall p, hw_wf (p_uart p) -> (pending p <= 3)%nat.
Proof.
  intros [[f sh line] rx tk] (H1 & H2 & _). unfold pending, unread. cbn [p_uart p_rx u_fifo u_shift] in *.
  destruct (r_ien rx); [|lia]. rewrite app_length. destruct sh; cbn [length]; lia.
Qed.
Lemma start_pending : forall u, hw_wf u -> hw_wf (uart_start u) /\ (length (unread (uart_start u)) <= length (unread u))%nat.
Proof.
  intros [f sh line] (H1 & H2 & H3). unfold uart_start, unread, hw_wf. cbn [u_fifo u_shift u_line] in *.
  destruct line as [o|]; [cbn [u_fifo u_shift u_line]; auto|].
  destruct sh as [c|]; cbn [u_fifo u_shift u_line]; rewrite ?app_length; cbn [length]; repeat split; auto; try congruence; lia.
Qed.
Lemma stop_pending : forall u d, hw_wf u -> hw_wf (uart_stop u d) /\
  length (unread (uart_stop u d)) = (length (unread u) + match u_line u with Some _ => 1 | None => 0 end)%nat.
Proof.
  intros [f sh line] d (H1 & H2 & H3). unfold uart_stop. cbn [u_line u_fifo].
  destruct line as [o|].
  - split.
    + apply settle_wf; [exact H1|congruence].
    + rewrite settle_unread. unfold unread. cbn [u_fifo u_shift u_line] in *. rewrite H3 by congruence. rewrite !app_length. cbn [length]. lia.
  - split; [split; [exact H1|split; [exact H2|exact H3]]|lia].
Qed.
Lemma take_pending : forall u u' c, hw_wf u -> uart_take u = (u', Some c) -> hw_wf u' /\ (length (unread u') + 1 = length (unread u))%nat.
Proof.
  intros [f sh line] u' c (H1 & H2 & H3) T. unfold uart_take in T. cbn [u_fifo u_shift u_line] in *.
  destruct f as [|x f]; [discriminate|]. inversion T; subst. cbn [length] in H1. split.
  - apply settle_wf; [lia|exact H3].
  - rewrite settle_unread. unfold unread. cbn [u_fifo u_shift]. cbn [app length]. lia.
Qed.
Lemma rx_isr_same : forall s s' d ok, rx_step Size s (RxIsr d ok) = Some s' -> r_pc s' = r_pc s /\ r_ien s' = r_ien s.
Proof.
  intros s s' d ok H. cbn [rx_step] in H. unfold rx_isr in H. destruct (r_ien s && ok); [|inversion H; subst; auto].
  destruct (ring_write Size (r_ring s) (u8 d)) as [[r b]|]; [|discriminate]. inversion H; subst. auto.
Qed.

Lemma prompt_step : forall p just q w e p', rx_ok p just q w ->
  rx_goes_on e && port_ready p && negb just = false -> rx_reading p && rx_completes p e && q = false ->
  step p e = Some p' ->
  rx_in_window Size (p_rx p) && (match e with PIsr => port_ready p | _ => false end) && w = false /\
  rx_ok p' (rx_just p p' just e) (rx_reading p' && rx_reading p && (q || rx_completes p e))
    (rx_in_window Size (p_rx p') && rx_in_window Size (p_rx p) && (w || match e with PIsr => port_ready p | _ => false end)).
Proof.
  intros p just q w e p' (W & I) P Q E. pose proof (ready_pending p W) as RP. pose proof (pending_3 p W) as P3. pose proof (alike p e) as AL.
  destruct e as [|d| | |]; try rewrite AL in E; cbn [port_step rx_goes_on rx_completes rx_just] in *.
  - (* start bit *)
    inversion E; subst p'. destruct (start_pending _ W) as (W' & L).
    split; [now rewrite andb_false_r|]. split; [exact W'|]. unfold rx_reading, pending, rx_in_window in *. cbn [p_rx p_uart] in *.
    destruct (r_pc (p_rx p)); try exact Logic.I; destruct (r_ien (p_rx p)), just, q, w; cbn [andb orb negb bn] in *; try lia.
    all: destruct (rb_rd (r_ring (p_rx p)) >=? Size); cbn [andb orb bn] in *; lia.
  - (* end of a character *)
    inversion E; subst p'. destruct (stop_pending _ d W) as (W' & L).
    split; [now rewrite andb_false_r|]. split; [exact W'|]. unfold rx_reading, pending, rx_in_window in *. cbn [p_rx p_uart] in *.
    destruct (u_line (p_uart p)); destruct (r_pc (p_rx p)); try exact Logic.I; destruct (r_ien (p_rx p)), just, q, w; cbn [andb orb negb bn] in *; try lia; try discriminate.
    all: destruct (rb_rd (r_ring (p_rx p)) >=? Size); cbn [andb orb bn] in *; try lia.
  - (* the handler *)
    destruct AL as (AL1 & AL2). destruct (r_ien (p_rx p)) eqn:IE.
    + destruct (uart_take (p_uart p)) as [u' [x|]] eqn:T.
      * destruct (take_pending _ _ _ W T) as (W' & L). destruct (AL2 u' x p' eq_refl eq_refl E) as (d & ok & s & taken & S1 & EP).
        destruct (rx_isr_same _ _ _ _ S1) as (PC & IE'). subst p'.
        assert (RD : port_ready p = true) by (rewrite RP; unfold pending; rewrite IE; clear - L; destruct (length (unread (p_uart p))); [lia|reflexivity]).
        rewrite RD in *. unfold rx_ok, rx_reading, pending, rx_in_window in *. cbn [p_rx p_uart] in *. rewrite PC, IE', IE in *.
        split.
        { destruct (r_pc (p_rx p)); try reflexivity. destruct w; [|now rewrite andb_false_r]. cbn [bn] in I. destruct q; cbn [bn] in I; lia. }
        split; [exact W'|].
        destruct (r_pc (p_rx p)); try exact Logic.I; destruct just, q, w; cbn [andb orb negb bn] in *; try lia.
        all: destruct (rb_rd (r_ring s) >=? Size), (rb_rd (r_ring (p_rx p)) >=? Size); cbn [andb orb bn] in *; try lia.
      * rewrite AL1 in E. inversion E; subst p'.
        assert (RD : port_ready p = false).
        { unfold port_ready. unfold uart_take in T. destruct (u_fifo (p_uart p)); [apply andb_false_r|discriminate]. }
        rewrite RD. rewrite ?andb_false_r, ?orb_false_r. split; [reflexivity|]. split; [exact W|].
        unfold rx_reading, rx_in_window, pending in *. destruct (r_pc (p_rx p)); try exact Logic.I; destruct just, q, w; cbn [andb orb negb bn] in *; try lia.
        all: destruct (rb_rd (r_ring (p_rx p)) >=? Size); cbn [andb orb bn] in *; lia.
    + rewrite AL1 in E. inversion E; subst p'.
      assert (RD : port_ready p = false) by (unfold port_ready; now rewrite IE).
      rewrite RD. rewrite ?andb_false_r, ?orb_false_r. split; [reflexivity|]. split; [exact W|].
      unfold rx_reading, rx_in_window, pending in *. destruct (r_pc (p_rx p)); try exact Logic.I; destruct just, q, w; cbn [andb orb negb bn] in *; try lia.
      all: destruct (rb_rd (r_ring (p_rx p)) >=? Size); cbn [andb orb bn] in *; lia.
  - (* Read is called *)
    rewrite andb_false_r. split; [reflexivity|]. cbn [rx_step] in E.
    assert (K : pending p = 0%nat \/ just = true).
    { destruct just; [auto|]. left. rewrite RP in P. destruct (Nat.eqb_spec (pending p) 0) as [K|K]; [exact K|discriminate P]. }
    destruct (r_pc (p_rx p)) eqn:PC; inversion E; subst p'; (split; [exact W|]); cbn [p_rx p_uart r_pc]; unfold pending, rx_reading, rx_in_window in *; cbn [p_rx p_uart r_pc r_ien] in *; rewrite ?PC in *; try exact Logic.I.
    1: destruct (r_ien (p_rx p)); cbn [negb andb bn]; lia.
    all: rewrite ?andb_negb_l; destruct (r_ien (p_rx p)), q, w; cbn [andb orb bn] in *; try (destruct K as [K|K]; [|rewrite K in *; cbn [bn] in * ]; lia).
    all: destruct (rb_rd (r_ring (p_rx p)) >=? Size); cbn [andb orb bn] in *; lia.
  - (* a step of Read *)
    rewrite andb_false_r. split; [reflexivity|]. cbn [rx_step] in E. unfold rx_main in E.
    assert (K : pending p = 0%nat \/ just = true).
    { destruct just; [auto|]. left. rewrite RP in P. destruct (Nat.eqb_spec (pending p) 0) as [K|K]; [exact K|discriminate P]. }
    destruct (r_pc (p_rx p)) as [| |ge| |v|v|] eqn:PC.
    + inversion E; subst p'. split; [exact W|]. cbn [p_rx]. now rewrite PC.
    + inversion E; subst p'. split; [exact W|]. unfold pending, rx_reading in *. cbn [p_rx p_uart r_pc r_ien] in *. rewrite PC in *. rewrite ?andb_negb_l.
      destruct (r_ien (p_rx p)), q; cbn [andb orb bn] in *; try lia. all: destruct K as [K|K]; [|rewrite K in *; cbn [bn] in *]; lia.
    + destruct (_ >? 0) in E; inversion E; subst p'; (split; [exact W|]); unfold pending, rx_reading in *; cbn [p_rx p_uart r_pc r_ien] in *; rewrite PC in *; try exact Logic.I.
      rewrite ?andb_negb_l.
      destruct (r_ien (p_rx p)), q; cbn [andb orb bn] in *; try lia. all: destruct K as [K|K]; [|rewrite K in *; cbn [bn] in *]; lia.
    + destruct (inb (rb_rd (r_ring (p_rx p))) Size); [|discriminate]. inversion E; subst p'; (split; [exact W|]); unfold pending, rx_reading in *; cbn [p_rx p_uart r_pc r_ien] in *; rewrite PC in *.
      rewrite ?andb_negb_l.
      destruct (r_ien (p_rx p)), q; cbn [andb orb bn] in *; try lia. all: destruct K as [K|K]; [|rewrite K in *; cbn [bn] in *]; lia.
    + inversion E; subst p'; (split; [exact W|]); unfold pending, rx_reading, rx_in_window in *; cbn [p_rx p_uart r_pc r_ien] in *; rewrite PC in *.
      rewrite andb_false_r. cbn [andb].
      destruct (r_ien (p_rx p)), q; cbn [andb orb bn] in *; try lia. all: destruct K as [K|K]; [|rewrite K in *; cbn [bn] in *]; lia.
    + inversion E; subst p'; (split; [exact W|]); cbn [p_rx r_pc]; exact Logic.I.
    + inversion E; subst p'; (split; [exact W|]); cbn [p_rx r_pc]; exact Logic.I.
Qed.
Lemma rx_polite_l : forall evs p just q w, rx_ok p just q w -> rx_prompt step p just evs = true -> rx_quick step p q evs = true ->
  gpolite p w evs = true.
Proof.
  induction evs as [|e evs IH]; intros p just q w I P Q; [reflexivity|]. cbn [rx_prompt rx_quick gpolite] in *.
  destruct (rx_goes_on e && port_ready p && negb just) eqn:G; [discriminate|].
  destruct (rx_reading p && rx_completes p e && q) eqn:C; [discriminate|].
  destruct (step p e) as [p'|] eqn:E.
  - destruct (prompt_step p just q w e p' I G C E) as (N & I'). rewrite N. exact (IH _ _ _ _ I' P Q).
  - destruct (rx_in_window Size (p_rx p) && (match e with PIsr => port_ready p | _ => false end) && w) eqn:N; [exfalso|reflexivity].
    destruct e; rewrite ?andb_false_r in N; try discriminate N.
    destruct I as (W & I). apply andb_prop in N. destruct N as (N & ->). apply andb_prop in N. destruct N as (N & RD).
    rewrite ready_pending in RD by exact W. unfold rx_in_window in N. destruct (r_pc (p_rx p)); try discriminate.
    cbn [bn] in I. destruct q; cbn [bn] in I; [|lia]. destruct (Nat.eqb_spec (pending p) 0); [discriminate|lia].
Qed.
Lemma rx_polite_init : forall m evs, rx_prompt step (port_init m) false evs = true -> rx_quick step (port_init m) false evs = true ->
  gpolite (port_init m) false evs = true.
Proof.
  intros m evs P Q. apply (rx_polite_l evs _ false false false); [|exact P|exact Q]. split; [|exact Logic.I].
  unfold hw_wf. cbn. repeat split; auto; congruence.
Qed.
(** ** Times *)
Lemma brief_quick_l : forall B evs p now now' since q start,
  (start = None <-> u_line (p_uart p) = None) -> paced B now' start (gtimed p evs) = true -> in_order now evs = true ->
  rx_brief step B p since evs = true -> (rx_reading p = true -> since <= now) ->
  (q = true -> since <= now' /\ match start with Some s => since <= s | None => True end) ->
  rx_quick step p q (map snd evs) = true.
Proof.
  intros B evs. induction evs as [|[t e] evs IH]; intros p now now' since q start L P O K R Q; [reflexivity|].
  cbn [gtimed in_order rx_brief map snd rx_quick] in *. apply andb_prop in O. destruct O as [O1 O2].
  destruct (rx_reading p && (since + B <=? t)) eqn:C; [discriminate|].
  destruct (rx_reading p && rx_completes p e && q) eqn:D.
  - exfalso. apply andb_prop in D. destruct D as [D ->]. apply andb_prop in D. destruct D as [D1 D2]. rewrite D1 in C. cbn [andb] in C.
    destruct e as [|d| | |]; try discriminate D2. cbn [rx_completes] in D2. cbn [map app paced] in P. apply andb_prop in P. destruct P as [P1 P].
    destruct (u_line (p_uart p)) eqn:U; [|discriminate]. destruct start as [s|]; [|destruct L as [L _]; specialize (L eq_refl); congruence].
    apply andb_prop in P. destruct P as [P2 _]. destruct (Q eq_refl) as [_ Q2]. lia.
  - destruct (step p e) as [p'|] eqn:E; [|reflexivity]. pose proof (alike p e) as AL.
    assert (R' : rx_reading p' = true -> (if rx_reading p then since else t) <= t) by (intros _; destruct (rx_reading p); [specialize (R eq_refl); lia|lia]).
    destruct e as [|d| | |]; try rewrite AL in E; cbn [rx_completes map app paced] in *.
    + apply andb_prop in P. destruct P as [P1 P]. cbn [port_step] in E. injection E as <-.
      refine (IH _ t t _ _ _ _ P O2 K R' _).
      * unfold uart_start. cbn [p_uart]. destruct start as [s|], (u_line (p_uart p)) as [o|] eqn:U; cbn [u_line]; rewrite ?U; try (split; congruence); try (destruct (u_shift (p_uart p)); cbn [u_line]; split; congruence).
        all: destruct L as [L1 L2]; first [specialize (L1 eq_refl)|specialize (L2 eq_refl)]; congruence.
      * intros H. apply andb_prop in H. destruct H as [H1 H2]. apply andb_prop in H1. destruct H1 as [_ H1]. rewrite H1, orb_false_r in *.
        destruct (Q H2) as [Q1 Q2]. split; [lia|]. destruct start; [exact Q2|lia].
    + apply andb_prop in P. destruct P as [P1 P]. apply andb_prop in P. destruct P as [_ P]. cbn [port_step] in E. injection E as <-.
      refine (IH _ t t _ _ _ _ P O2 K R' _).
      * unfold uart_stop. cbn [p_uart]. destruct (u_line (p_uart p)) eqn:U; [unfold uart_settle; destruct (_ <? _)%nat; cbn [u_line]; tauto|tauto].
      * intros H. apply andb_prop in H. destruct H as [H1 H2]. apply andb_prop in H1. destruct H1 as [_ H1]. rewrite H1 in *. specialize (R eq_refl). split; [lia|exact Logic.I].
    + assert (LN : u_line (p_uart p') = u_line (p_uart p)).
      { clear - E AL. destruct AL as (AL1 & AL2). destruct (r_ien (p_rx p)); [|rewrite AL1 in E; injection E as <-; reflexivity].
        destruct (uart_take (p_uart p)) as [u' [x|]] eqn:T; [|rewrite AL1 in E; injection E as <-; reflexivity].
        destruct (AL2 u' x p' eq_refl eq_refl E) as (d & ok & s & taken & _ & ->). unfold uart_take in T. destruct (u_fifo (p_uart p)) as [|c f]; [discriminate|]. injection T as <- _.
        cbn [p_uart]. unfold uart_settle. destruct (u_shift (p_uart p)); [|reflexivity]. destruct (_ <? _)%nat; reflexivity. }
      destruct (r_ien (p_rx p)).
      * cbn [map app paced] in P. apply andb_prop in P. destruct P as [P1 P]. refine (IH _ t t _ _ _ _ P O2 K R' _); [now rewrite LN|].
        intros H. apply andb_prop in H. destruct H as [H1 H2]. apply andb_prop in H1. destruct H1 as [_ H1]. rewrite H1, orb_false_r in *.
        destruct (Q H2) as [Q1 Q2]. split; [lia|exact Q2].
      * cbn [map app] in P. refine (IH _ t now' _ _ _ _ P O2 K R' _); [now rewrite LN|].
        intros H. apply andb_prop in H. destruct H as [H1 H2]. apply andb_prop in H1. destruct H1 as [_ H1]. rewrite H1, orb_false_r in *. exact (Q H2).
    + assert (LN : u_line (p_uart p') = u_line (p_uart p)) by (cbn [port_step] in E; destruct (rx_step Size (p_rx p) RxStart); [injection E as <-; reflexivity|discriminate]).
      refine (IH _ t now' _ _ _ _ P O2 K R' _); [now rewrite LN|].
      intros H. apply andb_prop in H. destruct H as [H1 H2]. apply andb_prop in H1. destruct H1 as [_ H1]. rewrite H1, orb_false_r in *. exact (Q H2).
    + assert (LN : u_line (p_uart p') = u_line (p_uart p)) by (cbn [port_step] in E; destruct (rx_step Size (p_rx p) RxStep); [injection E as <-; reflexivity|discriminate]).
      refine (IH _ t now' _ _ _ _ P O2 K R' _); [now rewrite LN|].
      intros H. apply andb_prop in H. destruct H as [H1 H2]. apply andb_prop in H1. destruct H1 as [_ H1]. rewrite H1, orb_false_r in *. exact (Q H2).
Qed.
Lemma brief_init : forall B m evs now, paced B now None (gtimed (port_init m) evs) = true -> in_order now evs = true ->
  rx_brief step B (port_init m) now evs = true -> rx_quick step (port_init m) false (map snd evs) = true.
Proof. intros B m evs now P O K. refine (brief_quick_l B evs _ now now now false None _ P O K _ _); [split; reflexivity|lia|discriminate]. Qed.
End Rx.

Lemma port_alike : forall Size p e, match e with
  | PIsr => port_step Size p e = (if r_ien (p_rx p) then match uart_take (p_uart p) with
      | (u', Some x) => port_step Size p e
      | (_, None) => Some p end else Some p) /\
      forall u' x p', r_ien (p_rx p) = true -> uart_take (p_uart p) = (u', Some x) -> port_step Size p e = Some p' ->
        exists d ok s taken, rx_step Size (p_rx p) (RxIsr d ok) = Some s /\ p' = mkPort u' s taken
  | _ => port_step Size p e = port_step Size p e
  end.
Proof.
  intros Size p e. destruct e; try reflexivity. split.
  - cbn [port_step]. destruct (r_ien (p_rx p)); [|reflexivity]. destruct (uart_take (p_uart p)) as [u' [x|]]; reflexivity.
  - intros u' [c over] p' IE T E. cbn [port_step] in E. rewrite IE, T in E.
    destruct (rx_step Size (p_rx p) (RxIsr c (negb over))) as [s|] eqn:S1; [|discriminate]. injection E as <-. eexists _, _, _, _. split; [exact S1|reflexivity].
Qed.
Lemma nport_alike : forall Size p e, match e with
  | PIsr => nport_step Size p e = (if r_ien (p_rx p) then match uart_take (p_uart p) with
      | (u', Some x) => nport_step Size p e
      | (_, None) => Some p end else Some p) /\
      forall u' x p', r_ien (p_rx p) = true -> uart_take (p_uart p) = (u', Some x) -> nport_step Size p e = Some p' ->
        exists d ok s taken, rx_step Size (p_rx p) (RxIsr d ok) = Some s /\ p' = mkPort u' s taken
  | _ => nport_step Size p e = port_step Size p e
  end.
Proof.
  intros Size p e. destruct e; try reflexivity. split.
  - cbn [nport_step]. destruct (r_ien (p_rx p)); [|reflexivity]. destruct (uart_take (p_uart p)) as [u' [x|]]; reflexivity.
  - intros u' x p' IE T E. cbn [nport_step] in E. rewrite IE, T in E.
    destruct (rx_step Size (p_rx p) (RxIsr (read_internal 0 (udr x)) (stores x))) as [s|] eqn:S1; [|discriminate]. injection E as <-. eexists _, _, _, _. split; [exact S1|reflexivity].
Qed.
Lemma polite_port : forall Size evs p w, gpolite Size (port_step Size) p w evs = port_polite Size p w evs.
Proof.
  intros Size evs. induction evs as [|e evs IH]; intros p w; [reflexivity|]. cbn [gpolite port_polite].
  destruct (rx_in_window Size (p_rx p) && _ && w); [reflexivity|]. destruct (port_step Size p e); [apply IH|reflexivity].
Qed.
Lemma polite_nport : forall Size evs p w, gpolite Size (nport_step Size) p w evs = nport_polite Size p w evs.
Proof.
  intros Size evs. induction evs as [|e evs IH]; intros p w; [reflexivity|]. cbn [gpolite nport_polite].
  destruct (rx_in_window Size (p_rx p) && _ && w); [reflexivity|]. destruct (nport_step Size p e); [apply IH|reflexivity].
Qed.
Lemma timed_port : forall Size evs p, gtimed (port_step Size) p evs = timed Size p evs.
Proof.
  intros Size evs. induction evs as [|[t e] evs IH]; intros p; [reflexivity|]. cbn [gtimed timed]. destruct (port_step Size p e); [now rewrite IH|reflexivity].
Qed.
Lemma timed_nport : forall Size evs p, gtimed (nport_step Size) p evs = ntimed Size p evs.
Proof.
  intros Size evs. induction evs as [|[t e] evs IH]; intros p; [reflexivity|]. cbn [gtimed ntimed]. destruct (nport_step Size p e); [now rewrite IH|reflexivity].
Qed.
Lemma rx_polite_port : forall Size m evs, rx_prompt (port_step Size) (port_init m) false evs = true -> rx_quick (port_step Size) (port_init m) false evs = true ->
  port_polite Size (port_init m) false evs = true.
Proof. intros Size m evs P Q. rewrite <- polite_port. exact (rx_polite_init Size _ (port_alike Size) m evs P Q). Qed.
Lemma rx_polite_nport : forall Size m evs, rx_prompt (nport_step Size) (port_init m) false evs = true -> rx_quick (nport_step Size) (port_init m) false evs = true ->
  nport_polite Size (port_init m) false evs = true.
Proof. intros Size m evs P Q. rewrite <- polite_nport. exact (rx_polite_init Size _ (nport_alike Size) m evs P Q). Qed.
Lemma brief_port : forall Size B m evs now, paced B now None (timed Size (port_init m) evs) = true -> in_order now evs = true ->
  rx_brief (port_step Size) B (port_init m) now evs = true -> rx_quick (port_step Size) (port_init m) false (map snd evs) = true.
Proof. intros Size B m evs now P O K. rewrite <- timed_port in P. exact (brief_init Size _ (port_alike Size) B m evs now P O K). Qed.
Lemma brief_nport : forall Size B m evs now, paced B now None (ntimed Size (port_init m) evs) = true -> in_order now evs = true ->
  rx_brief (nport_step Size) B (port_init m) now evs = true -> rx_quick (nport_step Size) (port_init m) false (map snd evs) = true.
Proof. intros Size B m evs now P O K. rewrite <- timed_nport in P. exact (brief_init Size _ (nport_alike Size) B m evs now P O K). Qed.

(** ** Transmitter *)
Section Tx.
Variable Size : Z.
(** How many more handler runs the transmitter has room for. *)
Definition room_for (p : xport) : nat :=
  if t_ien (y_tx p) then
    match x_udr (y_utx p), x_shift (y_utx p) with
    | Some _, _ => 0
    | None, Some _ => 1
    | None, None => 2
    end%nat
  else 0%nat.
Definition tx_ok (p : xport) (just q w : bool) : Prop :=
  x_wf (y_utx p) /\
  match t_pc (y_tx p) with
  | TIdle | TEnable => True
  | TCheck _ => (room_for p + bn just <= 2 + bn q)%nat
  | TStore _ => (room_for p + bn just <= 1 + bn q)%nat
  | TInc _ => (room_for p + bn just <= bn q)%nat
  | TWrap _ => (room_for p + bn w <= bn q)%nat
  end.
Lemma due_room : forall p, tx_due p = negb (Nat.eqb (room_for p) 0).
Proof.
  intros p. unfold tx_due, room_for, accept_data. destruct (t_ien (y_tx p)); [|reflexivity].
  destruct (x_udr (y_utx p)), (x_shift (y_utx p)); reflexivity.
Qed.
Lemma room_2 : forall p, (room_for p <= 2)%nat.
Proof. intros p. unfold room_for. destruct (t_ien (y_tx p)), (x_udr (y_utx p)), (x_shift (y_utx p)); lia. Qed.
Lemma isr_room : forall p p', x_wf (y_utx p) -> tx_due p = true -> xport_step Size p YIsr = Some p' ->
  x_wf (y_utx p') /\ t_pc (y_tx p') = t_pc (y_tx p) /\ (room_for p' + 1 <= room_for p)%nat.
Proof.
  intros p p' W D E. pose proof (due_room p) as R. rewrite D in R. unfold tx_due in D. cbn [xport_step] in E. rewrite D in E. apply andb_prop in D. destruct D as (IE & AD).
  destruct (Nat.eqb_spec (room_for p) 0) as [Z0|NZ]; [discriminate|]. clear R.
  cbn [tx_step] in E. unfold tx_isr in E. rewrite IE in E.
  destruct (negb (ring_length Size (t_ring (y_tx p)) =? 0)).
  - destruct (ring_read Size (t_ring (y_tx p))) as [[r v]|]; [|discriminate]. inversion E; subst p'. cbn [y_utx y_tx t_pc t_sent].
    rewrite skipn_app, skipn_all, Nat.sub_diag. cbn [skipn app fold_left].
    split; [now apply put_wf|]. split; [reflexivity|].
    unfold room_for in *. cbn [y_utx y_tx t_ien]. rewrite IE in *. unfold utx_put. unfold accept_data in AD.
    destruct (x_udr (y_utx p)); [discriminate|]. destruct (x_shift (y_utx p)); cbn [x_udr x_shift]; lia.
  - inversion E; subst p'. cbn [y_utx y_tx t_pc t_sent]. rewrite skipn_all. cbn [fold_left].
    split; [exact W|]. split; [reflexivity|]. unfold room_for at 1. cbn [y_tx t_ien]. lia.
Qed.
Lemma tx_prompt_step : forall p just q w e p', tx_ok p just q w ->
  tx_goes_on e && tx_due p && negb just = false -> tx_writing p && tx_completes p e && q = false ->
  xport_step Size p e = Some p' ->
  tx_in_window Size (y_tx p) && (match e with YIsr => tx_due p | _ => false end) && w = false /\
  tx_ok p' (tx_just p p' just e) (tx_writing p' && tx_writing p && (q || tx_completes p e))
    (tx_in_window Size (y_tx p') && tx_in_window Size (y_tx p) && (w || match e with YIsr => tx_due p | _ => false end)).
Proof.
  intros p just q w e p' (W & I) P Q E. pose proof (due_room p) as RP. pose proof (room_2 p) as P2.
  destruct e as [v| | |]; cbn [tx_goes_on tx_completes tx_just] in *.
  - (* Write is called *)
    rewrite andb_false_r. split; [reflexivity|]. cbn [xport_step tx_step] in E.
    assert (K : room_for p = 0%nat \/ just = true).
    { destruct just; [auto|]. left. rewrite RP in P. destruct (Nat.eqb_spec (room_for p) 0) as [K|K]; [exact K|discriminate P]. }
    destruct (t_pc (y_tx p)) eqn:PC; inversion E; subst p'; (split; [exact W|]); cbn [y_tx y_utx t_pc]; unfold room_for, tx_writing, tx_in_window in *; cbn [y_tx y_utx t_pc t_ien] in *; rewrite ?PC in *; try exact Logic.I.
    1: destruct (t_ien (y_tx p)); cbn [negb andb bn]; lia.
    all: rewrite ?andb_negb_l; destruct (t_ien (y_tx p)), q, w; cbn [andb orb bn] in *; try (destruct K as [K|K]; [|rewrite K in *; cbn [bn] in * ]; lia).
    all: destruct (rb_wr (t_ring (y_tx p)) >=? Size); cbn [andb orb bn] in *; lia.
  - (* a step of Write *)
    rewrite andb_false_r. split; [reflexivity|]. cbn [xport_step tx_step] in E. unfold tx_main in E.
    assert (K : room_for p = 0%nat \/ just = true).
    { destruct just; [auto|]. left. rewrite RP in P. destruct (Nat.eqb_spec (room_for p) 0) as [K|K]; [exact K|discriminate P]. }
    destruct (t_pc (y_tx p)) as [|v|v|v|v|] eqn:PC.
    + inversion E; subst p'. split; [exact W|]. cbn [y_tx]. now rewrite PC.
    + destruct (if rb_wr (t_ring (y_tx p)) + 1 >=? Size then _ else _) in E; inversion E; subst p'; (split; [exact W|]); unfold room_for, tx_writing in *; cbn [y_tx y_utx t_pc t_ien] in *; rewrite PC in *; try exact Logic.I.
      rewrite ?andb_negb_l.
      destruct (t_ien (y_tx p)), q; cbn [andb orb bn] in *; try lia. all: destruct K as [K|K]; [|rewrite K in *; cbn [bn] in *]; lia.
    + destruct (inb (rb_wr (t_ring (y_tx p))) Size); [|discriminate]. inversion E; subst p'; (split; [exact W|]); unfold room_for, tx_writing in *; cbn [y_tx y_utx t_pc t_ien] in *; rewrite PC in *.
      rewrite ?andb_negb_l.
      destruct (t_ien (y_tx p)), q; cbn [andb orb bn] in *; try lia. all: destruct K as [K|K]; [|rewrite K in *; cbn [bn] in *]; lia.
    + inversion E; subst p'; (split; [exact W|]); unfold room_for, tx_writing, tx_in_window in *; cbn [y_tx y_utx t_pc t_ien] in *; rewrite PC in *.
      rewrite andb_false_r. cbn [andb].
      destruct (t_ien (y_tx p)), q; cbn [andb orb bn] in *; try lia. all: destruct K as [K|K]; [|rewrite K in *; cbn [bn] in *]; lia.
    + inversion E; subst p'; (split; [exact W|]); cbn [y_tx t_pc]; exact Logic.I.
    + inversion E; subst p'; (split; [exact W|]); cbn [y_tx t_pc]; exact Logic.I.
  - (* the handler *)
    destruct (tx_due p) eqn:D.
    + destruct (isr_room p p' W D E) as (W' & PC & L).
      unfold tx_ok, tx_writing, tx_in_window in *. rewrite PC in *.
      split.
      { destruct (t_pc (y_tx p)); try reflexivity. destruct w; [|now rewrite andb_false_r]. cbn [bn] in I. destruct q; cbn [bn] in I; lia. }
      split; [exact W'|].
      destruct (t_pc (y_tx p)); try exact Logic.I; destruct just, q, w; cbn [andb orb negb bn] in *; try lia.
      all: destruct (rb_wr (t_ring (y_tx p')) >=? Size), (rb_wr (t_ring (y_tx p)) >=? Size); cbn [andb orb bn] in *; try lia.
    + cbn [xport_step] in E. change (t_ien (y_tx p) && accept_data (y_utx p)) with (tx_due p) in E. rewrite D in E. inversion E; subst p'.
      rewrite ?andb_false_r, ?orb_false_r. split; [reflexivity|]. split; [exact W|].
      unfold tx_writing, tx_in_window in *. destruct (t_pc (y_tx p)); try exact Logic.I; destruct just, q, w; cbn [andb orb negb bn] in *; try lia.
      all: destruct (rb_wr (t_ring (y_tx p)) >=? Size); cbn [andb orb bn] in *; lia.
  - (* the end of a character *)
    cbn [xport_step] in E. inversion E; subst p'.
    split; [now rewrite andb_false_r|]. split; [now apply tick_wf|].
    assert (L : (room_for (mkXport (utx_tick (y_utx p)) (y_tx p)) <= room_for p + bn (match x_shift (y_utx p) with Some _ => true | None => false end))%nat).
    { unfold room_for, utx_tick. cbn [y_tx y_utx]. destruct (t_ien (y_tx p)); [|lia].
      destruct (x_shift (y_utx p)) eqn:SH, (x_udr (y_utx p)) eqn:UD; cbn [x_udr x_shift bn]; rewrite ?SH, ?UD; lia. }
    unfold tx_writing, tx_in_window in *. cbn [y_tx y_utx] in *.
    destruct (x_shift (y_utx p)); destruct (t_pc (y_tx p)); try exact Logic.I; destruct just, q, w; cbn [andb orb negb bn] in *; try lia; try discriminate.
    all: destruct (rb_wr (t_ring (y_tx p)) >=? Size); cbn [andb orb bn] in *; try lia.
Qed.
Lemma tx_polite_l : forall evs p just q w, tx_ok p just q w -> tx_prompt Size p just evs = true -> tx_quick Size p q evs = true ->
  xport_polite Size p w evs = true.
Proof.
  induction evs as [|e evs IH]; intros p just q w I P Q; [reflexivity|]. cbn [tx_prompt tx_quick xport_polite] in *.
  change (t_ien (y_tx p) && accept_data (y_utx p)) with (tx_due p).
  destruct (tx_goes_on e && tx_due p && negb just) eqn:G; [discriminate|].
  destruct (tx_writing p && tx_completes p e && q) eqn:C; [discriminate|].
  destruct (xport_step Size p e) as [p'|] eqn:E.
  - destruct (tx_prompt_step p just q w e p' I G C E) as (N & I'). rewrite N. exact (IH _ _ _ _ I' P Q).
  - destruct (tx_in_window Size (y_tx p) && (match e with YIsr => tx_due p | _ => false end) && w) eqn:N; [exfalso|reflexivity].
    destruct e; rewrite ?andb_false_r in N; try discriminate N.
    destruct I as (W & I). apply andb_prop in N. destruct N as (N & ->). apply andb_prop in N. destruct N as (N & RD).
    rewrite due_room in RD. unfold tx_in_window in N. destruct (t_pc (y_tx p)); try discriminate.
    cbn [bn] in I. destruct q; cbn [bn] in I; [|lia]. destruct (Nat.eqb_spec (room_for p) 0); [discriminate|lia].
Qed.
Lemma tx_polite_init : forall m evs, tx_prompt Size (xport_init m) false evs = true -> tx_quick Size (xport_init m) false evs = true ->
  xport_polite Size (xport_init m) false evs = true.
Proof.
  intros m evs P Q. apply (tx_polite_l evs _ false false false); [|exact P|exact Q]. split; [exact init_wf|exact Logic.I].
Qed.
End Tx.

(** ** On the line *)
Lemma order_at : forall i ps rest, in_order i rest = true -> in_order i (map (fun e => (i, e)) ps ++ rest) = true.
Proof. intros i ps rest H. induction ps as [|e ps IH]; [exact H|]. cbn [map app in_order]. now rewrite Z.leb_refl. Qed.
Lemma order_down : forall evs i j, i <= j -> in_order j evs = true -> in_order i evs = true.
Proof. intros [|[t e] evs] i j LE H; [reflexivity|]. cbn [in_order] in *. apply andb_prop in H. destruct H as [H1 H2]. rewrite H2, andb_true_r. lia. Qed.
Lemma line_order : forall sa mi la n par f sched r i evs, line_events sa mi la n par f r i sched = Some evs -> in_order i evs = true.
Proof.
  intros sa mi la n par f sched. induction sched as [|sw sched IH]; intros r i evs H; cbn [line_events] in H; [injection H as <-; reflexivity|].
  destruct (line_step sa mi la n par r (f i)) as [[r' hw]|]; [|discriminate].
  destruct (line_events sa mi la n par f r' (i + 1) sched) as [evs'|] eqn:E; [|discriminate]. injection H as <-.
  apply order_at. apply order_down with (j := i + 1); [lia|exact (IH _ _ _ E)].
Qed.
(** What MidiReader makes of the samples is what some software makes of the first of them. *)
Lemma v_line_some : forall Size sa mi la n par f sched r i x tevs x' evs,
  line_events sa mi la n par f r i (map (fun _ => []) sched) = Some evs ->
  v_line Size sa mi la n par f r i x sched = (tevs, x') ->
  exists psched, Forall (fun sw => forallb software sw = true) psched /\ line_events sa mi la n par f r i psched = Some tevs.
Proof.
  intros Size sa mi la n par f sched. induction sched as [|sw sched IH]; intros r i x tevs x' evs D E; cbn [v_line map line_events] in *.
  - injection E as <- <-. exists []. split; [constructor|reflexivity].
  - destruct (line_step sa mi la n par r (f i)) as [[r' hw]|] eqn:L; [|discriminate].
    destruct (line_events sa mi la n par f r' (i + 1) (map (fun _ => []) sched)) as [evs'|] eqn:D'; [|discriminate]. clear D evs.
    destruct (port_run Size (v_port x) hw) as [p|].
    + destruct (v_steps Size (mkMr p (v_pc x) (v_reader x) (v_notes x)) sw) as [ps x2] eqn:K. pose proof (v_steps_soft _ _ _ _ _ K) as SO.
      destruct x2 as [y|].
      * destruct (v_line Size sa mi la n par f r' (i + 1) y sched) as [more x3] eqn:V. injection E as <- <-.
        destruct (IH _ _ _ _ _ _ D' V) as (psched & P1 & P2). exists (ps :: psched). split; [constructor; assumption|]. cbn [line_events]. now rewrite L, P2.
      * injection E as <- <-. exists [ps]. split; [constructor; [exact SO|constructor]|]. cbn [line_events]. rewrite L. now rewrite app_nil_r.
    + injection E as <- <-. exists [[]]. split; [constructor; [reflexivity|constructor]|]. cbn [line_events]. rewrite L, !app_nil_r. reflexivity.
Qed.
Lemma line_polite : forall Size m d b par f psched tevs, d = 8 \/ d = 16 -> 0 <= b ->
  Forall (fun sw => forallb software sw = true) psched ->
  line_events (speed_samples d) (speed_middle d) (last_bit (Z.to_nat (5 + b)) par) (Z.to_nat (5 + b)) par f (WIdle true) 0 psched = Some tevs ->
  rx_prompt (port_step Size) (port_init m) false (map snd tevs) = true ->
  rx_brief (port_step Size) (d * (6 + b + match par with POff => 0 | _ => 1 end)) (port_init m) (-1) tevs = true ->
  port_polite Size (port_init m) false (map snd tevs) = true.
Proof.
  intros Size m d b par f psched tevs D B SW V PR BR. destruct (speeds _ D) as [D1 [_ [D3 D4]]].
  set (LA := last_bit (Z.to_nat (5 + b)) par) in *.
  assert (LK : Z.of_nat LA = 6 + b + match par with POff => 0 | _ => 1 end) by (unfold LA, last_bit; destruct par; lia).
  assert (L1 : (1 <= LA)%nat) by (unfold LA, last_bit; destruct par; lia).
  assert (P := paced_l (speed_samples d) (speed_middle d) LA (Z.to_nat (5 + b)) par ltac:(lia) ltac:(lia) L1 Size _ psched (WIdle true) 0 tevs (port_init m) Logic.I SW V).
  rewrite Nat2Z.inj_mul, LK, D1, Z.mul_comm in P.
  apply rx_polite_port; [exact PR|]. refine (brief_port _ _ _ _ (-1) P _ BR). apply order_down with (j := 0); [lia|]. exact (line_order _ _ _ _ _ _ _ _ _ _ V).
Qed.
Lemma opened_frame : forall m id c, id = 0 \/ id = 1 -> c_bits c = 3 -> 0 <= c_ubrr c < 65536 -> c_div c = 8 \/ c_div c = 16 ->
  hw_divider (opened m id c) id = c_div c /\ hw_frame (opened m id c) id = Some (5 + 3, swap_parity (c_par c), c_two c).
Proof.
  intros m id c I B U D. destruct (opened_l m id c I ltac:(lia) U D) as [R1 [_ R3]]. rewrite B in R3. split; [exact R1|exact R3].
Qed.
Lemma receiving_polite_l : forall F G m1 id1 m2 id2 c2 cs a sched tevs Size m, id2 = 0 \/ id2 = 1 -> c_bits c2 = 3 ->
  0 <= c_ubrr c2 < 65536 -> c_div c2 = 8 \/ c_div c2 = 16 -> Forall (fun sw => forallb software sw = true) sched ->
  receiving F G m1 id1 (opened m2 id2 c2) id2 cs a sched = Some tevs ->
  rx_prompt (port_step Size) (port_init m) false (map snd tevs) = true ->
  rx_brief (port_step Size) (c_div c2 * (match c_par c2 with POff => 9 | _ => 10 end)) (port_init m) (-1) tevs = true ->
  port_polite Size (port_init m) false (map snd tevs) = true.
Proof.
  intros F G m1 id1 m2 id2 c2 cs a sched tevs Size m I2 B2 U2 D2 SW R PR BR.
  destruct (opened_frame m2 id2 c2 I2 B2 U2 D2) as [HD HF]. unfold receiving in R. rewrite HF, HD in R.
  destruct (hw_frame m1 id1) as [[[n1 p1] two]|]; [|discriminate]. cbv zeta in R.
  refine (line_polite Size m (c_div c2) 3 (swap_parity (c_par c2)) _ sched tevs D2 ltac:(lia) SW R PR _).
  replace (6 + 3 + match swap_parity (c_par c2) with POff => 0 | _ => 1 end) with (match c_par c2 with POff => 9 | _ => 10 end) by (destruct (c_par c2); reflexivity).
  exact BR.
Qed.
Lemma midi_polite_l : forall F G m1 id1 m2 id2 c2 cs a sched tevs x evs Size m, id2 = 0 \/ id2 = 1 -> c_bits c2 = 3 ->
  0 <= c_ubrr c2 < 65536 -> c_div c2 = 8 \/ c_div c2 = 16 ->
  receiving F G m1 id1 (opened m2 id2 c2) id2 cs a (map (fun _ => []) sched) = Some evs ->
  midi_receiving F G m1 id1 (opened m2 id2 c2) id2 cs a Size m sched = Some (tevs, x) ->
  rx_prompt (port_step Size) (port_init m) false (map snd tevs) = true ->
  rx_brief (port_step Size) (c_div c2 * (match c_par c2 with POff => 9 | _ => 10 end)) (port_init m) (-1) tevs = true ->
  port_polite Size (port_init m) false (map snd tevs) = true.
Proof.
  intros F G m1 id1 m2 id2 c2 cs a sched tevs x evs Size m I2 B2 U2 D2 E R PR BR.
  destruct (opened_frame m2 id2 c2 I2 B2 U2 D2) as [HD HF]. unfold receiving in E. unfold midi_receiving in R. rewrite HF, HD in E, R.
  destruct (hw_frame m1 id1) as [[[n1 p1] two]|]; [|discriminate]. cbv zeta in R, E. apply (f_equal (fun o => match o with Some v => v | None => ([], None) end)) in R.
  destruct (v_line_some _ _ _ _ _ _ _ _ _ _ _ _ _ _ E R) as (psched & SW & V).
  refine (line_polite Size m (c_div c2) 3 (swap_parity (c_par c2)) _ psched tevs D2 ltac:(lia) SW V PR _).
  replace (6 + 3 + match swap_parity (c_par c2) with POff => 0 | _ => 1 end) with (match c_par c2 with POff => 9 | _ => 10 end) by (destruct (c_par c2); reflexivity).
  exact BR.
Qed.

(** On a line that may carry anything. *)
Lemma nline_order : forall sa mi la n par f sched r i, in_order i (nline_events sa mi la n par f r i sched) = true.
Proof.
  intros sa mi la n par f sched. induction sched as [|sw sched IH]; intros r i; [reflexivity|]. cbn [nline_events].
  destruct (nline_step sa mi la n par r (f i)) as [r' hw]. apply order_at. apply order_down with (j := i + 1); [lia|apply IH].
Qed.
Lemma listening_polite_l : forall m2 id2 b par (two : bool) f sched tevs Size m, hw_frame m2 id2 = Some (5 + b, par, two) -> 0 <= b <= 3 ->
  Forall (fun sw => forallb software sw = true) sched -> listening m2 id2 f sched = Some tevs ->
  rx_prompt (nport_step Size) (port_init m) false (map snd tevs) = true ->
  rx_brief (nport_step Size) (hw_divider m2 id2 * (6 + b + match par with POff => 0 | _ => 1 end)) (port_init m) (-1) tevs = true ->
  nport_polite Size (port_init m) false (map snd tevs) = true.
Proof.
  intros m2 id2 b par two f sched tevs Size m HF B SW L PR BR. unfold listening in L. rewrite HF in L. cbv zeta in L.
  assert (D : hw_divider m2 id2 = 8 \/ hw_divider m2 id2 = 16) by (unfold hw_divider; destruct (Z.testbit _ 1); auto).
  set (d := hw_divider m2 id2) in *. destruct (speeds _ D) as [D1 [_ [D3 D4]]].
  set (LA := last_bit (Z.to_nat (5 + b)) par) in *.
  assert (LK : Z.of_nat LA = 6 + b + match par with POff => 0 | _ => 1 end) by (unfold LA, last_bit; destruct par; lia).
  assert (L1 : (1 <= LA)%nat) by (unfold LA, last_bit; destruct par; lia).
  assert (P := npaced_l (speed_samples d) (speed_middle d) LA (Z.to_nat (5 + b)) par ltac:(lia) ltac:(lia) L1 Size f sched (WIdle true) 0 (port_init m) Logic.I SW).
  assert (O := nline_order (speed_samples d) (speed_middle d) LA (Z.to_nat (5 + b)) par f sched (WIdle true) 0).
  apply (f_equal (fun o => match o with Some v => v | None => [] end)) in L. cbv beta iota in L. rewrite L in P, O. clear L.
  rewrite Nat2Z.inj_mul, LK, D1, Z.mul_comm in P.
  apply rx_polite_nport; [exact PR|]. refine (brief_nport _ _ _ _ (-1) P _ BR). apply order_down with (j := 0); [lia|exact O].
Qed.
