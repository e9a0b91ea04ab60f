(** Proofs for C102. *)
Require Import ZArith List Bool Lia ZifyBool.
Import ListNotations.
From Verif Require Import Base BaseFacts AvrModel AvrSpec WireModel WireSpec WireProofs RingModel StreamModel StreamSpec StreamProofs HwRxModel HwRxSpec HwRxProofs
  WireLinkModel WireLinkProofs NoiseModel NoiseSpec.
Open Scope Z_scope.
Local Ltac Zify.zify_post_hook ::= idtac.

(** ** Words *)
Definition byte_char (c : Z * bool * bool) : Prop := 0 <= fst (fst c) < 256.
Lemma word_parts : forall d fe pe, 0 <= d < 256 ->
  word (d, fe, pe) mod 256 = d /\ Z.testbit (word (d, fe, pe)) 8 = fe /\ Z.testbit (word (d, fe, pe)) 9 = pe.
Proof.
  intros d fe pe D. unfold word. rewrite (Z.mod_small d 256) by exact D.
  assert (E : d + 256 * Z.b2z fe + 512 * Z.b2z pe = d + (Z.b2z fe + 2 * Z.b2z pe) * 256) by lia. rewrite E.
  assert (Q : (d + (Z.b2z fe + 2 * Z.b2z pe) * 256) / 256 = Z.b2z fe + 2 * Z.b2z pe) by (rewrite Z.div_add, Z.div_small by lia; reflexivity).
  split; [rewrite Z.mod_add, Z.mod_small by lia; reflexivity|].
  assert (T : forall k, 0 <= k -> Z.testbit (d + (Z.b2z fe + 2 * Z.b2z pe) * 256) (8 + k) = Z.testbit (Z.b2z fe + 2 * Z.b2z pe) k).
  { intros k K. rewrite <- Q at 2. change 256 with (2 ^ 8). rewrite Z.div_pow2_bits by lia. f_equal. lia. }
  split.
  - change 8 with (8 + 0). rewrite (T 0) by lia. destruct fe, pe; reflexivity.
  - change 9 with (8 + 1). rewrite (T 1) by lia. destruct fe, pe; reflexivity.
Qed.
Lemma stores_word : forall w over, stores (w, over) = negb (Z.testbit w 8) && negb (Z.testbit w 9) && negb over.
Proof.
  intros w over. unfold stores, status. cbn [fst snd]. destruct (Z.testbit w 8), (Z.testbit w 9), over; reflexivity.
Qed.
Lemma udr_byte : forall x, 0 <= udr x < 256.
Proof. intros x. apply Z.mod_pos_bound. lia. Qed.
Lemma read_udr : forall x, u8 (read_internal 0 (udr x)) = udr x.
Proof.
  intros x. assert (R := udr_byte x). unfold read_internal. change (nine 0) with false. cbn [Z.lor]. unfold u8.
  replace (s16 (udr x)) with (udr x); [apply Z.mod_small; exact R|].
  unfold s16. cbv zeta. rewrite Z.mod_small by lia. destruct (udr x <? 32768) eqn:E; lia.
Qed.
Definition kept (l : list (Z * bool)) : list Z := map udr (filter stores l).
Lemma kept_app : forall a b, kept (a ++ b) = kept a ++ kept b.
Proof. intros. unfold kept. now rewrite filter_app, map_app. Qed.
Lemma kept_places : forall l, Forall (fun c => byte_char (fst c)) l -> kept (map NoiseSpec.place l) = flawless l.
Proof.
  induction l as [|[[[d fe] pe] over] l IH]; intros F; [reflexivity|]. inversion F as [|? ? F1 F2 [X1 X2]]; subst.
  destruct (word_parts d fe pe F1) as (A & B & C). unfold kept, flawless, sound in *. cbn [map filter NoiseSpec.place fst snd].
  change (NoiseSpec.place (d, fe, pe, over)) with (word (d, fe, pe), over). rewrite stores_word, B, C.
  destruct over, fe, pe; cbn [negb andb map filter fst snd]; rewrite <- IH by exact F2; try reflexivity.
  unfold udr at 1. cbn [fst]. rewrite A. reflexivity.
Qed.

(** ** The stream *)
Section P.
Variable Size : Z.
Hypothesis HSize : 1 <= Size <= 65535.
Definition nport_inv (p : port) (seen : bool) (q : list Z) : Prop :=
  rx_inv Size (p_rx p) seen q /\ sub (r_acc (p_rx p)) (kept (p_taken p)) /\
  (Z.of_nat (length (kept (p_taken p))) <= Size - 1 -> length (r_acc (p_rx p)) = length (kept (p_taken p))).

Lemma nport_step_inv : forall p seen q e, nport_inv p seen q ->
  let isr := match e with PIsr => port_ready p | _ => false end in
  rx_in_window Size (p_rx p) && isr && seen = false ->
  exists p' q', nport_step Size p e = Some p' /\
    nport_inv p' (rx_in_window Size (p_rx p') && rx_in_window Size (p_rx p) && (seen || isr)) q'.
Proof.
  intros p seen q e (I & Sb & Ln) isr G.
  assert (Same : isr = false -> rx_inv Size (p_rx p) (rx_in_window Size (p_rx p) && rx_in_window Size (p_rx p) && (seen || isr)) q).
  { intros ->. eapply rx_inv_weaken; [exact I|]. intros ->. cbn [andb]. rewrite orb_false_r. auto. }
  destruct e as [|d| | |]; cbn [nport_step port_step]; subst isr.
  - eexists _, q. split; [reflexivity|]. split; [now apply Same|]. split; assumption.
  - eexists _, q. split; [reflexivity|]. split; [now apply Same|]. split; assumption.
  - unfold port_ready in *. destruct (r_ien (p_rx p)) eqn:Ei; [|eexists _, q; split; [reflexivity|]; split; [now apply Same|]; split; assumption].
    unfold uart_take. destruct (u_fifo (p_uart p)) as [|x f]; [eexists _, q; split; [reflexivity|]; split; [now apply Same|]; split; assumption|].
    cbn [andb] in *. destruct (rx_step_inv Size HSize (p_rx p) seen q (RxIsr (read_internal 0 (udr x)) (stores x)) I G) as (s' & q' & E & I').
    rewrite E. eexists _, q'. split; [reflexivity|]. cbn [p_rx p_taken]. split; [exact I'|].
    cbn [rx_step] in E. unfold rx_isr in E. rewrite Ei in E. cbn [andb] in E. cbn [p_rx p_taken]. rewrite kept_app. rewrite read_udr in E.
    unfold kept at 2 4 6. cbn [filter]. destruct (stores x).
    + cbn [map]. rewrite app_length. cbn [length].
      destruct (ring_write Size (r_ring (p_rx p)) (udr x)) as [[r b]|] eqn:W; [|discriminate]. inversion E; subst s'. cbn [r_acc].
      rewrite andb_true_r in G. pose proof (rx_accepts Size HSize _ _ _ _ _ _ I G W) as Hb. pose proof (rx_inv_len Size _ _ _ I) as Hq.
      destruct b.
      * split; [now apply sub_snoc|]. intros X. rewrite app_length. cbn [length]. rewrite Ln by lia. reflexivity.
      * split; [now apply sub_snoc_skip|]. intros X. apply sub_length in Sb. lia.
    + inversion E; subst s'. cbn [map]. rewrite app_nil_r. split; assumption.
  - destruct (rx_step_inv Size HSize (p_rx p) seen q RxStart I) as (s' & q' & E & I'); [exact G|]. rewrite E.
    eexists _, q'. split; [reflexivity|]. unfold nport_inv. cbn [p_rx p_taken]. rewrite (rx_start_acc Size _ _ E). split; [exact I'|]. split; assumption.
  - destruct (rx_step_inv Size HSize (p_rx p) seen q RxStep I) as (s' & q' & E & I'); [exact G|]. rewrite E.
    eexists _, q'. split; [reflexivity|]. unfold nport_inv. cbn [p_rx p_taken]. cbn [rx_step] in E. rewrite (rx_main_acc Size _ _ E). split; [exact I'|]. split; assumption.
Qed.
Lemma nport_run_inv : forall evs p seen q, nport_inv p seen q -> nport_polite Size p seen evs = true ->
  exists p' seen' q', nport_run Size p evs = Some p' /\ nport_inv p' seen' q'.
Proof.
  induction evs as [|e evs IH]; intros p seen q H HP; cbn [nport_run nport_polite] in *; [eauto|].
  destruct (rx_in_window Size (p_rx p) && (match e with PIsr => port_ready p | _ => false end) && seen) eqn:Hg; [discriminate|].
  destruct (nport_step_inv p seen q e H Hg) as (p' & q' & E & H'). rewrite E in *. eapply IH; eassumption.
Qed.
Lemma nport_init_inv : forall m, nport_inv (port_init m) false [].
Proof. intros m. split; [exact (rx_init_inv Size HSize m)|]. split; [constructor|reflexivity]. Qed.

Lemma nport_wire : forall evs p p', nport_run Size p (map snd evs) = Some p' ->
  exists taken, uart_run (p_uart p) (map snd (ntimed Size p evs)) = (p_uart p', taken) /\ p_taken p' = p_taken p ++ taken.
Proof.
  induction evs as [|[t0 e] evs IH]; intros p p' H; cbn [nport_run ntimed map snd] in *.
  - inversion H; subst. exists []. now rewrite app_nil_r.
  - destruct (nport_step Size p e) as [p1|] eqn:E; [|discriminate]. destruct (IH _ _ H) as (t & R & T).
    rewrite map_app, map_map, map_ext with (g := fun u => u) by reflexivity. rewrite map_id, uart_run_app.
    destruct e as [|d| | |]; cbn [nport_step port_step] in E.
    + inversion E; subst p1. cbn [uart_run uart_step p_uart p_taken] in *. rewrite R. eauto.
    + inversion E; subst p1. cbn [uart_run uart_step p_uart p_taken] in *. rewrite R. eauto.
    + destruct (r_ien (p_rx p)).
      * cbn [uart_run uart_step]. destruct (uart_take (p_uart p)) as [u' [x|]] eqn:K.
        -- destruct (rx_step Size (p_rx p) _) as [s|]; [|discriminate]. inversion E; subst p1.
           cbn [p_uart p_taken] in *. rewrite R. exists (x :: t). split; [reflexivity|]. now rewrite T, <- app_assoc.
        -- inversion E; subst p1. assert (u' = p_uart p) as -> by (unfold uart_take in K; destruct (u_fifo (p_uart p)); congruence).
           rewrite R. eauto.
      * inversion E; subst p1. cbn [uart_run]. rewrite R. eauto.
    + cbn [uart_run]. destruct (rx_step Size (p_rx p) RxStart) as [s|]; [|discriminate]. inversion E; subst p1. cbn [p_uart p_taken] in *. rewrite R. eauto.
    + cbn [uart_run]. destruct (rx_step Size (p_rx p) RxStep) as [s|]; [|discriminate]. inversion E; subst p1. cbn [p_uart p_taken] in *. rewrite R. eauto.
Qed.
Lemma ntimed_pchars : forall evs p p' b, nport_run Size p (map snd evs) = Some p' -> chars b (map snd (ntimed Size p evs)) = pchars b (map snd evs).
Proof.
  induction evs as [|[t e] evs IH]; intros p p' b R; [reflexivity|]. cbn [nport_run map snd] in R. cbn [ntimed map snd].
  destruct (nport_step Size p e) as [p1|] eqn:E; [|discriminate]. rewrite map_app, map_map, map_ext with (g := fun u => u) by reflexivity. rewrite map_id.
  destruct e as [|d| | |]; cbn [app chars pchars].
  - apply (IH p1 p'); exact R.
  - destruct b; [f_equal|]; apply (IH p1 p'); exact R.
  - destruct (r_ien (p_rx p)); cbn [app chars]; apply (IH p1 p'); exact R.
  - apply (IH p1 p'); exact R.
  - apply (IH p1 p'); exact R.
Qed.
Lemma npaced_software : forall B t st rest sw p, forallb software sw = true ->
  (forall p', paced B t st (ntimed Size p' rest) = true) -> paced B t st (ntimed Size p (map (fun e => (t, e)) sw ++ rest)) = true.
Proof.
  intros B t st rest sw. induction sw as [|e sw IH]; intros p H R; [apply R|]. cbn [forallb] in H. apply andb_prop in H. destruct H as [H1 H2].
  cbn [map app ntimed].
  assert (K : paced B t st (match nport_step Size p e with Some p' => ntimed Size p' (map (fun e => (t, e)) sw ++ rest) | None => [] end) = true).
  { destruct (nport_step Size p e); [apply IH; assumption|reflexivity]. }
  destruct e; try discriminate H1; cbn [map app]; try exact K.
  destruct (r_ien (p_rx p)); cbn [map app]; [|exact K]. cbn [paced]. rewrite K, Z.leb_refl. reflexivity.
Qed.
End P.

(** ** The line *)
Section Line.
Variables (SA MI LA : nat) (n : nat) (par : parity).
Hypothesis MI1 : (1 <= MI)%nat.
Hypothesis SA1 : (1 <= SA)%nat.
Hypothesis LA1 : (1 <= LA)%nat.
Let L := (LA * SA + MI + 1)%nat.

Lemma nline_step_l : forall r x i, on_way SA MI LA r ->
  let r1 := fst (rcv_step SA MI LA r x) in
  fst (nline_step SA MI LA n par r x) = r1 /\ on_way SA MI LA r1 /\
  match snd (rcv_step SA MI LA r x) with
  | [] => (snd (nline_step SA MI LA n par r x) = [] /\ is_busy MI r1 = is_busy MI r /\ started MI r1 (i + 1) = started MI r i) \/
          (snd (nline_step SA MI LA n par r x) = [PStart] /\ is_busy MI r = false /\ is_busy MI r1 = true /\
           started MI r i = None /\ started MI r1 (i + 1) = Some i)
  | [f] => is_busy MI r = true /\ is_busy MI r1 = false /\ snd (nline_step SA MI LA n par r x) = [PStop (word (decode n par f))] /\
           started MI r1 (i + 1) = None /\ started MI r i = Some (i - Z.of_nat (LA * SA))
  | _ => False
  end.
Proof.
  assert (LB := L_big SA MI LA MI1 SA1 LA1). fold L in LB.
  intros [pv|xs] x i W r1; subst r1; unfold nline_step; cbn [rcv_step].
  - cbn [fst snd]. destruct (pv && negb x).
    + replace (length [x] =? MI + 1)%nat with false by (cbn [length]; symmetry; apply Nat.eqb_neq; lia).
      refine (conj eq_refl (conj _ (or_introl (conj eq_refl (conj _ _))))); [cbn; fold L; lia| |].
      * cbn [is_busy length]. apply Nat.leb_gt. lia.
      * unfold started. replace (MI + 1 <=? length [x])%nat with false by (cbn [length]; symmetry; apply Nat.leb_gt; lia). reflexivity.
    + refine (conj eq_refl (conj Logic.I (or_introl (conj eq_refl (conj eq_refl eq_refl))))).
  - cbn [on_way] in W. fold L in W. assert (E : length (xs ++ [x]) = S (length xs)) by (rewrite app_length; cbn; lia). rewrite E.
    change (started MI (WBusy xs) i) with (if (MI + 1 <=? length xs)%nat then Some (i - 1 - (Z.of_nat (length xs) - Z.of_nat (MI + 1))) else None).
    change (is_busy MI (WBusy xs)) with (MI + 1 <=? length xs)%nat.
    destruct (Nat.eqb (S (length xs)) (MI + 1)) eqn:E1; cbn [andb].
    + apply Nat.eqb_eq in E1. replace (MI + 1 <=? length xs)%nat with false by (symmetry; apply Nat.leb_gt; lia).
      destruct (vote SA MI (xs ++ [x]) 0).
      * cbn [fst snd]. refine (conj eq_refl (conj Logic.I (or_introl (conj eq_refl (conj eq_refl eq_refl))))).
      * replace (Nat.eqb (S (length xs)) (LA * SA + MI + 1)) with false by (symmetry; apply Nat.eqb_neq; fold L; lia).
        cbn [fst snd]. rewrite E. replace (Nat.eqb (S (length xs)) (MI + 1)) with true by (symmetry; apply Nat.eqb_eq; lia).
        refine (conj eq_refl (conj _ (or_intror (conj eq_refl (conj eq_refl (conj _ (conj eq_refl _))))))).
        -- cbn [on_way]. rewrite E. fold L. lia.
        -- cbn [is_busy]. rewrite E. apply Nat.leb_le. lia.
        -- unfold started. rewrite E. replace (MI + 1 <=? S (length xs))%nat with true by (symmetry; apply Nat.leb_le; lia). f_equal. lia.
    + apply Nat.eqb_neq in E1. destruct (Nat.eqb (S (length xs)) (LA * SA + MI + 1)) eqn:E2; cbn [fst snd].
      * apply Nat.eqb_eq in E2. fold L in E2. replace (MI + 1 <=? length xs)%nat with true by (symmetry; apply Nat.leb_le; lia).
        refine (conj eq_refl (conj Logic.I (conj eq_refl (conj eq_refl (conj eq_refl (conj eq_refl _)))))). f_equal. unfold L in E2. lia.
      * apply Nat.eqb_neq in E2. fold L in E2. rewrite E. replace (Nat.eqb (S (length xs)) (MI + 1)) with false by (symmetry; apply Nat.eqb_neq; lia).
        refine (conj eq_refl (conj _ (or_introl (conj eq_refl (conj _ _))))).
        -- cbn [on_way]. rewrite E. fold L. lia.
        -- cbn [is_busy]. rewrite E. apply Bool.eq_iff_eq_true. rewrite !Nat.leb_le. lia.
        -- unfold started. rewrite E. destruct (MI + 1 <=? length xs)%nat eqn:E4.
           ++ apply Nat.leb_le in E4. replace (MI + 1 <=? S (length xs))%nat with true by (symmetry; apply Nat.leb_le; lia). f_equal. lia.
           ++ apply Nat.leb_gt in E4. replace (MI + 1 <=? S (length xs))%nat with false by (symmetry; apply Nat.leb_gt; lia). reflexivity.
Qed.

Lemma nline_events_l : forall f sched r i, on_way SA MI LA r -> Forall (fun sw => forallb software sw = true) sched ->
  pchars (is_busy MI r) (map snd (nline_events SA MI LA n par f r i sched)) =
  map word (map (decode n par) (snd (rcv_run SA MI LA f r i (length sched)))).
Proof.
  intros f sched. induction sched as [|sw sched IH]; intros r i W SW; [reflexivity|].
  inversion SW as [|? ? SW1 SW2 [X1 X2]]; subst. cbn [length rcv_run nline_events].
  destruct (nline_step_l r (f i) i W) as (S1 & S2 & S3). destruct (nline_step SA MI LA n par r (f i)) as [r1' hw]. cbn [fst snd] in S1, S3.
  destruct (rcv_step SA MI LA r (f i)) as [r1 out]. cbn [fst snd] in *. subst r1'. specialize (IH r1 (i + 1) S2 SW2).
  destruct (rcv_run SA MI LA f r1 (i + 1) (length sched)) as [r2 outs]. cbn [snd] in *. rewrite map_app.
  rewrite map_map with (g := snd), map_ext with (g := fun e => e) by reflexivity. rewrite map_id, <- app_assoc.
  destruct out as [|fr [|? ?]]; [| |contradiction].
  - destruct S3 as [(-> & B & _) | (-> & B1 & B2 & _)]; cbn [app pchars]; rewrite pchars_software by exact SW1.
    + rewrite <- B. exact IH.
    + rewrite <- B2. exact IH.
  - destruct S3 as (B1 & B2 & -> & _). cbn [app map pchars]. rewrite B1, pchars_software by exact SW1. rewrite <- B2. f_equal. exact IH.
Qed.

Lemma npaced_l : forall Size f sched r i p, on_way SA MI LA r -> Forall (fun sw => forallb software sw = true) sched ->
  paced (Z.of_nat (LA * SA)) (i - 1) (started MI r i) (ntimed Size p (nline_events SA MI LA n par f r i sched)) = true.
Proof.
  intros Size f sched. induction sched as [|sw sched IH]; intros r i p W SW; [reflexivity|].
  inversion SW as [|? ? SW1 SW2 [X1 X2]]; subst. cbn [nline_events].
  destruct (nline_step_l r (f i) i W) as (S1 & S2 & S3). destruct (nline_step SA MI LA n par r (f i)) as [r1' hw]. cbn [fst snd] in S1, S3.
  destruct (rcv_step SA MI LA r (f i)) as [r1 out]. cbn [fst snd] in *. subst r1'.
  assert (REST : forall p', paced (Z.of_nat (LA * SA)) i (started MI r1 (i + 1)) (ntimed Size p' (nline_events SA MI LA n par f r1 (i + 1) sched)) = true).
  { intros p'. replace i with (i + 1 - 1) at 1 by lia. apply IH; assumption. }
  destruct out as [|fr [|? ?]]; [| |contradiction].
  - destruct S3 as [(-> & _ & C) | (-> & _ & _ & C1 & C2)]; cbn [app map].
    + rewrite <- C. apply (paced_now SA MI LA MI1 SA1 LA1) with (now := i); [lia|]. apply npaced_software; assumption.
    + cbn [ntimed nport_step port_step map app]. cbn [paced]. replace (i - 1 <=? i) with true by lia. rewrite C1. cbn [andb]. rewrite C2 in REST. apply npaced_software; assumption.
  - destruct S3 as (_ & _ & -> & C1 & C2). cbn [app map].
    cbn [ntimed nport_step port_step map app]. cbn [paced]. replace (i - 1 <=? i) with true by lia. rewrite C2. cbn [andb].
    replace (i - Z.of_nat (LA * SA) + Z.of_nat (LA * SA) <=? i) with true by lia. cbn [andb]. rewrite C1 in REST. apply npaced_software; assumption.
Qed.

(** Idle for a frame: the receiver is ready again. *)
Definition togo (r : rcv) : nat := match r with WIdle true => 0 | WIdle false => 1 | WBusy xs => L - length xs end.
Lemma settles : forall f m r i, on_way SA MI LA r -> (togo r <= m)%nat -> (forall j, i <= j < i + Z.of_nat m -> f j = true) ->
  fst (rcv_run SA MI LA f r i m) = WIdle true.
Proof.
  assert (LB := L_big SA MI LA MI1 SA1 LA1). fold L in LB.
  intros f m. induction m as [|m IH]; intros r i W T H.
  - destruct r as [[]|xs]; cbn [togo] in T; [reflexivity|lia|]. cbn [on_way] in W. fold L in W. lia.
  - cbn [rcv_run]. destruct (nline_step_l r (f i) i W) as (_ & S2 & _). rewrite H in * by lia.
    assert (T1 : (togo (fst (rcv_step SA MI LA r true)) <= m)%nat).
    { destruct r as [pv|xs]; cbn [rcv_step].
      - rewrite andb_false_r. cbn [fst togo]. lia.
      - cbn [togo on_way] in T, W. fold L in W. destruct (_ && vote SA MI (xs ++ [true]) 0); [cbn [fst togo]; lia|].
        destruct (Nat.eqb _ (LA * SA + MI + 1)); cbn [fst togo]; [lia|]. rewrite app_length. cbn [length]. lia. }
    destruct (rcv_step SA MI LA r true) as [r1 out]. cbn [fst] in *.
    specialize (IH r1 (i + 1) S2 T1 ltac:(intros j J; apply H; lia)).
    destruct (rcv_run SA MI LA f r1 (i + 1) m) as [r2 outs]. exact IH.
Qed.
Lemma run_on_way : forall f m r i, on_way SA MI LA r -> on_way SA MI LA (fst (rcv_run SA MI LA f r i m)).
Proof.
  intros f m. induction m as [|m IH]; intros r i W; [exact W|]. cbn [rcv_run]. destruct (nline_step_l r (f i) i W) as (_ & S2 & _).
  destruct (rcv_step SA MI LA r (f i)) as [r1 out]. cbn [fst] in S2. specialize (IH r1 (i + 1) S2).
  destruct (rcv_run SA MI LA f r1 (i + 1) m) as [r2 outs]. exact IH.
Qed.
Lemma togo_l : forall r, on_way SA MI LA r -> (togo r <= LA * SA + MI)%nat.
Proof.
  assert (LB := L_big SA MI LA MI1 SA1 LA1). fold L in LB. unfold L in LB.
  intros [[]|xs] W; cbn [togo]; try lia. cbn [on_way] in W. unfold L. lia.
Qed.
End Line.

(** ** Together *)
Lemma number_range : forall bs, 0 <= number bs < 2 ^ Z.of_nat (length bs).
Proof.
  induction bs as [|b bs IH]; [cbn; lia|]. cbn [number fold_right length]. fold (number bs). rewrite Nat2Z.inj_succ, Z.pow_succ_r by lia.
  destruct b; cbn [Z.b2z]; lia.
Qed.
Lemma decode_bytes : forall n par frs, (n <= 8)%nat -> Forall byte_char (map (decode n par) frs).
Proof.
  intros n par frs N. apply Forall_map, Forall_forall. intros fr _. unfold byte_char, decode. cbn [fst].
  assert (R := number_range (firstn n (tl fr))). assert (F : (length (firstn n (tl fr)) <= 8)%nat) by (rewrite firstn_length; lia).
  assert (P : 2 ^ Z.of_nat (length (firstn n (tl fr))) <= 2 ^ 8) by (apply Z.pow_le_mono_r; lia). change (2 ^ 8) with 256 in P. lia.
Qed.
Lemma deliver_places : forall o lost, deliver lost (map NoiseSpec.place o) = map NoiseSpec.place (handed lost o).
Proof.
  induction o as [|[c k] o IH]; intros lost; [reflexivity|]. cbn [map deliver handed]. change (NoiseSpec.place (c, k)) with (word c, k).
  cbn [deliver]. destruct k; rewrite IH; reflexivity.
Qed.
Lemma as_places : forall cs (o : list (Z * bool)), map fst o = map word cs -> exists o', o = map NoiseSpec.place o' /\ map fst o' = cs.
Proof.
  induction cs as [|c cs IH]; intros [|[w k] o] H; try discriminate; [exists []; split; reflexivity|].
  cbn [map fst] in H. assert (H1 := f_equal (hd 0) H). assert (H2 := f_equal (@tl Z) H). cbn [hd tl] in H1, H2. subst w.
  destruct (IH o H2) as (o' & -> & <-). exists ((c, k) :: o'). split; reflexivity.
Qed.
Lemma handed_in : forall o lost (P : Z * bool * bool -> Prop), Forall (fun c => P (fst c)) o -> Forall (fun c => P (fst c)) (handed lost o).
Proof.
  induction o as [|[c k] o IH]; intros lost P F; [constructor|]. inversion F as [|? ? F1 F2 [X1 X2]]; subst.
  cbn [handed]. destruct k; [constructor; [exact F1|]|]; apply IH; exact F2.
Qed.
Lemma sub_skips : forall (T : Type) (pre a b : list T), sub a b -> sub a (pre ++ b).
Proof. intros T pre a b H. induction pre; [exact H|]. cbn [app]. now apply sub_skip. Qed.
Lemma flawless_sub : forall o lost, sub (flawless (handed lost o)) (sound (map fst o)).
Proof.
  induction o as [|[[[d fe] pe] k] o IH]; intros lost; [apply sub_nil|].
  change (sound (map fst ((d, fe, pe, k) :: o))) with (sound ([(d, fe, pe)] ++ map fst o)).
  assert (A : forall a b, sound (a ++ b) = sound a ++ sound b) by (intros; unfold sound; now rewrite filter_app, map_app).
  rewrite A. cbn [handed]. destruct k; [|apply sub_skips, IH].
  change (flawless ((d, fe, pe, lost) :: handed false o)) with (sound (map fst (filter (fun c => negb (snd c)) ([(d, fe, pe, lost)] ++ handed false o)))).
  rewrite filter_app, map_app, A. fold (flawless (handed false o)).
  destruct lost; cbn [filter snd negb map fst]; [apply sub_skips, IH|].
  destruct fe, pe; cbn [sound filter map fst snd negb andb app]; try apply IH. apply sub_take, IH.
Qed.
Lemma sub_none : forall (T : Type) (l : list T), sub [] l.
Proof. induction l; [apply sub_nil|now apply sub_skip]. Qed.
Lemma sub_app_l : forall (T : Type) (a b c : list T), sub (a ++ b) c -> sub a c.
Proof.
  intros T a b c H. remember (a ++ b) as ab eqn:E. revert a E. induction H as [|x a0 b0 H IH|x a0 b0 H IH]; intros a E.
  - destruct a; [apply sub_nil|discriminate].
  - apply sub_skip, IH, E.
  - destruct a as [|y a]; cbn [app] in E.
    + apply sub_none.
    + injection E as <- E. apply sub_take, IH, E.
Qed.
Lemma sub_trans_z : forall (b c : list Z), sub b c -> forall a, sub a b -> sub a c.
Proof.
  intros b c H. induction H as [|x b0 c0 H IH|x b0 c0 H IH]; intros a K; [exact K|apply sub_skip, IH, K|].
  inversion K as [|? ? ? K1|? ? ? K1]; subst; [apply sub_skip, IH, K1|apply sub_take, IH, K1].
Qed.
Lemma flawless_app : forall a b, flawless (a ++ b) = flawless a ++ flawless b.
Proof. intros. unfold flawless, sound. now rewrite filter_app, !map_app, filter_app, map_app. Qed.
Lemma handed_all : forall o, length (filter (fun c : Z * bool * bool * bool => negb (snd c)) o) = 0%nat -> flawless (handed false o) = sound (map fst o).
Proof.
  induction o as [|[[[d fe] pe] k] o IH]; intros H; [reflexivity|]. destruct k; cbn [filter snd negb length] in H; [|discriminate].
  cbn [handed map fst]. change ((d, fe, pe, false) :: handed false o) with ([(d, fe, pe, false)] ++ handed false o). rewrite flawless_app, IH by exact H.
  change (sound ((d, fe, pe) :: map fst o)) with (sound ([(d, fe, pe)] ++ map fst o)). unfold sound at 2. rewrite filter_app, map_app. reflexivity.
Qed.

Lemma noise_l : forall m2 id2 b par (two : bool) f sched, hw_frame m2 id2 = Some (5 + b, par, two) -> 0 <= b <= 3 ->
  Forall (fun sw => forallb software sw = true) sched ->
  exists tevs cs, listening m2 id2 f sched = Some tevs /\ listen m2 id2 f (length sched) = Some cs /\
  forall Size m', 1 <= Size <= 65535 -> nport_polite Size (port_init m') false (map snd tevs) = true ->
  exists p queued o taken rest, nport_run Size (port_init m') (map snd tevs) = Some p /\
    map fst o = cs /\ handed false o = taken ++ rest /\ p_taken p = map NoiseSpec.place taken /\
    unread (p_uart p) = map NoiseSpec.place rest /\ (length rest <= 3)%nat /\
    length (filter (fun c => negb (snd c)) o) = losses 0 false (map snd (ntimed Size (port_init m') tevs)) /\
    r_acc (p_rx p) = answered (p_rx p) ++ queued /\ Z.of_nat (length queued) <= Size - 1 /\
    sub (r_acc (p_rx p)) (flawless taken) /\ sub (r_acc (p_rx p)) (sound cs) /\
    (Z.of_nat (length (flawless taken)) <= Size - 1 -> r_acc (p_rx p) = flawless taken) /\
    (HwRxSpec.served (2 * (hw_divider m2 id2 * (6 + b + match par with POff => 0 | _ => 1 end))) [] false (ntimed Size (port_init m') tevs) = true ->
      length (filter (fun c => negb (snd c)) o) = 0%nat).
Proof.
  intros m2 id2 b par two f sched HF B SW. unfold listening, listen. rewrite HF. cbv zeta.
  assert (D : hw_divider m2 id2 = 8 \/ hw_divider m2 id2 = 16) by (unfold hw_divider; destruct (Z.testbit _ 1); auto).
  destruct (speeds _ D) as [D1 [_ [D3 D4]]].
  set (SA := speed_samples (hw_divider m2 id2)) in *. set (MI := speed_middle (hw_divider m2 id2)) in *.
  set (LA := last_bit (Z.to_nat (5 + b)) par) in *.
  assert (LK : Z.of_nat LA = 6 + b + match par with POff => 0 | _ => 1 end) by (unfold LA, last_bit; destruct par; lia).
  assert (L1 : (1 <= LA)%nat) by (unfold LA, last_bit; destruct par; lia).
  assert (M1 : (1 <= MI)%nat) by lia. assert (S1 : (1 <= SA)%nat) by lia.
  set (tevs := nline_events SA MI LA (Z.to_nat (5 + b)) par f (WIdle true) 0 sched).
  set (frs := snd (rcv_run SA MI LA f (WIdle true) 0 (length sched))).
  assert (V := nline_events_l SA MI LA (Z.to_nat (5 + b)) par M1 S1 L1 f sched (WIdle true) 0 Logic.I SW). cbn [is_busy] in V. fold tevs frs in V.
  set (cs := map (decode (Z.to_nat (5 + b)) par) frs) in *.
  assert (BY : Forall byte_char cs) by (apply decode_bytes; lia).
  exists tevs, cs. split; [reflexivity|]. split; [reflexivity|]. intros Size m' HS PO.
  destruct (nport_run_inv Size HS _ _ _ _ (nport_init_inv Size HS m') PO) as (p & seen & q & R & I & Sb & Ln).
  destruct (nport_wire Size HS tevs _ _ R) as (t & U & TK). cbn [port_init p_taken app] in TK. subst t.
  destruct (hw_account_l _ _ _ U) as (o0 & C & DE & N & LE). rewrite (ntimed_pchars Size _ _ _ false R), V in C.
  destruct (as_places cs o0 C) as (o & -> & E). rewrite deliver_places in DE. symmetry in DE.
  apply map_eq_app in DE. destruct DE as (taken & rest & HD & ET & ER).
  assert (BO : Forall (fun c => byte_char (fst c)) (handed false o)).
  { apply handed_in. rewrite <- E in BY. rewrite Forall_map in BY. exact BY. }
  rewrite HD in BO. apply Forall_app in BO. destruct BO as [BT BR].
  assert (KT : kept (p_taken p) = flawless taken) by (rewrite <- ET; apply kept_places; exact BT). rewrite KT in Sb, Ln.
  destruct (rx_inv_rest Size _ _ _ I) as [A QL].
  assert (CO : length (filter (fun c : Z * bool * bool * bool => negb (snd c)) o) = losses 0 false (map snd (ntimed Size (port_init m') tevs))).
  { rewrite <- N. clear. induction o as [|[c k] o IH]; [reflexivity|]. cbn [map filter snd]. change (NoiseSpec.place (c, k)) with (word c, k). cbn [snd].
    destruct k; cbn [negb length]; lia. }
  exists p, q, o, taken, rest. split; [exact R|]. split; [exact E|]. split; [exact HD|]. split; [symmetry; exact ET|]. split; [symmetry; exact ER|].
  split; [rewrite <- ER, map_length in LE; exact LE|]. split; [exact CO|].
  split; [unfold answered; rewrite <- app_assoc; exact A|]. split; [exact QL|]. split; [exact Sb|].
  split.
  { refine (sub_trans_z _ _ _ _ Sb). rewrite <- E. apply (sub_app_l _ _ (flawless rest)). rewrite <- flawless_app, <- HD. apply flawless_sub. }
  split; [intros X; apply sub_same; [exact Sb|apply Ln; exact X]|].
  intros SE. rewrite CO. refine (hw_latency_l (hw_divider m2 id2 * (6 + b + match par with POff => 0 | _ => 1 end)) _ (-1) _ _ (Z.le_refl _) _ SE).
  - clear - D B. destruct par, D as [-> | ->]; lia.
  - assert (X := npaced_l SA MI LA (Z.to_nat (5 + b)) par M1 S1 L1 Size f sched (WIdle true) 0 (port_init m') Logic.I SW).
    cbn [started] in X. fold tevs in X. rewrite Nat2Z.inj_mul, LK, D1, Z.mul_comm in X. exact X.
Qed.

(** ** Reading without interrupts *)
Lemma read_l : forall evs u taken rest, uart_run uart_init evs = (u, taken) -> unread u = map NoiseSpec.place rest ->
  Forall (fun c => byte_char (fst c)) rest ->
  snd (try_read (queue u)) = match rest with
    | [] => (false, 0, RNotReady)
    | (d, fe, pe, over) :: _ => (true, d, if fe then RFrame else if pe then RParity else if over then ROverrun else RSuccess)
    end /\
  option_map snd (read1 (queue u)) = match rest with
    | [] => None
    | (d, fe, pe, over) :: _ => Some (if fe || pe || over then -1 else d)
    end.
Proof.
  intros evs u taken rest E U F. assert (N := hw_next_l evs u taken E). unfold hw_try_read, uart_take in N. rewrite U in N.
  unfold queue. destruct (u_fifo u) as [|[w ov] q] eqn:Q.
  - destruct rest as [|[[[d fe] pe] over] rest]; [split; reflexivity|]. destruct N as [N _]. discriminate.
  - destruct rest as [|[[[d fe] pe] over] rest]; [destruct N as [N _]; discriminate|].
    assert (X : w = word (d, fe, pe) /\ ov = over).
    { assert (H := f_equal (hd (0, false)) U). unfold unread in H. rewrite Q in H. cbn [app hd map] in H. split; [exact (f_equal fst H)|exact (f_equal snd H)]. }
    destruct X as [-> ->]. inversion F as [|? ? F1 F2 [X1 X2]]; subst. unfold byte_char in F1. cbn [fst] in F1.
    destruct (word_parts d fe pe F1) as (A & B & C). cbn [map try_read read1 snd option_map].
    assert (S : status (word (d, fe, pe), over) = 128 + 16 * Z.b2z fe + 8 * Z.b2z over + 4 * Z.b2z pe).
    { unfold status. cbn [fst snd]. rewrite B, C. reflexivity. }
    assert (R : read_internal 0 (udr (word (d, fe, pe), over)) = d).
    { unfold udr. cbn [fst]. rewrite A. unfold read_internal. change (nine 0) with false. cbn [Z.lor]. unfold s16. cbv zeta. rewrite Z.mod_small by lia.
      destruct (d <? 32768) eqn:E1; lia. }
    assert (RR : rx_result (status (word (d, fe, pe), over)) = if fe then RFrame else if pe then RParity else if over then ROverrun else RSuccess).
    { rewrite S. destruct fe, pe, over; reflexivity. }
    rewrite RR, R. split.
    + unfold u16. rewrite Z.mod_small by lia. reflexivity.
    + destruct fe, pe, over; reflexivity.
Qed.

(** ** Recovery *)
Lemma recovers_l : forall F G m1 id1 m2 id2 b p1 p2 (two1 two2 : bool) cs a t0 f i0,
  hw_frame m1 id1 = Some (5 + b, p1, two1) -> hw_frame m2 id2 = Some (5 + b, p2, two2) -> 0 <= b <= 3 ->
  (p1 = POff <-> p2 = POff) ->
  let d := hw_divider m2 id2 in
  let T := bit_time G (hw_divider m1 id1) (hw_ubrr m1 id1) in
  let q := sample_time F (hw_ubrr m2 id2) in
  0 < q -> tolerable (speed_samples d) (speed_middle d) (last_bit (Z.to_nat (5 + b)) p1) T q ->
  let K := 6 + b + (match p1 with POff => 0 | _ => 1 end) in
  WireSpec.spaced (T * (K + 1 + if two1 then 1 else 0)) t0 cs ->
  (forall i, Z.of_nat i0 <= i -> f i = sampled T q a (frames_of (Z.to_nat (5 + b)) p1 two1 cs) i) ->
  let ready := (i0 + last_bit (Z.to_nat (5 + b)) p1 * speed_samples d + speed_middle d)%nat in
  a + (Z.of_nat ready - 1) * q < t0 ->
  forall m, exists before c, listen m2 id2 f (Nat.min m ready) = Some before /\
    listen m2 id2 f m = Some (before ++ map (fun x => (snd x mod 2 ^ (5 + b), false, opposite p1 p2)) (firstn c cs)) /\
    hears (T * (K + 1 + if two1 then 1 else 0)) (K * T) cs (a + (Z.of_nat m - 1) * q) c.
Proof.
  intros F G m1 id1 m2 id2 b p1 p2 two1 two2 cs a t0 f i0 H1 H2 B PP d T q Q TOL K SP FE ready BE m.
  assert (D : d = 8 \/ d = 16) by (unfold d, hw_divider; destruct (Z.testbit _ 1); auto).
  destruct (speeds d D) as [_ [_ [D3 D4]]].
  assert (LK := last_frame b p1 B). fold K in LK.
  assert (LP : last_bit (Z.to_nat (5 + b)) p2 = last_bit (Z.to_nat (5 + b)) p1).
  { unfold last_bit. destruct p1, p2; try reflexivity; exfalso; destruct PP as [E1 E2]; first [discriminate (E1 eq_refl) | discriminate (E2 eq_refl)]. }
  assert (L1 : (1 <= last_bit (Z.to_nat (5 + b)) p1)%nat) by (unfold last_bit; destruct p1; lia).
  unfold listen. rewrite H2. cbv zeta. fold d. rewrite LP.
  rewrite <- LK in SP. destruct (spaced_turn _ _ _ _ _ _ SP) as [TU FR].
  set (LA := last_bit (Z.to_nat (5 + b)) p1) in *. set (SA := speed_samples d) in *. set (MI := speed_middle d) in *.
  assert (PT : 0 < T) by (apply (T_pos SA MI LA D3 D4 L1 T q Q TOL)).
  destruct (le_lt_dec m ready) as [M|M].
  - rewrite Nat.min_l by exact M. eexists _, 0%nat. split; [reflexivity|]. split; [cbn [firstn map]; rewrite app_nil_r; reflexivity|].
    refine (conj (Nat.le_0_l _) _). intros k s x E. split; [|intros X; lia]. intros X. exfalso.
    assert (S0 : t0 <= s).
    { apply (in_turn_le SA MI LA D3 D4 L1 T q Q TOL _ t0 k s (encode (Z.to_nat (5 + b)) p1 two1 x) TU). unfold frames_of. rewrite nth_error_map, E. reflexivity. }
    assert (MM : (Z.of_nat m - 1) * q <= (Z.of_nat ready - 1) * q) by (clear - M Q; nia).
    assert (KK : 0 <= T * (K + 1 + if two1 then 1 else 0)).
    { apply Z.mul_nonneg_nonneg; [clear - PT; lia|]. clear - LK. destruct two1; lia. }
    clear - X S0 MM KK BE. lia.
  - rewrite Nat.min_r by lia. set (m' := (m - ready)%nat). assert (EM : m = (ready + m')%nat) by (unfold m'; lia).
    eexists. assert (RA := run_app SA MI LA D3 D4 f ready m' (WIdle true) 0). cbv zeta in RA. rewrite <- EM in RA. cbn [Z.add] in RA.
    assert (ST : fst (rcv_run SA MI LA f (WIdle true) 0 ready) = WIdle true).
    { assert (RI := run_app SA MI LA D3 D4 f i0 (LA * SA + MI) (WIdle true) 0). cbv zeta in RI.
      replace (i0 + (LA * SA + MI))%nat with ready in RI by (unfold ready; lia). rewrite RI. cbn [fst Z.add].
      assert (OW := run_on_way SA MI LA (Z.to_nat (5 + b)) p1 ltac:(lia) ltac:(lia) L1 f i0 (WIdle true) 0 Logic.I).
      apply (settles SA MI LA (Z.to_nat (5 + b)) p1 ltac:(lia) ltac:(lia) L1); [exact OW|apply togo_l; [lia|lia|exact L1|exact OW]|].
      intros j J. rewrite FE by lia. unfold sampled. apply (level_before T _ t0); [exact PT|exact TU|].
      assert (Y : j * q <= (Z.of_nat ready - 1) * q) by (clear - J Q; unfold ready; nia). clear - Y BE. lia. }
    rewrite ST in RA.
    destruct (receives SA MI LA D3 D4 L1 T q a Q TOL (frames_of (Z.to_nat (5 + b)) p1 two1 cs) t0 (Z.of_nat ready) m' f TU FR BE) as [c [O [CL EX]]].
    { intros j J. apply FE. clear - J. unfold ready in J. lia. }
    exists c. split; [reflexivity|]. split.
    + rewrite RA. cbn [snd]. rewrite O, map_app. f_equal. f_equal. unfold frames_of. rewrite firstn_map, !map_map. apply map_ext. intros [s x]. cbn [fst snd].
      unfold LA. rewrite decode_encode_l by exact PP. rewrite Z2Nat.id by lia. reflexivity.
    + unfold frames_of in CL. rewrite map_length in CL. refine (conj CL _). intros k s x E.
      destruct (EX k s (encode (Z.to_nat (5 + b)) p1 two1 x)) as [E1 E2].
      { unfold frames_of. rewrite nth_error_map, E. reflexivity. }
      rewrite encode_length in E1. fold LA in E1.
      replace (Z.of_nat (S LA + (if two1 then 1 else 0))) with (K + 1 + (if two1 then 1 else 0)) in E1 by (rewrite <- LK; destruct two1; lia).
      rewrite LK in E2. replace (Z.of_nat ready + Z.of_nat m' - 1) with (Z.of_nat m - 1) in * by lia. split; assumption.
Qed.

(** ** Joining in the middle *)
Fixpoint contiguous (T s : Z) (bss : list (list bool)) : list (Z * list bool) :=
  match bss with [] => [] | bs :: rest => (s, bs) :: contiguous T (s + T * Z.of_nat (length bs)) rest end.
Lemma level_contiguous : forall T bss s t, 0 < T ->
  level T (contiguous T s bss) t = if s <=? t then nth (Z.to_nat ((t - s) / T)) (concat bss) true else true.
Proof.
  intros T bss. induction bss as [|bs bss IH]; intros s t PT; cbn [contiguous level concat].
  - destruct (s <=? t); [destruct (Z.to_nat _)|]; reflexivity.
  - rewrite IH by exact PT. set (e := s + T * Z.of_nat (length bs)) in *.
    assert (EL : 0 <= T * Z.of_nat (length bs)) by (apply Z.mul_nonneg_nonneg; lia).
    destruct (s <=? t) eqn:E1; cbn [andb]; [|replace (e <=? t) with false by lia; reflexivity].
    destruct (t <? e) eqn:E2.
    + rewrite app_nth1; [reflexivity|]. assert (X : (t - s) / T < Z.of_nat (length bs)) by (apply Z.div_lt_upper_bound; [exact PT|unfold e in E2; lia]).
      assert (Y : 0 <= (t - s) / T) by (apply Z.div_pos; lia). lia.
    + replace (e <=? t) with true by lia. assert (Y : (t - s) / T = (t - e) / T + Z.of_nat (length bs)).
      { replace (t - s) with (t - e + Z.of_nat (length bs) * T) by (unfold e; lia). rewrite Z.div_add by lia. reflexivity. }
      assert (Y2 : 0 <= (t - e) / T) by (apply Z.div_pos; lia).
      rewrite app_nth2 by (rewrite Y; lia). f_equal. rewrite Y. lia.
Qed.
Lemma frames_contiguous : forall T ds s e, (forall d, length (encode 8 POff false d) = 10%nat) ->
  frames_of 8 POff false (map (fun k => (10 * T * Z.of_nat (fst k) + e, snd k)) (combine (seq s (length ds)) ds)) =
  contiguous T (10 * T * Z.of_nat s + e) (map (encode 8 POff false) ds).
Proof.
  intros T ds. induction ds as [|d ds IH]; intros s e L; [reflexivity|]. cbn [length seq combine map frames_of contiguous fst snd]. f_equal.
  fold (frames_of 8 POff false (map (fun k : nat * Z => (10 * T * Z.of_nat (fst k) + e, snd k)) (combine (seq (S s) (length ds)) ds))).
  rewrite IH, L by exact L. f_equal. lia.
Qed.
Lemma enc_length : forall d, length (encode 8 POff false d) = 10%nat.
Proof. intros d. reflexivity. Qed.
Lemma combine_same : forall (d : Z) n s, combine (seq s n) (repeat d n) = map (fun k => (k, d)) (seq s n).
Proof. intros d n. induction n as [|n IH]; intros s; [reflexivity|]. cbn [seq repeat combine map]. rewrite IH. reflexivity. Qed.
Lemma combine_app : forall (A B : Type) (a a' : list A) (b b' : list B), length a = length b -> combine (a ++ a') (b ++ b') = combine a b ++ combine a' b'.
Proof. intros A B a. induction a as [|x a IH]; intros a' [|y b] b' H; try discriminate; [reflexivity|]. cbn [app combine]. rewrite IH by (injection H; auto). reflexivity. Qed.
Lemma train_frames : forall T n, frames_of 8 POff false (train T n) = contiguous T 0 (map (encode 8 POff false) (repeat 247 (S n))).
Proof.
  intros T n. assert (H := frames_contiguous T (repeat 247 (S n)) 0 0 enc_length). rewrite repeat_length, combine_same, map_map in H.
  replace (10 * T * Z.of_nat 0 + 0) with 0 in H by (cbn [Z.of_nat]; lia). rewrite <- H. unfold train. f_equal. apply map_ext. intros k. cbn [fst snd]. f_equal. lia.
Qed.
Lemma shifted_frames : forall T n, frames_of 8 POff false (shifted T n) = contiguous T (4 * T) (map (encode 8 POff false) (repeat 223 n ++ [255])).
Proof.
  intros T n. assert (H := frames_contiguous T (repeat 223 n ++ [255]) 0 (4 * T) enc_length). rewrite app_length, repeat_length, seq_app in H.
  rewrite combine_app, combine_same in H by (rewrite seq_length, repeat_length; reflexivity). cbn [length seq combine Nat.add] in H. rewrite map_app, map_map in H.
  replace (10 * T * Z.of_nat 0 + 4 * T) with (4 * T) in H by (cbn [Z.of_nat]; lia). rewrite <- H. reflexivity.
Qed.
Definition head4 : list bool := [false; true; true; true].
Definition tail6 : list bool := [false; true; true; true; true; true].
Lemma train_bits : forall n, concat (map (encode 8 POff false) (repeat 247 (S n))) = head4 ++ concat (map (encode 8 POff false) (repeat 223 n)) ++ tail6.
Proof.
  induction n as [|n IH]; [reflexivity|]. cbn [repeat map concat] in *. change (encode 8 POff false 223) with (tail6 ++ head4). rewrite IH.
  change (encode 8 POff false 247) with (head4 ++ tail6). rewrite <- !app_assoc. reflexivity.
Qed.
Lemma train_level : forall T n t, 0 < T -> T <= t -> level T (frames_of 8 POff false (train T n)) t = level T (frames_of 8 POff false (shifted T n)) t.
Proof.
  intros T n t PT H. rewrite train_frames, shifted_frames, !level_contiguous by exact PT. replace (0 <=? t) with true by lia. rewrite Z.sub_0_r.
  rewrite train_bits, map_app, concat_app. change (concat (map (encode 8 POff false) [255])) with (tail6 ++ repeat true 4).
  assert (Z1 : 1 <= t / T) by (apply Z.div_le_lower_bound; lia).
  destruct (4 * T <=? t) eqn:E.
  - assert (Y : (t - 4 * T) / T = t / T - 4). { replace (t - 4 * T) with (t + (- 4) * T) by lia. rewrite Z.div_add by lia. lia. }
    assert (Z4 : 4 <= t / T) by (apply Z.div_le_lower_bound; lia).
    rewrite app_nth2 by (cbn [length head4]; lia). rewrite Y. replace (Z.to_nat (t / T) - length head4)%nat with (Z.to_nat (t / T - 4)) by (cbn [length head4]; lia).
    generalize (Z.to_nat (t / T - 4)). intros j. set (X := concat (map (encode 8 POff false) (repeat 223 n))). rewrite (app_assoc X).
    destruct (le_lt_dec (length (X ++ tail6)) j) as [G|G]; [|rewrite (app_nth1 (X ++ tail6)) by exact G; reflexivity].
    rewrite nth_overflow by exact G. rewrite app_nth2 by exact G. generalize (j - length (X ++ tail6))%nat. intros k.
    do 4 (destruct k as [|k]; [reflexivity|]). destruct k; reflexivity.
  - assert (Z4 : t / T < 4) by (apply Z.div_lt_upper_bound; lia). rewrite app_nth1 by (cbn [length head4]; lia).
    assert (J : t / T = 1 \/ t / T = 2 \/ t / T = 3) by lia. destruct J as [-> | [-> | ->]]; reflexivity.
Qed.
Lemma rcv_run_ext : forall SA MI LA f g m r i, (forall j, i <= j -> f j = g j) -> rcv_run SA MI LA f r i m = rcv_run SA MI LA g r i m.
Proof.
  intros SA MI LA f g m. induction m as [|m IH]; intros r i E; [reflexivity|]. cbn [rcv_run]. rewrite E by lia.
  destruct (rcv_step SA MI LA r (g i)) as [r1 a]. rewrite IH by (intros j J; apply E; lia). reflexivity.
Qed.
Lemma midway_l : forall F c id1 id2 m1 m2 n a m, 1 <= F -> c_div c = 8 \/ c_div c = 16 -> 0 <= c_ubrr c < 65536 ->
  c_bits c = 3 -> c_par c = POff -> c_two c = false -> id1 = 0 \/ id1 = 1 -> id2 = 0 \/ id2 = 1 ->
  let T := bit_time F (c_div c) (c_ubrr c) in T <= a <= 4 * T ->
  exists k, heard F F (opened m1 id1 c) id1 (opened m2 id2 c) id2 (train T n) a m =
      Some (map (fun d => (d, false, false)) (firstn k (repeat 223 n ++ [255]))) /\
    hears (10 * T) (9 * T) (shifted T n) (a + (Z.of_nat m - 1) * sample_time F (c_ubrr c)) k.
Proof.
  intros F c id1 id2 m1 m2 n a m HF D U B P W I1 I2 T A.
  assert (QP : 0 < sample_time F (c_ubrr c)) by (unfold sample_time; apply Z.mul_pos_pos; lia).
  assert (PT : 0 < T) by (unfold T, bit_time; apply Z.mul_pos_pos; [apply Z.mul_pos_pos; destruct D; lia|lia]).
  assert (FT : frame_time F c = 10 * T) by (unfold frame_time, frame_bits; rewrite B, P, W; fold T; lia).
  assert (SP : WireSpec.spaced (frame_time F c) (4 * T) (shifted T n)).
  { rewrite FT. unfold shifted.
    assert (G : forall n s t0, t0 <= 10 * T * Z.of_nat s + 4 * T ->
      WireSpec.spaced (10 * T) t0 (map (fun k => (10 * T * Z.of_nat k + 4 * T, 223)) (seq s n) ++ [(10 * T * Z.of_nat (s + n) + 4 * T, 255)])).
    { clear - PT. intros n. induction n as [|n IH]; intros s t0 H0.
      - cbn [seq map app WireSpec.spaced]. split; [rewrite Nat.add_0_r; exact H0|exact Logic.I].
      - cbn [seq map app WireSpec.spaced]. split; [exact H0|]. rewrite Nat.add_succ_r. apply (IH (S s)). rewrite Nat2Z.inj_succ. lia. }
    apply (G n 0%nat). cbn [Z.of_nat]. lia. }
  destruct (one_clock_l F c c id1 id2 m1 m2 (shifted T n) a (4 * T) m HF D eq_refl U eq_refl I1 I2 ltac:(lia) eq_refl eq_refl SP ltac:(lia)) as [k [H EX]].
  exists k. split.
  - transitivity (heard F F (opened m1 id1 c) id1 (opened m2 id2 c) id2 (shifted T n) a m).
    + unfold heard. destruct (opened_l m1 id1 c I1 ltac:(lia) U D) as [R1 [R2 R3]]. destruct (opened_l m2 id2 c I2 ltac:(lia) U D) as [S1 [S2 S3]].
      rewrite R3, S3, R1, R2, S1, S2, B, P, W. cbv zeta. cbn [swap_parity]. fold T. change (Z.to_nat (5 + 3)) with 8%nat. f_equal. f_equal. f_equal.
      apply rcv_run_ext. intros j J. unfold sampled. apply train_level; [exact PT|].
      assert (Y : 0 <= j * sample_time F (c_ubrr c)) by (apply Z.mul_nonneg_nonneg; lia). lia.
    + rewrite H, B. change (2 ^ (5 + 3)) with 256. f_equal. rewrite <- map_map with (f := fun x => snd x mod 256) (g := fun d => (d, false, false)).
      f_equal. rewrite <- firstn_map. f_equal. unfold shifted. rewrite map_app, map_map. cbn [map snd]. change (255 mod 256) with 255. f_equal.
      change (223 mod 256) with 223. clear. generalize 0%nat. induction n as [|n IH]; intros s; [reflexivity|]. cbn [seq map repeat]. rewrite IH. reflexivity.
  - rewrite FT, W in EX. fold T in EX. replace (10 * T - T * 1) with (9 * T) in EX by lia. exact EX.
Qed.

(** ** Theorems *)
Lemma listen_heard : forall F G m1 id1 m2 id2 cs a m n p two, hw_frame m1 id1 = Some (n, p, two) ->
  heard F G m1 id1 m2 id2 cs a m = listen m2 id2 (line_of F G m1 id1 m2 id2 cs a) m.
Proof.
  intros F G m1 id1 m2 id2 cs a m n p two H. unfold heard, listen, line_of. rewrite H. destruct (hw_frame m2 id2) as [[[n2 p2] two2]|]; reflexivity.
Qed.
Lemma noise_lossless_l : forall m2 id2 b par (two : bool) f sched, hw_frame m2 id2 = Some (5 + b, par, two) -> 0 <= b <= 3 ->
  Forall (fun sw => forallb software sw = true) sched ->
  exists tevs cs, listening m2 id2 f sched = Some tevs /\ listen m2 id2 f (length sched) = Some cs /\
  forall Size m', 1 <= Size <= 65535 -> nport_polite Size (port_init m') false (map snd tevs) = true ->
  exists p, nport_run Size (port_init m') (map snd tevs) = Some p /\
    (sound cs = [] -> r_acc (p_rx p) = [] /\ answered (p_rx p) = []) /\
    (HwRxSpec.served (2 * (hw_divider m2 id2 * (6 + b + match par with POff => 0 | _ => 1 end))) [] false (ntimed Size (port_init m') tevs) = true ->
     none_refused p \/ Z.of_nat (length (sound cs)) <= Size - 1 ->
     exists queued rest, unread (p_uart p) = map NoiseSpec.place rest /\ (length rest <= 3)%nat /\
       answered (p_rx p) ++ queued ++ flawless rest = sound cs).
Proof.
  intros m2 id2 b par two f sched HF B SW. unfold listening, listen. rewrite HF. cbv zeta.
  assert (D : hw_divider m2 id2 = 8 \/ hw_divider m2 id2 = 16) by (unfold hw_divider; destruct (Z.testbit _ 1); auto).
  destruct (noise_l m2 id2 b par two f sched HF B SW) as (tevs & cs & A & C & H). unfold listening, listen in A, C. rewrite HF in A, C. cbv zeta in A, C.
  exists tevs, cs. split; [exact A|]. split; [exact C|]. intros Size m' HS PO.
  destruct (H Size m' HS PO) as (p & q & o & taken & rest & R & E & HD & TK & U & LE & _ & AC & _ & SB & SB2 & FI & SV).
  exists p. split; [exact R|]. split.
  - intros Z0. rewrite Z0 in SB2. inversion SB2 as [X| |]. split; [reflexivity|]. rewrite <- X in AC. symmetry in AC. apply app_eq_nil in AC. tauto.
  - intros SE NR. specialize (SV SE). exists q, rest. split; [exact U|]. split; [exact LE|].
    assert (ALL : flawless taken ++ flawless rest = sound cs) by (rewrite <- flawless_app, <- HD, handed_all, E by exact SV; reflexivity).
    assert (EQ : r_acc (p_rx p) = flawless taken).
    { destruct NR as [NR|NR].
      - apply sub_same; [exact SB|]. unfold none_refused in NR. rewrite NR.
        rewrite <- (kept_places taken), <- TK; [unfold kept; rewrite map_length; reflexivity|].
        assert (BO : Forall (fun c => byte_char (fst c)) (handed false o)).
        { apply handed_in. rewrite <- Forall_map, E. assert (CE := f_equal (fun o => match o with Some l => l | None => [] end) C). cbv beta iota in CE. rewrite <- CE. apply decode_bytes. clear - B. lia. }
        rewrite HD in BO. apply Forall_app in BO. tauto.
      - apply FI. rewrite <- ALL, app_length in NR. lia. }
    rewrite app_assoc, <- AC, EQ. exact ALL.
Qed.

Lemma noise_recovers_l : forall F G m1 id1 m2 id2 b par (two1 two2 : bool) cs a t0 f i0 sched,
  hw_frame m1 id1 = Some (5 + b, par, two1) -> hw_frame m2 id2 = Some (5 + b, par, two2) -> 0 <= b <= 3 ->
  let d := hw_divider m2 id2 in
  let T := bit_time G (hw_divider m1 id1) (hw_ubrr m1 id1) in
  let q := sample_time F (hw_ubrr m2 id2) in
  0 < q -> tolerable (speed_samples d) (speed_middle d) (last_bit (Z.to_nat (5 + b)) par) T q ->
  let K := 6 + b + (match par with POff => 0 | _ => 1 end) in
  WireSpec.spaced (T * (K + 1 + if two1 then 1 else 0)) t0 cs ->
  (forall i, Z.of_nat i0 <= i -> f i = line_of F G m1 id1 m2 id2 cs a i) ->
  let ready := (i0 + last_bit (Z.to_nat (5 + b)) par * speed_samples d + speed_middle d)%nat in
  a + (Z.of_nat ready - 1) * q < t0 ->
  Forall (fun sw => forallb software sw = true) sched ->
  exists tevs before c, listening m2 id2 f sched = Some tevs /\ listen m2 id2 f (Nat.min (length sched) ready) = Some before /\
    hears (T * (K + 1 + if two1 then 1 else 0)) (K * T) cs (a + (Z.of_nat (length sched) - 1) * q) c /\
    forall Size m', 1 <= Size <= 65535 -> nport_polite Size (port_init m') false (map snd tevs) = true ->
      HwRxSpec.served (2 * (d * K)) [] false (ntimed Size (port_init m') tevs) = true ->
    exists p, nport_run Size (port_init m') (map snd tevs) = Some p /\
      (none_refused p \/ Z.of_nat (length before + length cs) <= Size - 1 ->
       exists queued rest, unread (p_uart p) = map NoiseSpec.place rest /\ (length rest <= 3)%nat /\
         answered (p_rx p) ++ queued ++ flawless rest = sound before ++ map (fun x => snd x mod 2 ^ (5 + b)) (firstn c cs)).
Proof.
  intros F G m1 id1 m2 id2 b par two1 two2 cs a t0 f i0 sched H1 H2 B d T q Q TOL K SP FE ready BE SW.
  assert (FE' : forall i, Z.of_nat i0 <= i -> f i = sampled T q a (frames_of (Z.to_nat (5 + b)) par two1 cs) i).
  { intros i I. rewrite FE by exact I. unfold line_of. rewrite H1. reflexivity. }
  destruct (recovers_l F G m1 id1 m2 id2 b par par two1 two2 cs a t0 f i0 H1 H2 B ltac:(tauto) Q TOL SP FE' BE (length sched)) as (before & c & LB & LA & HE).
  destruct (noise_lossless_l m2 id2 b par two2 f sched H2 B SW) as (tevs & all & V & LI & H).
  exists tevs, before, c. split; [exact V|]. split; [exact LB|]. split; [exact HE|]. intros Size m' HS PO SE.
  destruct (H Size m' HS PO) as (p & R & _ & X). exists p. split; [exact R|]. intros NR.
  rewrite LA in LI. injection LI as EA.
  assert (SO : sound all = sound before ++ map (fun x => snd x mod 2 ^ (5 + b)) (firstn c cs)).
  { rewrite <- EA. unfold sound. rewrite filter_app, map_app. f_equal.
    assert (OP : opposite par par = false) by (destruct par; reflexivity). rewrite OP. clear.
    induction (firstn c cs) as [|x l IH]; [reflexivity|]. cbn [map filter fst snd negb andb]. rewrite IH. reflexivity. }
  rewrite <- SO. apply X; [exact SE|]. destruct NR as [NR|NR]; [left; exact NR|right].
  rewrite SO, app_length, (map_length (fun x : Z * Z => snd x mod 2 ^ (5 + b))). assert (Y : (length (sound before) <= length before)%nat).
  { unfold sound. rewrite map_length. clear. induction before as [|x l IH]; [cbn; lia|]. cbn [filter]. destruct (_ && _); cbn [length]; lia. }
  assert (Y2 : (length (firstn c cs) <= length cs)%nat) by (rewrite firstn_length; lia). lia.
Qed.
Lemma noise_parity_l : forall F c1 m1 id1 m2 id2 two cs a t0 sched, 1 <= F -> id1 = 0 \/ id1 = 1 ->
  c_div c1 = 8 \/ c_div c1 = 16 -> 0 <= c_ubrr c1 < 65536 -> 0 <= c_bits c1 <= 3 -> c_par c1 <> POff ->
  hw_divider m2 id2 = c_div c1 -> hw_ubrr m2 id2 = c_ubrr c1 -> hw_frame m2 id2 = Some (5 + c_bits c1, c_par c1, two) ->
  WireSpec.spaced (frame_time F c1) t0 cs -> a - sample_time F (c_ubrr c1) < t0 ->
  Forall (fun sw => forallb software sw = true) sched ->
  exists tevs, listening m2 id2 (line_of F F (opened m1 id1 c1) id1 m2 id2 cs a) sched = Some tevs /\
  forall Size m', 1 <= Size <= 65535 -> nport_polite Size (port_init m') false (map snd tevs) = true ->
  exists p, nport_run Size (port_init m') (map snd tevs) = Some p /\ r_acc (p_rx p) = [] /\ answered (p_rx p) = [].
Proof.
  intros F c1 m1 id1 m2 id2 two cs a t0 sched HF I1 D U B P E1 E2 E3 SP BE SW.
  destruct (other_parity_l F c1 m1 id1 m2 id2 two cs a t0 (length sched) HF I1 D U B P E1 E2 E3 SP BE) as (c & H & _).
  destruct (opened_l m1 id1 c1 I1 B U D) as [_ [_ R3]]. rewrite (listen_heard _ _ _ _ _ _ _ _ _ _ _ _ R3) in H.
  destruct (noise_lossless_l m2 id2 (c_bits c1) (c_par c1) two (line_of F F (opened m1 id1 c1) id1 m2 id2 cs a) sched E3 B SW) as (tevs & all & V & LI & X).
  exists tevs. split; [exact V|]. intros Size m' HS PO. destruct (X Size m' HS PO) as (p & R & Y & _). exists p. split; [exact R|]. apply Y.
  rewrite H in LI. injection LI as <-. clear. induction (firstn c cs) as [|x l IH]; [reflexivity|]. unfold sound in *. cbn [map filter fst snd negb andb]. exact IH.
Qed.
