(** Proofs: the text control. *)
Require Import ZArith List Bool Lia ZifyBool.
Import ListNotations.
From Verif Require Import Base BaseFacts ArrayModel ArraySpec ArrayProofs ArrayFinal IteratorModel IteratorProofs UiModel UiSpec UiProofs EditModel EditSpec.
Open Scope Z_scope.

Lemma u8_le : forall x, 0 <= x <= 65535 -> 0 <= u8 x <= x.
Proof. intros x H. unfold u8. pose proof (Z.mod_pos_bound x 256 ltac:(lia)). pose proof (Z.mod_le x 256 ltac:(lia) ltac:(lia)). lia. Qed.

Section Edit.
Variable MaxChars n : Z.
Variable wrap : bool.
Variable cs : Z -> Z.
Hypothesis HM : 0 <= MaxChars <= 32766.
Hypothesis Hn : 1 <= n <= 127.

Lemma reposition_l : forall t, exists j, tc_reposition MaxChars n cs t = Some (mkTc (tc_st t) (tc_buf t) (tc_edit t) j) /\
  (-1 <= tc_it t < n -> -1 <= j < n) /\
  (forall k, distinct n cs -> 0 <= tc_edit t <= MaxChars -> 0 <= k < n -> tc_buf t (tc_edit t) = cs k -> j = k).
Proof.
  intros t. unfold tc_reposition. destruct (arr_get_small Z.eqb 0 (MaxChars + 1) (tc_buf t) (tc_edit t) ltac:(lia)) as [E _].
  rewrite E. rewrite static_index_l by lia. eexists. split; [reflexivity|].
  set (ch := lookup 0 _ _).
  pose proof (first_pos_spec Z.eqb 0 (cells cs 0 (Z.to_nat n)) ch) as F.
  destruct (first_pos Z.eqb (cells cs 0 (Z.to_nat n)) ch) as [p|].
  - destruct F as [F1 [F2 _]]. rewrite cells_length in F1. destruct (Z.ltb_spec p 128); [|lia].
    unfold it_move_to. destruct (Z.geb_spec p 0); [|lia]. cbn [fst]. split; [lia|].
    intros k D He Hk Eb. apply D; [lia|lia|]. rewrite <- Eb. rewrite (lookup_cells Z.eqb) in F2.
    assert (inb p n = true) by (unfold inb; lia).
    apply Z.eqb_eq in F2.
    assert (L : ch = tc_buf t (tc_edit t)).
    { unfold ch. rewrite (lookup_cells Z.eqb). assert (inb (tc_edit t) (MaxChars + 1) = true) as -> by (unfold inb; lia).
      rewrite ?Z.add_0_l. reflexivity. }
    rewrite <- L, <- F2. rewrite H1. rewrite ?Z.add_0_l. reflexivity.
  - cbn [it_move_to fst]. split; [auto|]. intros k D He Hk Eb. exfalso.
    assert (L : ch = cs k).
    { unfold ch. rewrite (lookup_cells Z.eqb). assert (inb (tc_edit t) (MaxChars + 1) = true) as -> by (unfold inb; lia).
      rewrite ?Z.add_0_l. exact Eb. }
    specialize (F (cs k)). rewrite L in F. rewrite Z.eqb_refl in F. 
    assert (true = false); [apply F|discriminate].
    replace (cs k) with (nth (Z.to_nat k) (cells cs 0 (Z.to_nat n)) 0).
    + apply nth_In. rewrite cells_length. lia.
    + rewrite (nth_cells Z.eqb) by lia. f_equal. lia.
Qed.

Lemma change_l : forall t fwd, -1 <= tc_it t < n -> 0 <= tc_edit t <= MaxChars -> exists j ch, 
  tc_change MaxChars n wrap cs t fwd = Some (mkTc (tc_st t) (upd (tc_buf t) (tc_edit t) ch) (tc_edit t) j) /\ -1 <= j < n /\
  (0 <= tc_it t -> j = (if fwd then up_num n wrap (tc_it t) else down_num n wrap (tc_it t)) /\ ch = cs j).
Proof.
  intros t fwd Hi He. unfold tc_change.
  assert (M : exists j b, (if fwd then (if wrap then wrap_next n (tc_it t) else it_next n (tc_it t))
         else (if wrap then wrap_back n (tc_it t) else it_back n (tc_it t))) = Some (j, b) /\ -1 <= j < n /\
         (0 <= tc_it t -> j = (if fwd then up_num n wrap (tc_it t) else down_num n wrap (tc_it t)) /\ 0 <= j)).
  { destruct (Z.ltb_spec (tc_it t) 0) as [N|N].
    - assert (tc_it t = -1) as -> by lia.
      destruct fwd, wrap.
      + unfold wrap_next, it_reset. rewrite !next_cases by lia. change (-1 + 1) with 0.
        destruct (Z.ltb_spec 0 n); cbn [andb Z.leb Z.compare]; do 2 eexists; (split; [reflexivity|]); split; lia.
      + rewrite next_cases by lia. change (-1 + 1) with 0.
        destruct (Z.ltb_spec 0 n); cbn [andb Z.leb Z.compare]; do 2 eexists; (split; [reflexivity|]); split; lia.
      + unfold wrap_back, it_reset_end. rewrite s16_small by lia. rewrite !back_cases by lia.
        change (1 <=? -1) with false. cbn [andb].
        destruct (Z.leb_spec 1 n); cbn [andb].
        * assert (n - 1 <? n = true) as -> by lia. do 2 eexists; (split; [reflexivity|]); split; lia.
        * do 2 eexists; (split; [reflexivity|]). lia.
      + rewrite back_cases by lia. change (1 <=? -1) with false. cbn [andb]. do 2 eexists; (split; [reflexivity|]); split; lia.
    - unfold up_num, down_num. destruct fwd, wrap.
      + rewrite wrap_next_mod by lia. pose proof (Z.mod_pos_bound (tc_it t + 1) n ltac:(lia)). do 2 eexists; (split; [reflexivity|]); split; [lia|]. intros _. split; [reflexivity|lia].
      + rewrite next_cases by lia. assert (0 <=? tc_it t + 1 = true) as -> by lia. cbn [andb].
        destruct (Z.ltb_spec (tc_it t + 1) n); do 2 eexists; (split; [reflexivity|]); split; lia.
      + rewrite wrap_back_mod by lia. pose proof (Z.mod_pos_bound (tc_it t - 1) n ltac:(lia)). do 2 eexists; (split; [reflexivity|]); split; [lia|]. intros _. split; [reflexivity|lia].
      + rewrite back_cases by lia. assert (tc_it t - 1 <? n = true) as -> by lia.
        destruct (Z.leb_spec 1 (tc_it t)); cbn [andb]; do 2 eexists; (split; [reflexivity|]); split; lia. }
  destruct M as (j & b & -> & Hj & Hm). rewrite (fix_set_small Z.eqb 0) by lia.
  assert (inb (tc_edit t) (MaxChars + 1) = true) as -> by (unfold inb; lia).
  exists j. eexists. split; [reflexivity|]. split; [exact Hj|]. intros H0. destruct (Hm H0) as [E1 E2]. split; [exact E1|].
  unfold it_current, it_valid. destruct (Z.geb_spec j 0); [|lia]. destruct (Z.ltb_spec j n); [|lia]. cbn [andb negb].
  unfold st_get, st_valid. destruct (Z.geb_spec j 0); [|lia]. destruct (Z.ltb_spec j n); [|lia]. reflexivity.
Qed.

(** The part that needs nothing of texts or character sets. *)
Definition tame_tc (t t' : tc) : Prop :=
  (-1 <= tc_it t' < n) /\ (0 <= tc_edit t' < Z.max 1 (u8 MaxChars)) /\
  (forall i, ~ 0 <= i < Z.max 1 (u8 MaxChars) -> tc_buf t' i = tc_buf t i).
Lemma set_state_safe : forall t s, tame_tc t t -> exists t' h, tc_set_state MaxChars n cs t s = Some (t', h) /\ tame_tc t t'.
Proof.
  intros t s (H1 & H2 & H3). unfold tc_set_state. destruct (negb _); [do 2 eexists; split; [reflexivity|repeat split; auto; lia]|].
  cbv zeta. destruct (cstate_eqb s Selected).
  - match goal with |- context [tc_reposition _ _ _ ?x] => destruct (reposition_l x) as (j & E & J & _); rewrite E end.
    do 2 eexists. split; [reflexivity|]. destruct (cstate_eqb s Focused); cbn [tc_st tc_buf tc_edit tc_it] in *; (split; [auto|split; [cbn [tc_edit]; lia|auto]]).
  - do 2 eexists. split; [reflexivity|]. destruct (cstate_eqb s Focused); (split; [auto|split; [cbn [tc_edit]; lia|auto]]).
Qed.
Lemma step_safe : forall t o, tame_tc t t -> (forall j, o = TIter j -> iter_ok n j) ->
  exists t' h, tc_step MaxChars n wrap cs t o = Some (t', h) /\ tame_tc t t'.
Proof.
  intros t o H Ho. pose proof H as (H1 & H2 & H3). pose proof (u8_le MaxChars ltac:(lia)) as U.
  assert (U2 : u8 MaxChars <= 255) by (unfold u8; pose proof (Z.mod_pos_bound MaxChars 256 ltac:(lia)); lia).
  destruct o as [m|s|j]; cbn [tc_step].
  - assert (I : forall m, exists t' h, tc_input MaxChars n cs t m = Some (t', h) /\ tame_tc t t').
    { intros [ | | | | | | ]; cbn [tc_input]; try (do 2 eexists; split; [reflexivity|exact H]).
      - destruct (cstate_eqb _ _); [|do 2 eexists; split; [reflexivity|exact H]].
        destruct (set_state_safe t Selected H) as (t' & h & E & T). rewrite E. do 2 eexists. split; [reflexivity|exact T].
      - destruct (cstate_eqb _ _); [|do 2 eexists; split; [reflexivity|exact H]].
        destruct (set_state_safe t Focused H) as (t' & h & E & T). rewrite E. do 2 eexists. split; [reflexivity|exact T]. }
    assert (C : forall fwd, exists t' h, option_map (fun t => (t, true)) (tc_change MaxChars n wrap cs t fwd) = Some (t', h) /\ tame_tc t t').
    { intros fwd. destruct (change_l t fwd H1 ltac:(lia)) as (j & ch & E & J & _). rewrite E. do 2 eexists. split; [reflexivity|].
      split; [exact J|]. split; [exact H2|]. cbn [tc_buf]. intros i Hi. apply upd_other. lia. }
    unfold tc_nav. cbv zeta. destruct (cstate_eqb (tc_st t) Selected); [|apply I].
    destruct m; try apply I; try apply C.
    + destruct (Z.gtb_spec (tc_edit t) 0) as [G|G]; [|do 2 eexists; split; [reflexivity|exact H]].
      match goal with |- context [tc_reposition _ _ _ ?x] => destruct (reposition_l x) as (j & E & J & _); rewrite E end.
      do 2 eexists. split; [reflexivity|]. cbn [tc_st tc_buf tc_edit tc_it] in *. rewrite u8_small in * by lia.
      split; [auto|]. split; [cbn [tc_edit]; lia|auto].
    + unfold fs_capacity. destruct (Z.ltb_spec (tc_edit t + 1) (u8 MaxChars)) as [G|G]; [|do 2 eexists; split; [reflexivity|exact H]].
      match goal with |- context [tc_reposition _ _ _ ?x] => destruct (reposition_l x) as (j & E & J & _); rewrite E end.
      do 2 eexists. split; [reflexivity|]. cbn [tc_st tc_buf tc_edit tc_it] in *. rewrite u8_small in * by lia.
      split; [auto|]. split; [cbn [tc_edit]; lia|auto].
  - apply set_state_safe. exact H.
  - do 2 eexists. split; [reflexivity|]. split; [apply (Ho j eq_refl)|]. split; [exact H2|auto].
Qed.
Lemma run_safe : forall ops t, tame_tc t t -> (forall j, In (TIter j) ops -> iter_ok n j) ->
  exists t' hs, tc_run MaxChars n wrap cs t ops = Some (t', hs) /\ tame_tc t t'.
Proof.
  induction ops as [|o ops IH]; intros t H Ho; [do 2 eexists; split; [reflexivity|exact H]|].
  cbn [tc_run]. destruct (step_safe t o H) as (t1 & h & E & T1); [intros j ->; apply Ho; left; reflexivity|]. rewrite E.
  destruct (IH t1) as (t2 & hs & E2 & T2).
  { destruct T1 as (A & B & _). split; [exact A|]. split; [exact B|auto]. }
  { intros j Ij. apply Ho. right. exact Ij. }
  rewrite E2. do 2 eexists. split; [reflexivity|]. destruct T1 as (_ & _ & T1). destruct T2 as (A & B & C).
  split; [exact A|]. split; [exact B|]. intros i Hi. rewrite C by exact Hi. apply T1. exact Hi.
Qed.

(** The editor. *)
Hypothesis Hd : distinct n cs.
Hypothesis Hc : 1 <= u8 MaxChars.
Ltac sh := split; [cbn [tc_st e_st]; auto|split; [cbn [tc_edit e_pos]; auto; lia|split; [cbn [e_pos]; lia|cbn [e_num tc_buf]; auto]]].
Definition edits (t : tc) (e : ed) : Prop :=
  shows (u8 MaxChars) n cs t e /\ -1 <= tc_it t < n /\ (e_st e = Selected -> tc_it t = e_num e (e_pos e)).
Lemma state_edits : forall t e s, edits t e -> exists t', tc_set_state MaxChars n cs t s = Some (t', snd (ed_state e s)) /\ edits t' (fst (ed_state e s)).
Proof.
  intros t e s ((S1 & S2 & S3 & S4) & I & Q). pose proof (u8_le MaxChars ltac:(lia)) as U.
  unfold tc_set_state, ed_state, set_state. cbn [before]. rewrite <- S1.
  destruct (before_input (tc_st t) s) eqn:B; cbn [negb].
  2: { eexists. split; [reflexivity|]. cbn [fst snd andb]. split; [|split; [exact I|cbn [e_st e_num e_pos]; rewrite S1; exact Q]].
       sh. }
  cbv zeta. cbn [fst snd andb]. destruct s; cbn [cstate_eqb active orb].
  1,2,3: eexists; (split; [reflexivity|]); split; [|split; [exact I|discriminate]]; sh.
  - eexists. split; [reflexivity|]. split; [|split; [exact I|discriminate]]. sh.
  - match goal with |- context [tc_reposition _ _ _ ?x] => destruct (reposition_l x) as (j & E & J & K); rewrite E end.
    cbn [tc_st tc_buf tc_edit tc_it] in *. eexists. split; [reflexivity|]. split; [|split].
    + sh.
    + cbn [tc_it]. auto.
    + intros _. cbn [tc_it e_num e_pos]. destruct (S4 0 ltac:(lia)) as [A B']. apply K; [exact Hd|lia|exact A|exact B'].
Qed.
Lemma step_edits : forall t e o, edits t e -> match o with TIter j => iter_ok n j /\ e_st e <> Selected | _ => True end ->
  exists t', tc_step MaxChars n wrap cs t o = Some (t', snd (ed_step (u8 MaxChars) n wrap e o)) /\ edits t' (fst (ed_step (u8 MaxChars) n wrap e o)).
Proof.
  intros t e o H Ho. pose proof H as ((S1 & S2 & S3 & S4) & I & Q). pose proof (u8_le MaxChars ltac:(lia)) as U.
  assert (U2 : u8 MaxChars <= 255) by (unfold u8; pose proof (Z.mod_pos_bound MaxChars 256 ltac:(lia)); lia).
  destruct o as [m|s|j]; cbn [tc_step ed_step].
  2: apply state_edits; exact H.
  2: { eexists. split; [reflexivity|]. cbn [fst]. split; [sh|].
       split; [exact (proj1 Ho)|]. intros E. destruct Ho. congruence. }
  assert (R : forall p, 0 <= p < u8 MaxChars -> exists t', option_map (fun t => (t, true)) (tc_reposition MaxChars n cs (mkTc (tc_st t) (tc_buf t) p (tc_it t))) = Some (t', true) /\ edits t' (mkEd (e_st e) p (e_num e))).
  { intros p Hp. destruct (reposition_l (mkTc (tc_st t) (tc_buf t) p (tc_it t))) as (j & E & J & K). rewrite E.
    cbn [tc_st tc_buf tc_edit tc_it] in *. eexists. split; [reflexivity|]. split; [|split].
    - sh.
    - cbn [tc_it]. auto.
    - intros _. cbn [tc_it e_num e_pos]. destruct (S4 p ltac:(lia)) as [A B']. apply K; [exact Hd|lia|exact A|exact B']. }
  assert (C : forall fwd, e_st e = Selected -> exists t', option_map (fun t => (t, true)) (tc_change MaxChars n wrap cs t fwd) = Some (t', true) /\
     edits t' (mkEd (e_st e) (e_pos e) (upd (e_num e) (e_pos e) ((if fwd then up_num n wrap else down_num n wrap) (e_num e (e_pos e)))))).
  { intros fwd Es. destruct (change_l t fwd I ltac:(lia)) as (j & ch & E & J & K). rewrite E.
    destruct (S4 (e_pos e) ltac:(lia)) as [A _]. specialize (K ltac:(rewrite (Q Es); lia)). rewrite (Q Es) in K. destruct K as [K1 K2].
    assert (KR : 0 <= j < n).
    { split; [|lia]. rewrite K1. unfold up_num, down_num. destruct fwd, wrap; try lia; apply Z.mod_pos_bound; lia. }
    eexists. split; [reflexivity|]. split; [|split].
    - sh. rewrite S2. intros i Hi. unfold upd. destruct (Z.eqb_spec i (e_pos e)) as [->|D]; [|apply S4; assumption].
      rewrite K2. destruct fwd; rewrite <- K1; split; auto.
    - exact J.
    - intros _. cbn [tc_it e_num e_pos]. rewrite upd_same. rewrite K1. destruct fwd; reflexivity. }
  unfold tc_nav, ed_nav. cbv zeta. rewrite S1. unfold fs_capacity.
  assert (SE : edits t e) by exact H.
  destruct (e_st e) eqn:Es; cbn [cstate_eqb].
  1,2,3: destruct m; cbn [tc_input]; rewrite ?S1; cbn [cstate_eqb]; (eexists; split; [reflexivity|exact SE]).
  - destruct m; cbn [tc_input]; rewrite ?S1; cbn [cstate_eqb]; try (eexists; split; [reflexivity|exact SE]).
    destruct (state_edits t e Selected SE) as (t' & E & T). rewrite E. unfold ed_state, set_state in T. rewrite Es in T. 
    eexists. split; [reflexivity|exact T].
  - destruct m; cbn [tc_input]; rewrite ?S1; cbn [cstate_eqb]; try (eexists; split; [reflexivity|exact SE]).
    + apply (C true eq_refl).
    + apply (C false eq_refl).
    + destruct (Z.gtb_spec (tc_edit t) 0) as [G|G].
      * rewrite u8_small by lia. rewrite <- S1. rewrite S2. destruct (R (e_pos e - 1) ltac:(lia)) as (t' & E & T). rewrite E.
        replace (Z.max 0 (e_pos e - 1)) with (e_pos e - 1) by lia. eexists. split; [reflexivity|]. rewrite S1. exact T.
      * eexists. split; [reflexivity|]. replace (Z.max 0 (e_pos e - 1)) with (e_pos e) by lia. cbn [fst].
        destruct e as [es ep en]; cbn [e_st e_pos e_num] in *. subst. exact SE.
    + destruct (Z.ltb_spec (tc_edit t + 1) (u8 MaxChars)) as [G|G].
      * rewrite u8_small by lia. rewrite <- S1. rewrite S2. destruct (R (e_pos e + 1) ltac:(lia)) as (t' & E & T). rewrite E.
        replace (Z.min (u8 MaxChars - 1) (e_pos e + 1)) with (e_pos e + 1) by lia. eexists. split; [reflexivity|]. rewrite S1. exact T.
      * eexists. split; [reflexivity|]. replace (Z.min (u8 MaxChars - 1) (e_pos e + 1)) with (e_pos e) by lia. cbn [fst].
        destruct e as [es ep en]; cbn [e_st e_pos e_num] in *. subst. exact SE.
    + destruct (state_edits t e Focused SE) as (t' & E & T). rewrite E. unfold ed_state, set_state in T. rewrite Es in T. 
      eexists. split; [reflexivity|exact T].
Qed.
Lemma run_edits : forall ops t e, edits t e -> iters_ok (u8 MaxChars) n wrap e ops ->
  exists t', tc_run MaxChars n wrap cs t ops = Some (t', snd (ed_run (u8 MaxChars) n wrap e ops)) /\ edits t' (fst (ed_run (u8 MaxChars) n wrap e ops)).
Proof.
  induction ops as [|o ops IH]; intros t e H Ho; [eexists; split; [reflexivity|exact H]|].
  cbn [tc_run ed_run iters_ok] in *. destruct Ho as [O1 O2]. destruct (step_edits t e o H O1) as (t1 & E & T1). rewrite E.
  destruct (ed_step _ _ _ e o) as [e1 h]. cbn [fst snd] in *.
  destruct (IH t1 e1 T1 O2) as (t2 & E2 & T2). rewrite E2. destruct (ed_run _ _ _ e1 ops) as [e2 hs]. cbn [fst snd] in *.
  eexists. split; [reflexivity|exact T2].
Qed.
End Edit.

Lemma edit_safe_l : forall M n wrap cs t ops, 0 <= M <= 32766 -> 1 <= n <= 127 -> tc_edit t = 0 -> -1 <= tc_it t < n ->
  (forall j, In (TIter j) ops -> iter_ok n j) ->
  exists t' hs, tc_run M n wrap cs t ops = Some (t', hs) /\
    0 <= tc_edit t' < Z.max 1 (fs_capacity M) /\ (forall i, ~ 0 <= i < Z.max 1 (fs_capacity M) -> tc_buf t' i = tc_buf t i).
Proof.
  intros M n wrap cs t ops HM Hn He Hi Ho.
  destruct (run_safe M n wrap cs HM Hn ops t) as (t' & hs & E & _ & T2 & T3); auto.
  { split; [exact Hi|]. split; [rewrite He; lia|auto]. }
  exists t', hs. auto.
Qed.
Lemma edit_l : forall M n wrap cs t e ops, 0 <= M <= 32766 -> 1 <= n <= 127 -> distinct n cs ->
  shows (fs_capacity M) n cs t e -> -1 <= tc_it t < n -> e_st e <> Selected -> iters_ok (fs_capacity M) n wrap e ops ->
  exists t', tc_run M n wrap cs t ops = Some (t', snd (ed_run (fs_capacity M) n wrap e ops)) /\
    shows (fs_capacity M) n cs t' (fst (ed_run (fs_capacity M) n wrap e ops)).
Proof.
  intros M n wrap cs t e ops HM Hn Hd S Hi He Ho. unfold fs_capacity in *.
  assert (1 <= u8 M) by (destruct S as (_ & _ & S & _); lia).
  destruct (run_edits M n wrap cs HM Hn Hd H ops t e) as (t' & E & T & _); auto.
  - split; [exact S|]. split; [exact Hi|congruence].
  - exists t'. auto.
Qed.

(** A text control answers commands and changes state as the fields of the panel model do. *)
Lemma text_field_l : forall M n wrap cs t m log t' h, tc_nav M n wrap cs t m = Some (t', h) ->
  let '(s, _, h') := field_nav (tc_st t) true log m in tc_st t' = s /\ h = h'.
Proof.
  intros M n wrap cs t m log t' h H.
  assert (R : forall x y, tc_reposition M n cs x = Some y -> tc_st y = tc_st x).
  { intros x y. unfold tc_reposition. destruct (arr_get _ _ _ _); [|discriminate]. destruct (st_index_of _ _ _ _ _ _); [|discriminate].
    intros E. injection E as <-. reflexivity. }
  assert (C : forall x b y, tc_change M n wrap cs x b = Some y -> tc_st y = tc_st x).
  { intros x b y. unfold tc_change. destruct (if b then _ else _) as [[j q]|]; [|discriminate]. destruct (fix_set _ _ _ _); [|discriminate].
    intros E. injection E as <-. reflexivity. }
  unfold tc_nav in H. cbv zeta in H.
  destruct (tc_st t) eqn:Es; cbn [cstate_eqb] in H.
  1,2,3: destruct m; cbn [tc_input] in H; rewrite ?Es in H; cbn [cstate_eqb] in H; injection H as <- <-; cbn; rewrite Es; split; reflexivity.
  - destruct m; cbn [tc_input] in H; rewrite ?Es in H; cbn [cstate_eqb] in H; try (injection H as <- <-; cbn; rewrite Es; split; reflexivity).
    unfold tc_set_state in H. rewrite Es in H. cbn [before_input before_control cstate_eqb negb andb] in H.
    cbv zeta in H. cbn [cstate_eqb] in H. destruct (tc_reposition _ _ _ _); [|discriminate]. injection H as <- <-. split; reflexivity.
  - destruct m; cbn [tc_input] in H; rewrite ?Es in H; cbn [cstate_eqb] in H; try (injection H as <- <-; cbn; rewrite Es; split; reflexivity).
    + destruct (tc_change _ _ _ _ _ _) eqn:E; [|discriminate]. injection H as <- <-. apply C in E. cbn. split; [congruence|reflexivity].
    + destruct (tc_change _ _ _ _ _ _) eqn:E; [|discriminate]. injection H as <- <-. apply C in E. cbn. split; [congruence|reflexivity].
    + destruct (tc_edit t >? 0); [|injection H as <- <-; cbn; rewrite Es; split; reflexivity].
      destruct (tc_reposition _ _ _ _) eqn:E; [|discriminate]. injection H as <- <-. apply R in E. cbn in *. split; [congruence|reflexivity].
    + destruct (tc_edit t + 1 <? _); [|injection H as <- <-; cbn; rewrite Es; split; reflexivity].
      destruct (tc_reposition _ _ _ _) eqn:E; [|discriminate]. injection H as <- <-. apply R in E. cbn in *. split; [congruence|reflexivity].
    + unfold tc_set_state in H. rewrite Es in H. cbn in H. injection H as <- <-. split; reflexivity.
Qed.
