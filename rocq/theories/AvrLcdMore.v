Require Import ZArith List Bool Lia ZifyBool.
Import ListNotations.
From Verif Require Import Base BaseFacts AvrModel AvrSpec AvrProofs RegIsrModel RegIsrSpec RegIsrProofs RegIsrMore
  HdModel HdSpec HdIfProofs HdProps ChainProofs AvrLcdModel AvrLcdSpec AvrLcdProofs.
Open Scope Z_scope.
Local Ltac Zify.zify_post_hook ::= idtac.
Ltac pins := unfold al_pins; cbn [In]; auto 7.

(** ** The constructor *)
Lemma new_dir : forall x q s, In q (al_pins x) -> fst (brun s (al_new x)) (a_dir (fst q)) (snd q) = true.
Proof.
  intros x q s I. unfold al_new, al_out, output_pin. cbn [app brun bstep fst]. unfold set1.
  repeat match goal with |- context [a_dir (fst q) =? a_out ?p] => rewrite (proj2 (Z.eqb_neq (a_dir (fst q)) (a_out p))) by (apply not_eq_sym; apply out_dir) end. cbn [andb].
  destruct I as [<-|[<-|[<-|[<-|[<-|[<-|[]]]]]]]; rewrite !Z.eqb_refl; cbn [andb];
    repeat match goal with |- (if ?c then true else _) = true => destruct c; [reflexivity|] end; reflexivity.
Qed.
Lemma new_out : forall x p i s, fst (brun s (al_new x)) (a_out p) i = if (a_out p =? a_out (fst (x_en x))) && (i =? snd (x_en x)) then true else s (a_out p) i.
Proof.
  intros x p i s. unfold al_new, al_out, output_pin. cbn [app brun bstep fst]. unfold set1.
  repeat match goal with |- context [a_out p =? a_dir ?r] => rewrite (proj2 (Z.eqb_neq (a_out p) (a_dir r))) by apply out_dir end. reflexivity.
Qed.
Lemma new_ok : forall x, al_real x -> Forall rop_ok (al_new x).
Proof.
  intros x R. assert (P : forall q, In q (al_pins x) -> 0 <= snd q < 8) by (apply pin8; exact R).
  unfold al_new, al_out, output_pin. cbn [app]. repeat (constructor; [cbn [rop_ok]; apply P; pins|]). constructor.
Qed.
Lemma al_new_l : forall one x m evs, al_real x -> bytes m -> Forall (other_ok x) (handled evs) ->
  let k := krun one (k_init m (al_new x)) evs in k_call k = None -> k_prog k = [] ->
  bytes (k_regs k) /\ exists l, al_lines x (k_regs k) = Some l /\ en l = true /\
    (let was q := Z.testbit (m (a_out (fst q))) (snd q) in
     rs l = was (x_rs x) /\ d4 l = was (x_d4 x) /\ d5 l = was (x_d5 x) /\ d6 l = was (x_d6 x) /\ d7 l = was (x_d7 x)).
Proof.
  intros one x m evs R B F k K1 K2.
  assert (S0 : same_regs m (bits_of m)) by (intros a; split; [apply B|reflexivity]).
  assert (U : unasked (al_new x) (handled evs)).
  { intros p pin e o I. exfalso. unfold al_new, al_out, output_pin in I. cbn [app In] in I. repeat (destruct I as [I|I]; [discriminate|]). exact I. }
  assert (Fh : Forall rop_ok (handled evs)) by (eapply Forall_impl; [|exact F]; intros o [H _]; exact H).
  destruct (reg_values_l one m (bits_of m) (al_new x) evs S0 (new_ok x R) Fh U K1) as (dn & Ed & _ & B1 & V). fold k in Ed, B1, V.
  rewrite K2, app_nil_r in Ed. subst dn. split; [exact B1|].
  assert (V' : forall a i, Q x a i -> Z.testbit (k_regs k a) i = fst (brun (bits_of m) (al_new x)) a i).
  { intros a i Qa. destruct (V a i (Q8 x R a i Qa)) as [E|(o & I & G)]; [exact E|]. exfalso. rewrite Forall_forall in F. destruct (F o I) as [_ S].
    destruct Qa as (q & Iq & [->| ->] & ->); destruct (S q Iq) as [N1 N2]; [apply N1|apply N2]; eexists; exact G. }
  eexists. split.
  - apply (lines_some x). split; [|reflexivity]. intros q I. rewrite V' by (exists q; auto). apply new_dir. exact I.
  - cbn [rs en d4 d5 d6 d7].
    assert (O : forall q, In q (al_pins x) -> Z.testbit (k_regs k (a_out (fst q))) (snd q) = if pin_eqb q (x_en x) then true else Z.testbit (m (a_out (fst q))) (snd q)).
    { intros q I. rewrite V' by (exists q; auto). rewrite new_out. unfold pin_eqb. destruct (Z.eqb_spec (a_out (fst q)) (a_out (fst (x_en x)))) as [E|E].
      - apply out_inj in E. rewrite E, Z.eqb_refl. reflexivity.
      - rewrite (proj2 (Z.eqb_neq (fst q) (fst (x_en x)))) by congruence. reflexivity. }
    pose proof (distinct x R) as D. decompose [and] D. clear D. rewrite !O by pins. rewrite pin_eqb_refl.
    rewrite !pin_eqb_neq by congruence. auto 7.
Qed.

(** ** What the display takes *)
Lemma al_main_done_l : forall lo one x m cs evs l, al_real x -> bytes m -> al_lines x m = Some l -> en l = true -> Forall (acall_ok x) cs -> Forall (other_ok x) (handled evs) ->
  let k := krun one (k_init m (al_prog x cs)) evs in k_call k = None -> k_prog k = [] ->
  exists ls l', map (al_lines x) (k_moments one (k_init m (al_prog x cs)) evs) = map Some ls /\ delivers lo l ls (all_nibs (rs l) (al_ops cs)) l'.
Proof.
  intros lo one x m cs evs l R B L E F Fh k K1 K2. destruct (al_main_l x R one m cs evs l B L F Fh) as (ls & ps & rest & M & S & P & Z).
  rewrite (Z K1 K2), app_nil_r in P. destruct (par_run_d lo (al_ops cs) l E (ops_ok x cs F)) as (l' & D). exists ls, l'. split; [exact M|].
  eapply delivers_stut; [apply lingers_stut; exact S|]. rewrite <- P. exact D.
Qed.
Lemma al_view_l : forall lo one x m l md d rows os cs evs v ops, al_real x -> bytes m -> al_lines x m = Some l -> en l = true -> rs l = false ->
  0 <= lo < 16 -> rows_ok rows -> mode_ok md -> scr_fits rows blank os -> view_run rows {| row := 0; col := 0 |} (VInit true :: os) = Some (v, ops) ->
  Forall (acall_ok x) cs -> al_ops cs = ops -> Forall (other_ok x) (handled evs) ->
  let k := krun one (k_init m (al_prog x cs)) evs in k_call k = None -> k_prog k = [] ->
  exists ls, map (al_lines x) (k_moments one (k_init m (al_prog x cs)) evs) = map Some ls /\
    let '(l', md', ts) := watch lo l md ls in md' = M4 /\ en l' = true /\
    forall r c, 0 <= r < rows -> 0 <= c < width rows -> mem (exec_all d ts) (cell_address r c) = cell (scr_final blank os) r c.
Proof.
  intros lo one x m l md d rows os cs evs v ops R B L E Er Hlo Hr Hm Hs Hv F Ho Fh k K1 K2.
  destruct (al_main_l x R one m cs evs l B L F Fh) as (ls & ps & rest & M & S & P & Z). rewrite (Z K1 K2), app_nil_r in P. exists ls. split; [exact M|].
  rewrite (watch_stut lo l ls ps (lingers_stut _ _ _ _ S)). rewrite <- P, Ho.
  destruct (hd_view lo rows os l md d Hlo Hr Hm E Er Hs) as (v' & ops' & V & T). rewrite Hv in V. injection V as _ <-.
  destruct (watch lo l md (par_run l ops)) as [[l' md'] ts]. destruct T as (T1 & T2 & _ & _ & T3). auto.
Qed.

(** ** Two displays *)
Lemma pin_spares : forall x y q v, al_apart x y -> In q (al_pins x) -> spares y (al_pin q v).
Proof.
  intros x y [p i] v A I q' I'. unfold al_pin. cbn [fst snd]. split; intros N; apply write_names in N; destruct N as [N1 N2].
  - apply (A (p, i) I). apply out_inj in N1. destruct q' as [p' i']. cbn [fst snd] in *. subst. exact I'.
  - apply (out_dir p (fst q')). symmetry. exact N1.
Qed.
Lemma prog_spares : forall x y cs, al_real x -> al_apart x y -> Forall (acall_ok x) cs -> rest_spares y cs -> Forall (other_ok y) (al_prog x cs).
Proof.
  intros x y cs R A F S. 
  assert (P : forall q v, In q (al_pins x) -> other_ok y (al_pin q v)).
  { intros q v I. split; [cbn; apply (pin8 x R q I)|apply (pin_spares x y q v A I)]. }
  assert (P4 : forall n, Forall (other_ok y) (al_write4 x n)).
  { intros n. unfold al_write4. repeat (constructor; [apply P; pins|]). constructor. }
  induction cs as [|[o|o] cs IH]; [constructor| |]; inversion F as [|? ? C F']; subst; inversion S as [|? ? C' S']; subst; cbn [al_prog flat_map al_call]; fold (al_prog x cs);
    apply Forall_app; split; auto.
  - destruct o as [b|b|n]; cbn [al_op]; [| |apply P4]; (constructor; [apply P; pins|]); unfold al_write8; apply Forall_app; split; apply P4.
  - constructor; [|constructor]. split; [apply C|exact C'].
Qed.
Lemma evs_spares : forall x y evs, al_real y -> al_apart x y -> Forall (aev_ok y) evs -> Forall (aev_spares x) evs -> Forall (other_ok x) (handled (map (al_ev y) evs)).
Proof.
  intros x y evs R A F S. assert (A' : al_apart y x) by (intros q I I'; apply (A q I' I)).
  induction evs as [|[|cs] evs IH]; [constructor| |]; inversion F as [|? ? C F']; subst; inversion S as [|? ? C' S']; subst; cbn [map al_ev handled]; auto.
  apply Forall_app. split; auto. apply prog_spares; assumption.
Qed.
Lemma al_two_l : forall lo one x y m cs evs lx ly, al_real x -> al_real y -> al_apart x y -> bytes m ->
  al_lines x m = Some lx -> en lx = true -> al_lines y m = Some ly -> en ly = true ->
  Forall (acall_ok x) cs -> rest_spares y cs -> Forall (aev_ok y) evs -> Forall (aev_spares x) evs -> Forall full_call (aisr_ops evs) ->
  let k0 := k_init m (al_prog x cs) in let k := krun one k0 (map (al_ev y) evs) in k_call k = None -> k_prog k = [] ->
  exists lsx lsy lx' ly',
    map (al_lines x) (k_moments one k0 (map (al_ev y) evs)) = map Some lsx /\ delivers lo lx lsx (all_nibs (rs lx) (al_ops cs)) lx' /\
    map (al_lines y) (k_moments one k0 (map (al_ev y) evs)) = map Some lsy /\ delivers lo ly lsy (all_nibs (rs ly) (aisr_ops evs)) ly'.
Proof.
  intros lo one x y m cs evs lx ly Rx Ry A B Lx Ex Ly Ey F S Fe Se W k0 k K1 K2.
  destruct (al_main_done_l lo one x m cs _ lx Rx B Lx Ex F (evs_spares x y evs Ry A Fe Se) K1 K2) as (lsx & lx' & Mx & Dx).
  destruct (al_isr_l y Ry lo one m (al_prog x cs) evs ly B Ly Ey (prog_spares x y cs Rx A F S) Fe W) as (lsy & ly' & My & Dy).
  exists lsx, lsy, lx', ly'. auto.
Qed.
