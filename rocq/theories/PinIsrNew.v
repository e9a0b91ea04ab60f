(** C111: the constructors. *)
Require Import ZArith List Bool Lia ZifyBool.
Import ListNotations.
From Verif Require Import Base BaseFacts AvrModel AvrSpec AvrProofs RegIsrModel RegIsrSpec RegIsrProofs RegIsrMore AvrLcdModel AvrLcdSpec AvrLcdProofs PinIsrModel PinIsrSpec.
Open Scope Z_scope.
Local Ltac Zify.zify_post_hook ::= idtac.

Lemma brun_cons : forall s o os, fst (brun s (o :: os)) = fst (brun (fst (bstep s o)) os).
Proof. intros s o os. cbn [brun]. destruct (bstep s o) as [s1 a]. cbn [fst]. destruct (brun s1 os) as [s2 b]. destruct a; reflexivity. Qed.
Lemma new_step : forall q v l s, exists s1, fst (brun s (p_new ((q, v) :: l))) = fst (brun s1 (p_new l)) /\
  (forall a i, s1 a i = if (a =? a_out (fst q)) && (i =? snd q) then (match v with Some v => v | None => s a i end)
                       else if (a =? a_dir (fst q)) && (i =? snd q) then true else s a i).
Proof.
  intros q v l s. unfold p_new. cbn [flat_map fst snd]. unfold al_out, output_pin. destruct v as [v|]; cbn [app]; rewrite !brun_cons; eexists; (split; [reflexivity|]);
    intros a i; cbn [bstep fst]; unfold set1.
  - reflexivity.
  - destruct (Z.eqb_spec a (a_out (fst q))) as [->|]; [|reflexivity]. rewrite (proj2 (Z.eqb_neq (a_out (fst q)) (a_dir (fst q)))) by apply out_dir. cbn [andb]. destruct (i =? snd q); reflexivity.
Qed.
Lemma new_dirs : forall l s q, (In q (map fst l) \/ s (a_dir (fst q)) (snd q) = true) -> fst (brun s (p_new l)) (a_dir (fst q)) (snd q) = true.
Proof.
  induction l as [|[p v] l IH]; intros s q H; [destruct H as [[]|H]; exact H|]. destruct (new_step p v l s) as (s1 & -> & E). apply IH. rewrite E.
  rewrite (proj2 (Z.eqb_neq (a_dir (fst q)) (a_out (fst p)))) by (apply not_eq_sym; apply out_dir). cbn [andb].
  cbn [map fst In] in H. destruct H as [[->|H]|H]; [right; rewrite !Z.eqb_refl; reflexivity|left; exact H|right; rewrite H; destruct (_ && _); reflexivity].
Qed.
Lemma new_outs : forall l s q, ~ In q (map fst l) -> fst (brun s (p_new l)) (a_out (fst q)) (snd q) = s (a_out (fst q)) (snd q).
Proof.
  induction l as [|[p v] l IH]; intros s q N; [reflexivity|]. destruct (new_step p v l s) as (s1 & -> & E). rewrite IH by (intros I; apply N; right; exact I). rewrite E.
  rewrite (proj2 (Z.eqb_neq (a_out (fst q)) (a_dir (fst p)))) by apply out_dir. cbn [andb].
  destruct (Z.eqb_spec (a_out (fst q)) (a_out (fst p))) as [H|]; [|reflexivity]. destruct (Z.eqb_spec (snd q) (snd p)) as [H'|]; [|reflexivity].
  exfalso. apply N. left. cbn [fst]. apply out_inj in H. destruct p, q; cbn [fst snd] in *. congruence.
Qed.
Lemma new_level : forall l s q v, NoDup (map fst l) -> In (q, v) l -> fst (brun s (p_new l)) (a_out (fst q)) (snd q) = match v with Some b => b | None => s (a_out (fst q)) (snd q) end.
Proof.
  induction l as [|[p u] l IH]; intros s q v N I; [destruct I|]. cbn [map fst] in N. inversion N as [|? ? N1 N2]; subst. destruct (new_step p u l s) as (s1 & -> & E). destruct I as [I|I].
  - injection I as -> ->. rewrite new_outs by exact N1. rewrite E, !Z.eqb_refl. reflexivity.
  - rewrite (IH s1 q v N2 I), E. rewrite (proj2 (Z.eqb_neq (a_out (fst q)) (a_dir (fst p)))) by apply out_dir. cbn [andb].
    destruct (Z.eqb_spec (a_out (fst q)) (a_out (fst p))) as [H|]; [|reflexivity]. destruct (Z.eqb_spec (snd q) (snd p)) as [H'|]; [|reflexivity].
    exfalso. apply N1. apply out_inj in H. replace p with q by (destruct p, q; cbn [fst snd] in *; congruence). apply (in_map fst) in I. exact I.
Qed.
Lemma pins_new_l : forall one l m evs, NoDup (map fst l) -> Forall pin_real (map fst l) -> bytes m -> Forall (leaves (map fst l)) (handled evs) ->
  let k := krun one (k_init m (p_new l)) evs in k_call k = None -> k_prog k = [] ->
  bytes (k_regs k) /\ look (map fst l) (k_regs k) = map (fun e => Some (match snd e with Some v => v | None => Z.testbit (m (a_out (fst (fst e)))) (snd (fst e)) end)) l.
Proof.
  intros one l m evs N R B F k K1 K2.
  assert (S0 : same_regs m (bits_of m)) by (intros a; split; [apply B|reflexivity]).
  assert (P : forall o, In o (p_new l) -> rop_ok o /\ (forall p pin e, o <> Pullup p pin e)).
  { intros o I. unfold p_new in I. apply in_flat_map in I. destruct I as ([q v] & I & J). cbn [fst snd] in J.
    assert (Hq : pin_real q) by (rewrite Forall_forall in R; apply R; apply (in_map fst) in I; exact I). destruct Hq as [_ Hq].
    unfold al_out, output_pin in J. destruct J as [<-|J]; [split; [exact Hq|discriminate]|]. destruct v; [|destruct J]. destruct J as [<-|[]]. split; [exact Hq|discriminate]. }
  assert (U : unasked (p_new l) (handled evs)) by (intros p pin e o I; exfalso; exact (proj2 (P _ I) _ _ _ eq_refl)).
  assert (Fp : Forall rop_ok (p_new l)) by (apply Forall_forall; intros o I; exact (proj1 (P o I))).
  assert (Fh : Forall rop_ok (handled evs)) by (eapply Forall_impl; [|exact F]; intros o [H _]; exact H).
  destruct (reg_values_l one m (bits_of m) (p_new l) evs S0 Fp Fh U K1) as (dn & Ed & _ & B1 & V). fold k in Ed, B1, V.
  rewrite K2, app_nil_r in Ed. subst dn. split; [exact B1|].
  unfold look. rewrite map_map. apply map_ext_in. intros [q v] I. cbn [fst snd].
  pose proof (in_map fst _ _ I) as Iq. cbn [fst] in Iq.
  assert (H8 : 0 <= snd q < 8) by (rewrite Forall_forall in R; apply (R q Iq)).
  assert (G : forall a, (a = a_out (fst q) \/ a = a_dir (fst q)) -> Z.testbit (k_regs k a) (snd q) = fst (brun (bits_of m) (p_new l)) a (snd q)).
  { intros a Ha. destruct (V a (snd q) H8) as [E|(o & Io & G)]; [exact E|]. exfalso. rewrite Forall_forall in F. destruct (F o Io) as [_ S]. destruct (S q Iq) as [N1 N2].
    destruct Ha as [->| ->]; [apply N1|apply N2]; eexists; exact G. }
  unfold drives. rewrite !G by auto. rewrite new_dirs by (left; exact Iq). rewrite (new_level l _ q v N I). reflexivity.
Qed.
