Require Import ZArith List Bool Lia ZifyBool.
Import ListNotations.
From Verif Require Import Base BaseFacts ShiftModel ShiftSpec ChainProofs AvrModel AvrSpec AvrProofs RegIsrModel RegIsrSpec RegIsrProofs RegIsrMore
  AvrLcdModel AvrLcdSpec AvrLcdProofs PinIsrModel PinIsrSpec.
Open Scope Z_scope.
Local Ltac Zify.zify_post_hook ::= idtac.

Lemma same_refl : forall q, same_pin q q = true. Proof. apply pin_eqb_refl. Qed.
Lemma same_eq : forall p q, same_pin p q = true -> p = q. Proof. apply pin_eqb_eq. Qed.
Lemma same_neq : forall p q, p <> q -> same_pin p q = false. Proof. apply pin_eqb_neq. Qed.

Section X.
Variable qs : list (Z * Z).
Hypothesis R : Forall pin_real qs.
Lemma bit8 : forall q, In q qs -> 0 <= snd q < 8.
Proof. intros q H. rewrite Forall_forall in R. apply (R q H). Qed.
Definition B (a i : Z) : Prop := exists q, In q qs /\ (a = a_out (fst q) \/ a = a_dir (fst q)) /\ i = snd q.
Lemma B8 : forall a i, B a i -> 0 <= i < 8.
Proof. intros a i (q & I & _ & ->). apply bit8. exact I. Qed.
Definition alike (m m' : regs) : Prop := forall a i, B a i -> Z.testbit (m' a) i = Z.testbit (m a) i.
Lemma alike_look : forall m m', alike m m' -> look qs m' = look qs m.
Proof.
  intros m m' A. unfold look. apply map_ext_in. intros q I. unfold drives.
  rewrite (A (a_dir (fst q)) (snd q)) by (exists q; auto). rewrite (A (a_out (fst q)) (snd q)) by (exists q; auto). reflexivity.
Qed.
Lemma look_set : forall m m' q v,
  (forall a i, B a i -> Z.testbit (m' a) i = if (a =? a_out (fst q)) && (i =? snd q) then v else Z.testbit (m a) i) ->
  look qs m' = put_level qs q v (look qs m).
Proof.
  intros m m' q v A.
  assert (G : forall l, (forall p, In p l -> In p qs) -> look l m' = put_level l q v (look l m)).
  { induction l as [|p l IH]; intros I; [reflexivity|]. cbn [look map put_level]. fold (look l m') (look l m). rewrite IH by (intros; apply I; right; assumption). f_equal.
    assert (Ip : In p qs) by (apply I; left; reflexivity). unfold drives.
    rewrite (A (a_dir (fst p)) (snd p)) by (exists p; auto). rewrite (A (a_out (fst p)) (snd p)) by (exists p; auto).
    rewrite (proj2 (Z.eqb_neq (a_dir (fst p)) (a_out (fst q)))) by (apply not_eq_sym; apply out_dir). cbn [andb]. unfold same_pin.
    destruct (Z.eqb_spec (a_out (fst p)) (a_out (fst q))) as [E|E].
    - apply out_inj in E. rewrite E, Z.eqb_refl. cbn [andb]. destruct (snd p =? snd q); destruct (Z.testbit _ _); reflexivity.
    - rewrite (proj2 (Z.eqb_neq (fst p) (fst q))) by congruence. reflexivity. }
  apply G. auto.
Qed.

Lemma own_ok : forall q v, In q qs -> rop_ok (al_pin q v). Proof. intros q v I. cbn. apply bit8. exact I. Qed.
Lemma pcall_rop : forall c, pcall_ok qs c -> rop_ok (p_code c).
Proof. intros [q v|o] H; [apply own_ok; exact H|apply H]. Qed.
Lemma leaves_alike : forall m o, bytes m -> leaves qs o -> bytes (fst (rstep m o)) /\ alike m (fst (rstep m o)).
Proof.
  intros m o Bm [H S]. pose proof (rstep_bits m o Bm H) as T. split; [intros a; apply T|].
  intros a i Qa. rewrite (proj2 (T a) i (B8 _ _ Qa)). destruct (bstep_gives (bits_of m) o a i) as [E|G]; [rewrite E; reflexivity|].
  exfalso. destruct Qa as (q & I & [->| ->] & ->); destruct (S q I) as [N1 N2]; [apply N1|apply N2]; eexists; exact G.
Qed.
Lemma p_step : forall m c, bytes m -> pcall_ok qs c ->
  bytes (fst (rstep m (p_code c))) /\ look qs (fst (rstep m (p_code c))) = match c with POwn q v => put_level qs q v (look qs m) | POther _ => look qs m end.
Proof.
  intros m [q v|o] Bm H; cbn [p_code pcall_ok] in *.
  - pose proof (rstep_bits m (al_pin q v) Bm (own_ok q v H)) as T. split; [intros a; apply T|].
    apply look_set. intros a i Qa. rewrite (proj2 (T a) i (B8 _ _ Qa)). reflexivity.
  - destruct (leaves_alike m o Bm H) as [B' A]. split; [exact B'|]. apply alike_look. exact A.
Qed.
Lemma p_run : forall cs m, bytes m -> Forall (pcall_ok qs) cs ->
  lingers (look qs m) (map (look qs) (r_moments m (map p_code cs))) (levels qs (look qs m) (p_own cs)) /\
  bytes (fst (rrun m (map p_code cs))) /\
  look qs (fst (rrun m (map p_code cs))) = last (map (look qs) (r_moments m (map p_code cs))) (look qs m).
Proof.
  induction cs as [|c cs IH]; intros m Bm F.
  - split; [constructor|]. split; [exact Bm|reflexivity].
  - inversion F as [|? ? C F']; subst. destruct (p_step m c Bm C) as [B1 L1]. destruct (IH _ B1 F') as (S & B2 & L2).
    cbn [map r_moments rrun]. rewrite last_step. destruct (rstep m (p_code c)) as [m1 h1]. cbn [fst] in *. destruct (rrun m1 (map p_code cs)). cbn [fst] in *.
    split; [|split; assumption]. destruct c as [q v|o]; cbn [p_own levels] in *; rewrite L1 in *; constructor; exact S.
Qed.
Lemma leave_run : forall os m, bytes m -> Forall (leaves qs) os ->
  bytes (fst (rrun m os)) /\ alike m (fst (rrun m os)) /\ Forall (eq (look qs m)) (map (look qs) (r_moments m os)).
Proof.
  induction os as [|o os IH]; intros m Bm F.
  - split; [exact Bm|]. split; [intros a i _; reflexivity|constructor].
  - inversion F as [|? ? O F']; subst. destruct (leaves_alike m o Bm O) as [B1 A1]. destruct (IH _ B1 F') as (B2 & A2 & A3).
    cbn [rrun r_moments map]. rewrite (alike_look _ _ A1) in *. destruct (rstep m o) as [m1 h1]. cbn [fst] in *. destruct (rrun m1 os). cbn [fst] in *.
    split; [exact B2|]. split; [intros a i Qa; rewrite (A2 a i Qa); apply A1; exact Qa|]. constructor; [reflexivity|exact A3].
Qed.

(** ** The main program *)
Definition mute (c : instr) : Prop :=
  match c with Chg a i _ => ~ B a i | Put a _ => forall i, 0 <= i < 8 -> ~ B a i | IfIn _ _ => True end.
Lemma leaves_mute : forall o, leaves qs o -> Forall mute (fst (code o)).
Proof.
  intros o [_ S]. eapply Forall_impl; [|apply code_marks]. intros c M.
  assert (N : forall a i, names o a i -> ~ B a i) by (intros a i Na (q & I & [->| ->] & ->); destruct (S q I) as [N1 N2]; auto).
  destruct c; cbn [marks mute] in *; auto.
Qed.
Definition heldok (m : regs) (c : list instr) (h : option Z) : Prop :=
  match c, h with Chg a _ _ :: _, Some w => forall i, B a i -> Z.testbit w i = Z.testbit (m a) i | _, _ => True end.
Definition pinv (rest : list (list (option bool))) (k : kst) : Prop :=
  bytes (k_regs k) /\ exists cs, Forall (pcall_ok qs) cs /\ k_prog k = map p_code cs /\
  match k_call k with
  | None => rest = levels qs (look qs (k_regs k)) (p_own cs)
  | Some (c, h, _) => heldok (k_regs k) c h /\ Forall iok c /\
      ((exists q v, In q qs /\ c = [Chg (a_out (fst q)) (snd q) v] /\ rest = levels qs (look qs (k_regs k)) ((q, v) :: p_own cs)) \/
       (Forall mute c /\ rest = levels qs (look qs (k_regs k)) (p_own cs)))
  end.
Lemma chg_b : forall m a i v w, 0 <= i < 8 -> (forall j, B a j -> Z.testbit w j = Z.testbit (m a) j) ->
  forall b j, B b j -> Z.testbit (upd m a (r_choose w i v) b) j = if (b =? a) && (j =? i) then v else Z.testbit (m b) j.
Proof.
  intros m a i v w Hi W b j Qb. unfold upd. destruct (Z.eqb_spec b a) as [->|]; [|reflexivity]. cbn [andb].
  rewrite r_choose_bits; [|lia|apply (B8 _ _ Qb)]. destruct (j =? i); [reflexivity|]. apply W. exact Qb.
Qed.
Lemma chg_alike : forall m a i v w, 0 <= i < 8 -> ~ B a i -> (forall j, B a j -> Z.testbit w j = Z.testbit (m a) j) -> alike m (upd m a (r_choose w i v)).
Proof.
  intros m a i v w Hi N W b j Qb. rewrite (chg_b m a i v w Hi W b j Qb). destruct (Z.eqb_spec b a) as [->|]; [|reflexivity]. destruct (Z.eqb_spec j i) as [->|]; [contradiction|reflexivity].
Qed.
Ltac nohold c := destruct c as [|[] ?]; exact Logic.I.
Lemma pinv_step : forall one rest k, pinv rest k ->
  exists rest', pinv rest' (kstep one k KStep) /\
    ((look qs (k_regs (kstep one k KStep)) = look qs (k_regs k) /\ rest' = rest) \/ rest = look qs (k_regs (kstep one k KStep)) :: rest').
Proof.
  intros one rest [m call prog ans] (Bm & cs & P & Ep & C). unfold pinv in *. cbn [k_regs k_call k_prog k_ans kstep] in *. subst prog.
  destruct call as [[[c h] an]|].
  - destruct C as (Hh & Hi & C). destruct c as [|[a i v|a w|p pin] c]; cbn [kexec].
    + exists rest. cbn [k_regs k_call k_prog]. split; [|left; auto]. split; [exact Bm|]. exists cs. repeat (split; [auto|]).
      destruct C as [(q & v & _ & E & _)|[_ E]]; [discriminate|exact E].
    + inversion Hi as [|? ? Hi0 Hi1]; subst. cbn [iok] in Hi0.
      assert (ST : forall w, (forall j, B a j -> Z.testbit w j = Z.testbit (m a) j) ->
        let k' := mkK (upd m a (r_choose w i v)) (Some (c, None, an)) (map p_code cs) ans in
        exists rest', pinv rest' k' /\ ((look qs (k_regs k') = look qs m /\ rest' = rest) \/ rest = look qs (k_regs k') :: rest')).
      { intros w W. cbv zeta. unfold pinv. cbn [k_regs k_call k_prog].
        assert (Bu : bytes (upd m a (r_choose w i v))) by (apply upd_b; [exact Bm|apply r_choose_byte]).
        destruct C as [(q & v' & I & E & Er)|[Hq Er]].
        - injection E as E1 E2 E3 E4. subst a i v' c.
          assert (L : look qs (upd m (a_out (fst q)) (r_choose w (snd q) v)) = put_level qs q v (look qs m)) by (apply look_set; apply chg_b; assumption).
          rewrite L. cbn [levels] in Er. exists (levels qs (put_level qs q v (look qs m)) (p_own cs)). split; [|right; exact Er].
          split; [exact Bu|]. exists cs. split; [exact P|]. split; [reflexivity|]. split; [exact Logic.I|]. split; [constructor|]. right. split; [constructor|reflexivity].
        - inversion Hq as [|? ? Hq0 Hq1]; subst. cbn [mute] in Hq0.
          rewrite (alike_look m) by (apply chg_alike; assumption). exists (levels qs (look qs m) (p_own cs)). split; [|left; auto].
          split; [exact Bu|]. exists cs. split; [exact P|]. split; [reflexivity|]. split; [nohold c|]. split; [exact Hi1|]. right. split; [exact Hq1|reflexivity]. }
      destruct h as [w|].
      * apply ST. exact Hh.
      * destruct (one a).
        { apply (ST (m a)). intros; reflexivity. }
        exists rest. cbn [k_regs k_call k_prog]. split; [|left; auto]. split; [exact Bm|]. exists cs. split; [exact P|]. split; [reflexivity|].
        split; [cbn [heldok]; intros; reflexivity|]. split; [constructor; assumption|]. exact C.
    + inversion Hi as [|? ? Hi0 Hi1]; subst. destruct C as [(q & v' & _ & E & _)|[Hq Er]]; [discriminate|].
      inversion Hq as [|? ? Hq0 Hq1]; subst. cbn [mute] in Hq0. cbn [k_regs k_call k_prog].
      rewrite (alike_look m).
      2: { intros b j Qb. unfold upd. destruct (Z.eqb_spec b a) as [->|]; [|reflexivity]. exfalso. apply (Hq0 j); [apply (B8 _ _ Qb)|exact Qb]. }
      exists (levels qs (look qs m) (p_own cs)). split; [|left; auto].
      split; [apply upd_b; [exact Bm|exact Hi0]|]. exists cs. split; [exact P|]. split; [reflexivity|]. split; [nohold c|]. split; [exact Hi1|]. right. split; [exact Hq1|reflexivity].
    + inversion Hi as [|? ? Hi0 Hi1]; subst. destruct C as [(q & v' & _ & E & _)|[Hq Er]]; [discriminate|].
      inversion Hq as [|? ? Hq0 Hq1]; subst. cbn [k_regs k_call k_prog]. exists (levels qs (look qs m) (p_own cs)). split; [|left; auto].
      split; [exact Bm|]. exists cs. split; [exact P|]. split; [reflexivity|]. destruct (Z.land (m (a_dir p)) (2 ^ pin) =? 0).
      * split; [nohold c|]. split; [exact Hi1|]. right. split; [exact Hq1|reflexivity].
      * split; [exact Logic.I|]. split; [constructor|]. right. split; [constructor|reflexivity].
  - subst rest. destruct cs as [|c cs]; cbn [map].
    + exists []. cbn [k_regs k_call k_prog]. split; [|left; auto]. split; [exact Bm|]. exists []. auto.
    + inversion P as [|? ? O P']; subst. exists (levels qs (look qs m) (p_own (c :: cs))). cbn [k_regs k_call k_prog]. split; [|left; auto].
      split; [exact Bm|]. exists cs. split; [exact P'|]. split; [reflexivity|].
      split; [destruct (fst (code (p_code c))) as [|[] ?]; exact Logic.I|]. split; [apply code_ok; apply pcall_rop; exact O|].
      destruct c as [q v|o].
      * left. exists q, v. split; [exact O|]. split; reflexivity.
      * right. split; [apply leaves_mute; exact O|reflexivity].
Qed.
Lemma pinv_isr : forall one rest k os, pinv rest k -> Forall (leaves qs) os ->
  pinv rest (kstep one k (KIsr os)) /\ Forall (eq (look qs (k_regs k))) (map (look qs) (r_moments (k_regs k) os)) /\
  look qs (k_regs (kstep one k (KIsr os))) = look qs (k_regs k).
Proof.
  intros one rest k os (Bm & cs & P & Ep & C) F. destruct (leave_run os (k_regs k) Bm F) as (B1 & A1 & A2).
  split; [|split; [exact A2|apply alike_look; exact A1]].
  unfold pinv. cbn [kstep k_regs k_call k_prog]. split; [exact B1|]. exists cs. split; [exact P|]. split; [exact Ep|]. rewrite (alike_look _ _ A1).
  destruct (k_call k) as [[[c h] an]|]; [|exact C]. destruct C as (Hh & C). split; [|exact C].
  unfold heldok in *. destruct c as [|[a i v| |] c]; try exact Logic.I. destruct h as [w|]; [|exact Logic.I]. intros j Qa. rewrite (A1 a j Qa). apply Hh. exact Qa.
Qed.
Lemma pmain_run : forall one evs rest k, pinv rest k -> Forall (leaves qs) (handled evs) ->
  exists ps rest', lingers (look qs (k_regs k)) (map (look qs) (k_moments one k evs)) ps /\ rest = ps ++ rest' /\ pinv rest' (krun one k evs).
Proof.
  intros one. induction evs as [|e evs IH]; intros rest k Hm F.
  - exists [], rest. split; [constructor|]. split; [reflexivity|exact Hm].
  - destruct e as [|os]; cbn [handled k_moments krun] in *.
    + destruct (pinv_step one rest k Hm) as (rest1 & M1 & C). destruct (IH rest1 _ M1 F) as (ps & rest2 & S & Er & M2).
      rewrite map_app. cbn [map app]. destruct C as [[E ->]|C].
      * exists ps, rest2. split; [rewrite E in *; constructor; exact S|]. auto.
      * exists (look qs (k_regs (kstep one k KStep)) :: ps), rest2. split; [constructor; exact S|]. split; [rewrite C, Er; reflexivity|exact M2].
    + apply Forall_app in F. destruct F as [F1 F2]. destruct (pinv_isr one rest k os Hm F1) as (M1 & E1 & E2).
      destruct (IH rest _ M1 F2) as (ps & rest2 & S & Er & M2). exists ps, rest2. rewrite map_app. split; [|auto]. rewrite E2 in S.
      clear - S E1. induction E1 as [|y t <- E1 IH]; [exact S|]. cbn [app]. constructor. exact IH.
Qed.
Lemma pins_main_l : forall one m cs evs, bytes m -> Forall (pcall_ok qs) cs -> Forall (leaves qs) (handled evs) ->
  let k := krun one (k_init m (map p_code cs)) evs in
  exists ps rest, lingers (look qs m) (map (look qs) (k_moments one (k_init m (map p_code cs)) evs)) ps /\
    levels qs (look qs m) (p_own cs) = ps ++ rest /\ (k_call k = None -> k_prog k = [] -> rest = []).
Proof.
  intros one m cs evs Bm F Fh k.
  assert (Hm : pinv (levels qs (look qs m) (p_own cs)) (k_init m (map p_code cs))).
  { split; [exact Bm|]. exists cs. split; [exact F|]. split; reflexivity. }
  destruct (pmain_run one evs _ _ Hm Fh) as (ps & rest & S & E & M). exists ps, rest. split; [exact S|]. split; [exact E|].
  intros K1 K2. fold k in M. destruct M as (_ & cs' & _ & Ep & M). rewrite K1 in M. rewrite K2 in Ep. destruct cs'; [exact M|discriminate].
Qed.

(** ** A device of the handlers *)
Variable st : list ((Z * Z) * bool).
Hypothesis Sub : forall q v, In (q, v) st -> In q qs.
Lemma level_look : forall m q l, In q l -> level_of q l (look l m) = drives m (fst q) (snd q).
Proof.
  intros m q l. induction l as [|p l IH]; intros I; [destruct I|]. cbn [look map level_of]. fold (look l m). destruct (same_pin p q) eqn:E.
  - apply same_eq in E. subst p. reflexivity.
  - destruct I as [->|I]; [rewrite same_refl in E; discriminate|]. apply IH. exact I.
Qed.
Variable m0 : regs.
Hypothesis St0 : rests_at qs st (look qs m0).
Definition calm_regs (m : regs) : Prop := (forall q, In q qs -> Z.testbit (m (a_dir (fst q))) (snd q) = Z.testbit (m0 (a_dir (fst q))) (snd q)) /\
  (forall q v, In (q, v) st -> Z.testbit (m (a_out (fst q))) (snd q) = v).
Definition calm_at (a w : Z) : Prop := (forall q, In q qs -> a = a_dir (fst q) -> Z.testbit w (snd q) = Z.testbit (m0 (a_dir (fst q))) (snd q)) /\
  (forall q v, In (q, v) st -> a = a_out (fst q) -> Z.testbit w (snd q) = v).
Lemma st_dir : forall m q v, rests_at qs st (look qs m) -> In (q, v) st -> Z.testbit (m (a_dir (fst q))) (snd q) = true /\ Z.testbit (m (a_out (fst q))) (snd q) = v.
Proof.
  intros m q v H I. specialize (H q v I). rewrite level_look in H by (apply (Sub q v I)). unfold drives in H.
  destruct (Z.testbit (m (a_dir (fst q))) (snd q)); [split; congruence|discriminate].
Qed.
Lemma is_out_look : forall m l, map is_out (look l m) = map (fun q => Z.testbit (m (a_dir (fst q))) (snd q)) l.
Proof. intros m l. unfold look. rewrite map_map. apply map_ext. intros q. unfold drives. destruct (Z.testbit _ _); reflexivity. Qed.
Lemma map_pick : forall A X (f g : A -> X) l, map f l = map g l -> forall a, In a l -> f a = g a.
Proof. intros A X f g l. induction l as [|b l IH]; intros E a I; [destruct I|]. injection E as E1 E2. destruct I as [<-|I]; auto. Qed.
Lemma calm_look : forall m, calm_regs m <-> rests_at qs st (look qs m) /\ map is_out (look qs m) = map is_out (look qs m0).
Proof.
  intros m. split.
  - intros [D O]. split.
    + intros q v I. rewrite level_look by (apply (Sub q v I)). unfold drives. rewrite (D q (Sub q v I)), (proj1 (st_dir m0 q v St0 I)), (O q v I). reflexivity.
    + rewrite !is_out_look. apply map_ext_in. exact D.
  - intros [H E]. split; [|intros q v I; apply (st_dir m q v H I)]. rewrite !is_out_look in E. exact (map_pick _ _ _ _ _ E).
Qed.
Lemma calm_upd : forall m a w, calm_regs m -> calm_at a w -> calm_regs (upd m a w).
Proof.
  intros m a w [D O] [H1 H2]. unfold calm_regs, upd. split.
  - intros q I. destruct (Z.eqb_spec (a_dir (fst q)) a) as [<-|]; auto.
  - intros q v I. destruct (Z.eqb_spec (a_out (fst q)) a) as [<-|]; auto.
Qed.
Lemma calm_self : forall m a, calm_regs m -> calm_at a (m a).
Proof. intros m a [D O]. split; [intros q I ->; auto|intros q v I ->; auto]. Qed.
Lemma calm_choose : forall a w i v, 0 <= i < 8 -> ~ B a i -> calm_at a w -> calm_at a (r_choose w i v).
Proof.
  intros a w i v Hi N [D O]. split.
  - intros q I ->. rewrite r_choose_bits; [|lia|apply bit8; exact I]. destruct (Z.eqb_spec (snd q) i) as [<-|]; [|auto]. exfalso. apply N. exists q. auto.
  - intros q u I ->. pose proof (Sub q u I) as Iq. rewrite r_choose_bits; [|lia|apply bit8; exact Iq]. destruct (Z.eqb_spec (snd q) i) as [<-|]; [|auto]. exfalso. apply N. exists q. auto.
Qed.
Lemma calm_put : forall a w, (forall i, 0 <= i < 8 -> ~ B a i) -> calm_at a w.
Proof.
  intros a w N. split.
  - intros q I ->. exfalso. apply (N (snd q) (bit8 q I)). exists q. auto.
  - intros q v I ->. pose proof (Sub q v I) as Iq. exfalso. apply (N (snd q) (bit8 q Iq)). exists q. auto.
Qed.
Lemma out_put : forall l q v ls, length ls = length l -> map is_out (put_level l q v ls) = map is_out ls.
Proof.
  induction l as [|p l IH]; intros q v [|x ls] E; try discriminate; [reflexivity|]. cbn [put_level map]. rewrite IH by (injection E; auto). f_equal.
  destruct (same_pin p q); [destruct x|]; reflexivity.
Qed.
Lemma out_levels : forall l ws ls, length ls = length l -> map is_out (last (levels l ls ws) ls) = map is_out ls.
Proof.
  intros l. induction ws as [|[q v] ws IH]; intros ls E; [reflexivity|]. cbn [levels]. rewrite last_step, IH, out_put; auto.
  transitivity (length (map is_out (put_level l q v ls))); [symmetry; apply map_length|]. rewrite out_put by exact E. rewrite map_length. exact E.
Qed.
Definition hinv' (k : kst) : Prop :=
  bytes (k_regs k) /\ calm_regs (k_regs k) /\ Forall (leaves qs) (k_prog k) /\
  match k_call k with
  | None => True
  | Some (c, h, _) => Forall iok c /\ Forall mute c /\ match c, h with Chg a _ _ :: _, Some w => calm_at a w | _, _ => True end
  end.
Lemma hinv'_step : forall one k, hinv' k -> hinv' (kstep one k KStep).
Proof.
  intros one [m call prog ans] (Bm & H & P & C). unfold hinv' in *. cbn [k_regs k_call k_prog k_ans kstep] in *.
  destruct call as [[[c h] an]|].
  - destruct C as (Hi & Hq & Hh). destruct c as [|[a i v|a w|p pin] c]; cbn [kexec].
    + cbn [k_regs k_call k_prog]. auto.
    + inversion Hi as [|? ? Hi0 Hi1]; subst. inversion Hq as [|? ? Hq0 Hq1]; subst. cbn [iok mute] in *.
      assert (ST : forall w, calm_at a w -> bytes (upd m a (r_choose w i v)) /\ calm_regs (upd m a (r_choose w i v))).
      { intros w W. split; [apply upd_b; [exact Bm|apply r_choose_byte]|]. apply calm_upd; [exact H|]. apply calm_choose; assumption. }
      destruct h as [w|]; [|destruct (one a)]; cbn [k_regs k_call k_prog].
      * destruct (ST w Hh) as [B1 H1]. repeat (split; [assumption|]). nohold c.
      * destruct (ST (m a) (calm_self m a H)) as [B1 H1]. repeat (split; [assumption|]). nohold c.
      * repeat (split; [assumption|]). apply calm_self. exact H.
    + inversion Hi as [|? ? Hi0 Hi1]; subst. inversion Hq as [|? ? Hq0 Hq1]; subst. cbn [k_regs k_call k_prog mute] in *.
      split; [apply upd_b; assumption|]. split; [apply calm_upd; [exact H|apply calm_put; exact Hq0]|]. repeat (split; [assumption|]). nohold c.
    + inversion Hi as [|? ? Hi0 Hi1]; subst. inversion Hq as [|? ? Hq0 Hq1]; subst. cbn [k_regs k_call k_prog].
      repeat (split; [assumption|]). destruct (Z.land (m (a_dir p)) (2 ^ pin) =? 0).
      * repeat (split; [assumption|]). nohold c.
      * split; [constructor|]. split; [constructor|exact Logic.I].
  - destruct prog as [|o prog]; cbn [k_regs k_call k_prog].
    + auto.
    + inversion P as [|? ? O P']; subst. repeat (split; [assumption|]). split; [apply code_ok; apply O|]. split; [apply leaves_mute; exact O|].
      destruct (fst (code o)) as [|[] ?]; exact Logic.I.
Qed.
Lemma pisr_run : forall one evs k, hinv' k -> Forall (pev_ok qs) evs -> Forall (returns qs st) evs ->
  drift qs st (look qs (k_regs k)) evs (map (look qs) (k_moments one k (map p_ev evs))).
Proof.
  intros one. induction evs as [|e evs IH]; intros k Y F W; [constructor|].
  inversion F as [|? ? Fe F']; subst. inversion W as [|? ? We W']; subst. destruct e as [|cs]; cbn [map p_ev k_moments]; rewrite map_app.
  - pose proof (hinv'_step one k Y) as Y1. cbn [map app].
    destruct (proj1 (calm_look _) (proj1 (proj2 Y))) as [_ D0]. destruct (proj1 (calm_look _) (proj1 (proj2 Y1))) as [R1 D1]. apply dr_step.
    + congruence.
    + exact R1.
    + apply IH; assumption.
  - destruct Y as (Bm & H & P & C). cbn [pev_ok returns] in *. destruct (p_run cs (k_regs k) Bm Fe) as (S & B1 & L1).
    pose proof (stut_last _ _ _ _ (lingers_stut _ _ _ _ S)) as La. destruct (proj1 (calm_look _) H) as [R0 D0].
    apply dr_isr; [exact S|].
    assert (Y1 : hinv' (kstep one k (KIsr (map p_code cs)))).
    { split; [exact B1|]. split; [|split; [exact P|exact C]]. apply calm_look. cbn [kstep k_regs]. rewrite L1, La. split; [apply We; exact R0|].
      rewrite out_levels by apply map_length. exact D0. }
    specialize (IH _ Y1 F' W'). cbn [kstep k_regs] in IH. rewrite L1 in IH. exact IH.
Qed.
End X.
Lemma pins_isr_l : forall one qs st m prog evs, Forall pin_real qs -> (forall q v, In (q, v) st -> In q qs) -> bytes m -> rests_at qs st (look qs m) ->
  Forall (leaves qs) prog -> Forall (pev_ok qs) evs -> Forall (returns qs st) evs ->
  drift qs st (look qs m) evs (map (look qs) (k_moments one (k_init m prog) (map p_ev evs))).
Proof.
  intros one qs st m prog evs R Sub Bm Hr P F W. apply (pisr_run qs R st Sub m Hr one evs (k_init m prog)); try assumption.
  split; [exact Bm|]. split; [apply calm_look; auto|]. split; [exact P|exact Logic.I].
Qed.
