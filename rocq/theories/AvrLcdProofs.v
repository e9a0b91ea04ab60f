Require Import ZArith List Bool Lia ZifyBool.
Import ListNotations.
From Verif Require Import Base BaseFacts AvrModel AvrSpec AvrProofs RegIsrModel RegIsrSpec RegIsrProofs RegIsrMore
  HdModel HdSpec HdIfProofs ChainProofs AvrLcdModel AvrLcdSpec.
Open Scope Z_scope.
Local Ltac Zify.zify_post_hook ::= idtac.

Lemma stut_lingers : forall A (x : A) a b, stut x a b -> lingers x a b.
Proof. intros A x a b H. induction H; constructor; assumption. Qed.
Lemma lingers_stut : forall A (x : A) a b, lingers x a b -> stut x a b.
Proof. intros A x a b H. induction H; constructor; assumption. Qed.

Lemma out_inj : forall p q, a_out p = a_out q -> p = q. Proof. unfold a_out. intros. lia. Qed.
Lemma dir_inj : forall p q, a_dir p = a_dir q -> p = q. Proof. unfold a_dir. intros. lia. Qed.
Lemma out_dir : forall p q, a_out p <> a_dir q. Proof. unfold a_dir, a_out. intros. lia. Qed.

Section X.
Variable x : alcd.
Hypothesis R : al_real x.
Lemma pin8 : forall q, In q (al_pins x) -> 0 <= snd q < 8.
Proof. intros q H. destruct R as [_ F]. rewrite Forall_forall in F. apply (F q H). Qed.
(** The bits the display depends on. *)
Definition Q (a i : Z) : Prop := exists q, In q (al_pins x) /\ (a = a_out (fst q) \/ a = a_dir (fst q)) /\ i = snd q.
Lemma Q8 : forall a i, Q a i -> 0 <= i < 8.
Proof. intros a i (q & I & _ & ->). apply pin8. exact I. Qed.
Definition agree (m m' : regs) : Prop := forall a i, Q a i -> Z.testbit (m' a) i = Z.testbit (m a) i.
Lemma agree_lines : forall m m', agree m m' -> al_lines x m' = al_lines x m.
Proof.
  intros m m' A.
  assert (D : forall q, In q (al_pins x) -> drives m' (fst q) (snd q) = drives m (fst q) (snd q)).
  { intros q I. unfold drives. rewrite (A (a_dir (fst q)) (snd q)) by (exists q; auto). rewrite (A (a_out (fst q)) (snd q)) by (exists q; auto). reflexivity. }
  unfold al_lines. rewrite !D by (unfold al_pins; cbn [In]; auto 7). reflexivity.
Qed.

Definition pin_eqb (p q : Z * Z) : bool := (fst p =? fst q) && (snd p =? snd q).
Lemma pin_eqb_refl : forall p, pin_eqb p p = true. Proof. intros p. unfold pin_eqb. rewrite !Z.eqb_refl. reflexivity. Qed.
Lemma pin_eqb_neq : forall p q, p <> q -> pin_eqb p q = false.
Proof.
  intros [a b] [c d] H. unfold pin_eqb. cbn [fst snd]. destruct (Z.eqb_spec a c) as [->|]; [|reflexivity]. destruct (Z.eqb_spec b d) as [->|]; [congruence|reflexivity].
Qed.
Lemma pin_eqb_eq : forall p q, pin_eqb p q = true -> p = q.
Proof. intros [a b] [c d] H. unfold pin_eqb in H. cbn [fst snd] in H. apply andb_prop in H. destruct H as [H1 H2]. apply Z.eqb_eq in H1. apply Z.eqb_eq in H2. congruence. Qed.
Definition set_line (q : Z * Z) (v : bool) (l : lines) : lines :=
  if pin_eqb q (x_rs x) then set_rs l v else if pin_eqb q (x_en x) then set_en l v else if pin_eqb q (x_d4 x) then set_d4 l v
  else if pin_eqb q (x_d5 x) then set_d5 l v else if pin_eqb q (x_d6 x) then set_d6 l v else set_d7 l v.
Lemma distinct : x_rs x <> x_en x /\ x_rs x <> x_d4 x /\ x_rs x <> x_d5 x /\ x_rs x <> x_d6 x /\ x_rs x <> x_d7 x /\
  x_en x <> x_d4 x /\ x_en x <> x_d5 x /\ x_en x <> x_d6 x /\ x_en x <> x_d7 x /\
  x_d4 x <> x_d5 x /\ x_d4 x <> x_d6 x /\ x_d4 x <> x_d7 x /\ x_d5 x <> x_d6 x /\ x_d5 x <> x_d7 x /\ x_d6 x <> x_d7 x.
Proof.
  destruct R as [H _]. unfold al_pins in H.
  repeat match goal with H : NoDup (_ :: _) |- _ => inversion H; clear H; subst end. cbn [In] in *.
  repeat match goal with H : ~ (_ \/ _) |- _ => apply Decidable.not_or in H; destruct H end.
  repeat split; congruence.
Qed.
Lemma set_line_at : forall l v,
  set_line (x_rs x) v l = set_rs l v /\ set_line (x_en x) v l = set_en l v /\ set_line (x_d4 x) v l = set_d4 l v /\
  set_line (x_d5 x) v l = set_d5 l v /\ set_line (x_d6 x) v l = set_d6 l v /\ set_line (x_d7 x) v l = set_d7 l v.
Proof.
  intros l v. pose proof distinct as D. decompose [and] D. clear D. unfold set_line.
  repeat match goal with |- context [pin_eqb ?p ?q] => first [rewrite (pin_eqb_refl p) | rewrite (pin_eqb_neq p q) by congruence] end.
  repeat split; reflexivity.
Qed.
(** The lines as six pins. *)
Lemma lines_some : forall m l, al_lines x m = Some l <->
  (forall q, In q (al_pins x) -> Z.testbit (m (a_dir (fst q))) (snd q) = true) /\
  l = {| rs := Z.testbit (m (a_out (fst (x_rs x)))) (snd (x_rs x)); en := Z.testbit (m (a_out (fst (x_en x)))) (snd (x_en x));
         d4 := Z.testbit (m (a_out (fst (x_d4 x)))) (snd (x_d4 x)); d5 := Z.testbit (m (a_out (fst (x_d5 x)))) (snd (x_d5 x));
         d6 := Z.testbit (m (a_out (fst (x_d6 x)))) (snd (x_d6 x)); d7 := Z.testbit (m (a_out (fst (x_d7 x)))) (snd (x_d7 x)) |}.
Proof.
  intros m l. unfold al_lines, drives. split.
  - intros H.
    destruct (Z.testbit (m (a_dir (fst (x_rs x)))) (snd (x_rs x))) eqn:E1; [|discriminate].
    destruct (Z.testbit (m (a_dir (fst (x_en x)))) (snd (x_en x))) eqn:E2; [|discriminate].
    destruct (Z.testbit (m (a_dir (fst (x_d4 x)))) (snd (x_d4 x))) eqn:E3; [|discriminate].
    destruct (Z.testbit (m (a_dir (fst (x_d5 x)))) (snd (x_d5 x))) eqn:E4; [|discriminate].
    destruct (Z.testbit (m (a_dir (fst (x_d6 x)))) (snd (x_d6 x))) eqn:E5; [|discriminate].
    destruct (Z.testbit (m (a_dir (fst (x_d7 x)))) (snd (x_d7 x))) eqn:E6; [|discriminate].
    split; [|congruence]. intros q [<-|[<-|[<-|[<-|[<-|[<-|[]]]]]]]; assumption.
  - intros [D ->]. rewrite !D by (unfold al_pins; cbn [In]; auto 7). reflexivity.
Qed.
(** One bit of the pins written: from registers whose bits of that register are those of [w]. *)
Lemma lines_set : forall m m' q v l, al_lines x m = Some l -> In q (al_pins x) ->
  (forall a i, Q a i -> Z.testbit (m' a) i = if (a =? a_out (fst q)) && (i =? snd q) then v else Z.testbit (m a) i) ->
  al_lines x m' = Some (set_line q v l).
Proof.
  intros m m' q v l H I A. apply lines_some in H. destruct H as [D ->]. apply lines_some. split.
  - intros p Ip. rewrite A by (exists p; auto). rewrite (proj2 (Z.eqb_neq _ _)) by (apply not_eq_sym; apply out_dir). cbn [andb]. apply D. exact Ip.
  - assert (G : forall p, In p (al_pins x) -> Z.testbit (m' (a_out (fst p))) (snd p) = if pin_eqb p q then v else Z.testbit (m (a_out (fst p))) (snd p)).
    { intros p Ip. rewrite A by (exists p; auto). unfold pin_eqb. destruct (Z.eqb_spec (a_out (fst p)) (a_out (fst q))) as [E|E].
      - apply out_inj in E. rewrite E, Z.eqb_refl. reflexivity.
      - rewrite (proj2 (Z.eqb_neq (fst p) (fst q))) by congruence. reflexivity. }
    rewrite !G by (unfold al_pins; cbn [In]; auto 7). pose proof distinct as Di. decompose [and] Di. clear Di G A D.
    pose proof (set_line_at {| rs := Z.testbit (m (a_out (fst (x_rs x)))) (snd (x_rs x)); en := Z.testbit (m (a_out (fst (x_en x)))) (snd (x_en x));
         d4 := Z.testbit (m (a_out (fst (x_d4 x)))) (snd (x_d4 x)); d5 := Z.testbit (m (a_out (fst (x_d5 x)))) (snd (x_d5 x));
         d6 := Z.testbit (m (a_out (fst (x_d6 x)))) (snd (x_d6 x)); d7 := Z.testbit (m (a_out (fst (x_d7 x)))) (snd (x_d7 x)) |} v) as (S1 & S2 & S3 & S4 & S5 & S6).
    destruct I as [<-|[<-|[<-|[<-|[<-|[<-|[]]]]]]]; rewrite ?S1, ?S2, ?S3, ?S4, ?S5, ?S6; clear S1 S2 S3 S4 S5 S6;
    repeat match goal with |- context [pin_eqb ?p ?q] => first [rewrite (pin_eqb_refl p) | rewrite (pin_eqb_neq p q) by congruence] end; reflexivity.
Qed.

(** ** The calls as changes of the lines *)
Inductive okop : rop -> Prop :=
| ok_own : forall q v, In q (al_pins x) -> okop (al_pin q v)
| ok_other : forall o, other_ok x o -> okop o.
Definition own (o : rop) : option ((Z * Z) * bool) :=
  match o with PortWrite p i v => if existsb (pin_eqb (p, i)) (al_pins x) then Some ((p, i), v) else None | _ => None end.
Lemma own_pin : forall q v, In q (al_pins x) -> own (al_pin q v) = Some (q, v).
Proof.
  intros [p i] v I. unfold own, al_pin. cbn [fst snd]. replace (existsb (pin_eqb (p, i)) (al_pins x)) with true; [reflexivity|].
  symmetry. apply existsb_exists. exists (p, i). split; [exact I|apply pin_eqb_refl].
Qed.
Lemma names_write : forall p i v, names (PortWrite p i v) (a_out p) i.
Proof. intros p i v. apply names_const. cbn [bstep fst]. unfold set1. rewrite !Z.eqb_refl. reflexivity. Qed.
Lemma own_other : forall o, spares x o -> own o = None.
Proof.
  intros o S. destruct o; try reflexivity. unfold own. destruct (existsb (pin_eqb (p, pin)) (al_pins x)) eqn:E; [|reflexivity].
  apply existsb_exists in E. destruct E as (q & I & E). apply pin_eqb_eq in E. subst q. destruct (S _ I) as [N _]. exfalso. apply N. cbn [fst snd]. apply names_write.
Qed.
Fixpoint lrun (l : lines) (os : list rop) : list lines :=
  match os with
  | [] => []
  | o :: r => match own o with Some (q, v) => set_line q v l :: lrun (set_line q v l) r | None => lrun l r end
  end.
Lemma lrun_app : forall a b l, lrun l (a ++ b) = lrun l a ++ lrun (last (lrun l a) l) b.
Proof.
  induction a as [|o a IH]; intros b l; [reflexivity|]. cbn [app lrun]. destruct (own o) as [[q v]|]; [|apply IH].
  rewrite IH. cbn [app]. rewrite last_step. reflexivity.
Qed.
Ltac pins := unfold al_pins; cbn [In]; auto 7.
Lemma lrun_write4 : forall l n, lrun l (al_write4 x n) = par_write4 l n.
Proof.
  intros l n. unfold al_write4, par_write4. cbn [lrun]. rewrite !own_pin by pins.
  rewrite (proj1 (proj2 (proj2 (set_line_at _ _)))).
  rewrite (proj1 (proj2 (proj2 (proj2 (set_line_at _ _))))).
  rewrite (proj1 (proj2 (proj2 (proj2 (proj2 (set_line_at _ _)))))).
  rewrite (proj2 (proj2 (proj2 (proj2 (proj2 (set_line_at _ _)))))).
  rewrite !(proj1 (proj2 (set_line_at _ _))). reflexivity.
Qed.
Lemma lrun_op : forall l o, lrun l (al_op x o) = par_op l o.
Proof.
  intros l [b|b|n]; cbn [al_op par_op lrun]; [| |apply lrun_write4]; rewrite own_pin by pins; rewrite (proj1 (set_line_at _ _));
    unfold al_write8, par_write8; rewrite lrun_app, !lrun_write4; reflexivity.
Qed.
Lemma lrun_prog : forall cs l, Forall (acall_ok x) cs -> lrun l (al_prog x cs) = par_run l (al_ops cs).
Proof.
  induction cs as [|[o|o] cs IH]; intros l F; [reflexivity| |]; inversion F as [|? ? C F']; subst; cbn [al_prog flat_map al_call al_ops par_run]; fold (al_prog x cs).
  - rewrite lrun_app, lrun_op, IH by exact F'. reflexivity.
  - cbn [app lrun]. destruct C as [_ S]. rewrite (own_other o S). apply IH. exact F'.
Qed.
Lemma write4_okop : forall n, Forall okop (al_write4 x n).
Proof. intros n. unfold al_write4. repeat (constructor; [constructor 1; pins|]). constructor. Qed.
Lemma op_okop : forall o, Forall okop (al_op x o).
Proof.
  intros [b|b|n]; cbn [al_op]; [| |apply write4_okop]; (constructor; [constructor 1; pins|]); unfold al_write8; apply Forall_app; split; apply write4_okop.
Qed.
Lemma prog_okop : forall cs, Forall (acall_ok x) cs -> Forall okop (al_prog x cs).
Proof.
  induction cs as [|[o|o] cs IH]; intros F; [constructor| |]; inversion F as [|? ? C F']; subst; cbn [al_prog flat_map al_call]; fold (al_prog x cs); apply Forall_app; split; auto.
  - apply op_okop.
  - constructor; [constructor 2; exact C|constructor].
Qed.
Lemma okop_rop : forall o, okop o -> rop_ok o.
Proof. intros o [q v I|o' [H _]]; [|exact H]. cbn. apply pin8. exact I. Qed.

(** ** Calls of handlers, and other calls *)
Lemma rstep_bits : forall m o, bytes m -> rop_ok o -> same_regs (fst (rstep m o)) (fst (bstep (bits_of m) o)).
Proof.
  intros m o B H. pose proof (rrun_bits m [o] B (Forall_cons _ H (Forall_nil _))) as S. cbn [rrun brun] in S.
  destruct (rstep m o). destruct (bstep (bits_of m) o). exact S.
Qed.
Lemma other_agree : forall m o, bytes m -> other_ok x o -> bytes (fst (rstep m o)) /\ agree m (fst (rstep m o)).
Proof.
  intros m o B [H S]. pose proof (rstep_bits m o B H) as T. split; [intros a; apply T|].
  intros a i Qa. rewrite (proj2 (T a) i (Q8 _ _ Qa)). destruct (bstep_gives (bits_of m) o a i) as [E|G]; [rewrite E; reflexivity|].
  exfalso. destruct Qa as (q & I & [->| ->] & ->); destruct (S q I) as [N1 N2]; [apply N1|apply N2]; eexists; exact G.
Qed.
Lemma handler_step : forall m o l, bytes m -> okop o -> al_lines x m = Some l ->
  bytes (fst (rstep m o)) /\ al_lines x (fst (rstep m o)) = Some (match own o with Some (q, v) => set_line q v l | None => l end).
Proof.
  intros m o l B [q v I|o' O] L.
  - pose proof (rstep_bits m (al_pin q v) B (pin8 q I)) as T. split; [intros a; apply T|]. rewrite own_pin by exact I.
    apply (lines_set m _ q v l L I). intros a i Qa. rewrite (proj2 (T a) i (Q8 _ _ Qa)). reflexivity.
  - destruct (other_agree m o' B O) as [B' A]. split; [exact B'|]. rewrite (agree_lines _ _ A), (own_other o' (proj2 O)). exact L.
Qed.
Lemma handler_run : forall os m l, bytes m -> Forall okop os -> al_lines x m = Some l ->
  exists ls, map (al_lines x) (r_moments m os) = map Some ls /\ stut l ls (lrun l os) /\
    bytes (fst (rrun m os)) /\ al_lines x (fst (rrun m os)) = Some (last ls l).
Proof.
  induction os as [|o os IH]; intros m l B F L.
  - exists []. split; [reflexivity|]. split; [constructor|]. split; [exact B|exact L].
  - inversion F as [|? ? O F']; subst. destruct (handler_step m o l B O L) as [B1 L1].
    destruct (IH _ _ B1 F' L1) as (ls & E & S & B2 & L2). cbn [r_moments map rrun lrun]. destruct (rstep m o) as [m1 h1] eqn:Em. cbn [fst] in *.
    destruct (own o) as [[q v]|].
    + exists (set_line q v l :: ls). cbn [map]. rewrite L1, E. split; [reflexivity|]. split; [constructor; exact S|].
      destruct (rrun m1 os). cbn [fst] in *. split; [exact B2|]. rewrite last_step. exact L2.
    + exists (l :: ls). cbn [map]. rewrite L1, E. split; [reflexivity|]. split; [constructor; exact S|].
      destruct (rrun m1 os). cbn [fst] in *. split; [exact B2|]. rewrite last_step. exact L2.
Qed.
Lemma others_run : forall os m, bytes m -> Forall (other_ok x) os ->
  bytes (fst (rrun m os)) /\ agree m (fst (rrun m os)) /\ Forall (fun m' => agree m m') (r_moments m os).
Proof.
  induction os as [|o os IH]; intros m B F.
  - split; [exact B|]. split; [intros a i _; reflexivity|constructor].
  - inversion F as [|? ? O F']; subst. destruct (other_agree m o B O) as [B1 A1]. destruct (IH _ B1 F') as (B2 & A2 & A3).
    cbn [rrun r_moments]. destruct (rstep m o) as [m1 h1]. cbn [fst] in *. destruct (rrun m1 os). cbn [fst] in *.
    assert (T : forall m', agree m1 m' -> agree m m') by (intros m' A a i Qa; rewrite (A a i Qa); apply A1; exact Qa).
    split; [exact B2|]. split; [apply T; exact A2|]. constructor; [exact A1|]. eapply Forall_impl; [|exact A3]. exact T.
Qed.

(** ** The main program *)
Definition quiet (c : instr) : Prop :=
  match c with Chg a i _ => ~ Q a i | Put a _ => forall i, 0 <= i < 8 -> ~ Q a i | IfIn _ _ => True end.
Lemma other_quiet : forall o, spares x o -> Forall quiet (fst (code o)).
Proof.
  intros o S. eapply Forall_impl; [|apply code_marks]. intros c M.
  assert (N : forall a i, names o a i -> ~ Q a i) by (intros a i Na (q & I & [->| ->] & ->); destruct (S q I) as [N1 N2]; auto).
  destruct c; cbn [marks quiet] in *; auto.
Qed.
Definition okhold (m : regs) (c : list instr) (h : option Z) : Prop :=
  match c, h with Chg a _ _ :: _, Some w => forall i, Q a i -> Z.testbit w i = Z.testbit (m a) i | _, _ => True end.
Definition minv (l : lines) (rest : list lines) (k : kst) : Prop :=
  bytes (k_regs k) /\ al_lines x (k_regs k) = Some l /\ Forall okop (k_prog k) /\
  match k_call k with
  | None => rest = lrun l (k_prog k)
  | Some (c, h, _) => okhold (k_regs k) c h /\ Forall iok c /\
      ((exists q v, In q (al_pins x) /\ c = [Chg (a_out (fst q)) (snd q) v] /\ rest = set_line q v l :: lrun (set_line q v l) (k_prog k)) \/
       (Forall quiet c /\ rest = lrun l (k_prog k)))
  end.
Lemma upd_b : forall m a w, bytes m -> byte w -> bytes (upd m a w).
Proof. intros m a w B W b. unfold upd. destruct (b =? a); [exact W|apply B]. Qed.
(** The stored value, bit by bit. *)
Lemma chg_bits : forall m a i v w, 0 <= i < 8 -> (forall j, Q a j -> Z.testbit w j = Z.testbit (m a) j) ->
  forall b j, Q b j -> Z.testbit (upd m a (r_choose w i v) b) j = if (b =? a) && (j =? i) then v else Z.testbit (m b) j.
Proof.
  intros m a i v w Hi W b j Qb. unfold upd. destruct (Z.eqb_spec b a) as [->|]; [|reflexivity]. cbn [andb].
  rewrite r_choose_bits; [|lia|apply (Q8 _ _ Qb)]. destruct (j =? i); [reflexivity|]. apply W. exact Qb.
Qed.
Lemma chg_agree : forall m a i v w, 0 <= i < 8 -> ~ Q a i -> (forall j, Q a j -> Z.testbit w j = Z.testbit (m a) j) -> agree m (upd m a (r_choose w i v)).
Proof.
  intros m a i v w Hi N W b j Qb. rewrite (chg_bits m a i v w Hi W b j Qb). destruct (Z.eqb_spec b a) as [->|]; [|reflexivity]. destruct (Z.eqb_spec j i) as [->|]; [contradiction|reflexivity].
Qed.
Lemma minv_step : forall one l rest k, minv l rest k ->
  exists l' rest', minv l' rest' (kstep one k KStep) /\ ((l' = l /\ rest' = rest) \/ rest = l' :: rest').
Proof.
  intros one l rest [m call prog ans] (B & L & P & C). unfold minv in *. cbn [k_regs k_call k_prog k_ans kstep] in *.
  destruct call as [[[c h] an]|].
  - destruct C as (Hh & Hi & C). destruct c as [|[a i v|a w|p pin] c]; cbn [kexec].
    + exists l, rest. split; [|left; auto]. cbn [k_regs k_call k_prog]. repeat (split; [assumption|]).
      destruct C as [(q & v & _ & E & _)|[_ E]]; [discriminate|exact E].
    + inversion Hi as [|? ? Hi0 Hi1]; subst. cbn [iok] in Hi0.
      assert (ST : forall w, (forall j, Q a j -> Z.testbit w j = Z.testbit (m a) j) ->
        let k' := mkK (upd m a (r_choose w i v)) (Some (c, None, an)) prog ans in
        exists l' rest', minv l' rest' k' /\ ((l' = l /\ rest' = rest) \/ rest = l' :: rest')).
      { intros w W. cbv zeta. unfold minv. cbn [k_regs k_call k_prog]. destruct C as [(q & v' & I & E & Er)|[Hq Er]].
        - injection E as E1 E2 E3 E4. subst a i v' c. exists (set_line q v l), (lrun (set_line q v l) prog). split; [|right; exact Er].
          split; [apply upd_b; [exact B|apply r_choose_byte]|]. split.
          { apply (lines_set m _ q v l L I). apply chg_bits; assumption. }
          split; [exact P|]. split; [exact Logic.I|]. split; [constructor|]. right. split; [constructor|reflexivity].
        - inversion Hq as [|? ? Hq0 Hq1]; subst. cbn [quiet] in Hq0. exists l, (lrun l prog). split; [|left; auto].
          split; [apply upd_b; [exact B|apply r_choose_byte]|]. split.
          { rewrite (agree_lines m); [exact L|]. apply chg_agree; assumption. }
          split; [exact P|]. split; [destruct c as [|[] ?]; exact Logic.I|]. split; [exact Hi1|]. right. split; [exact Hq1|reflexivity]. }
      destruct h as [w|].
      * apply ST. exact Hh.
      * destruct (one a).
        { apply (ST (m a)). intros; reflexivity. }
        exists l, rest. split; [|left; auto]. cbn [k_regs k_call k_prog]. repeat (split; [assumption|]).
        split; [cbn [okhold]; intros; reflexivity|]. split; [constructor; assumption|]. exact C.
    + inversion Hi as [|? ? Hi0 Hi1]; subst. destruct C as [(q & v' & _ & E & _)|[Hq Er]]; [discriminate|].
      inversion Hq as [|? ? Hq0 Hq1]; subst. cbn [quiet] in Hq0. exists l, (lrun l prog). split; [|left; auto]. cbn [k_regs k_call k_prog].
      split; [apply upd_b; [exact B|exact Hi0]|]. split.
      { rewrite (agree_lines m); [exact L|]. intros b j Qb. unfold upd. destruct (Z.eqb_spec b a) as [->|]; [|reflexivity].
        exfalso. apply (Hq0 j); [apply (Q8 _ _ Qb)|exact Qb]. }
      split; [exact P|]. split; [destruct c as [|[] ?]; exact Logic.I|]. split; [exact Hi1|]. right. split; [exact Hq1|reflexivity].
    + inversion Hi as [|? ? Hi0 Hi1]; subst. destruct C as [(q & v' & _ & E & _)|[Hq Er]]; [discriminate|].
      inversion Hq as [|? ? Hq0 Hq1]; subst. exists l, (lrun l prog). split; [|left; auto]. cbn [k_regs k_call k_prog].
      repeat (split; [assumption|]). destruct (Z.land (m (a_dir p)) (2 ^ pin) =? 0).
      * split; [destruct c as [|[] ?]; exact Logic.I|]. split; [exact Hi1|]. right. split; [exact Hq1|reflexivity].
      * split; [exact Logic.I|]. split; [constructor|]. right. split; [constructor|reflexivity].
  - subst rest. destruct prog as [|o prog].
    + exists l, []. split; [|left; auto]. cbn [k_regs k_call k_prog]. repeat (split; [assumption|]). reflexivity.
    + inversion P as [|? ? O P']; subst. exists l, (lrun l (o :: prog)). split; [|left; auto]. cbn [k_regs k_call k_prog].
      split; [exact B|]. split; [exact L|]. split; [exact P'|].
      split; [destruct (fst (code o)) as [|[] ?]; exact Logic.I|]. split; [apply code_ok; apply okop_rop; exact O|].
      destruct O as [q v I|o' O].
      * left. exists q, v. split; [exact I|]. split; [reflexivity|]. cbn [lrun]. rewrite own_pin by exact I. reflexivity.
      * right. split; [apply other_quiet; apply O|]. cbn [lrun]. rewrite (own_other o' (proj2 O)). reflexivity.
Qed.
Lemma minv_isr : forall one l rest k os, minv l rest k -> Forall (other_ok x) os ->
  minv l rest (kstep one k (KIsr os)) /\ map (al_lines x) (r_moments (k_regs k) os) = map Some (map (fun _ => l) os).
Proof.
  intros one l rest k os (B & L & P & C) F. destruct (others_run os (k_regs k) B F) as (B1 & A1 & A2). split.
  - unfold minv. cbn [kstep k_regs k_call k_prog]. split; [exact B1|]. split; [rewrite (agree_lines _ _ A1); exact L|]. split; [exact P|].
    destruct (k_call k) as [[[c h] an]|]; [|exact C]. destruct C as (Hh & C). split; [|exact C].
    unfold okhold in *. destruct c as [|[a i v| |] c]; try exact Logic.I. destruct h as [w|]; [|exact Logic.I]. intros j Qa. rewrite (A1 a j Qa). apply Hh. exact Qa.
  - clear P C F B1 A1.
    assert (G : forall t, Forall (fun m' => agree (k_regs k) m') t -> map (al_lines x) t = map Some (map (fun _ => l) t)).
    { induction t as [|y t IH]; intros H; [reflexivity|]. inversion H; subst. cbn [map]. rewrite IH by assumption. rewrite (agree_lines _ _ H2), L. reflexivity. }
    assert (N : forall os m, length (r_moments m os) = length os) by (induction os0 as [|? ? IH]; intros; [reflexivity|]; cbn [r_moments length]; rewrite IH; reflexivity).
    assert (Z : forall (t : list regs) (u : list rop), length t = length u -> map (fun _ : regs => l) t = map (fun _ => l) u).
    { induction t as [|y t IH]; intros [|z u] H; try discriminate; [reflexivity|]. cbn [map]. f_equal. apply IH. injection H; auto. }
    rewrite <- (Z (r_moments (k_regs k) os) os (N os (k_regs k))). apply G. exact A2.
Qed.
Lemma main_run : forall one evs l rest k, minv l rest k -> Forall (other_ok x) (handled evs) ->
  exists ls ps rest' l', map (al_lines x) (k_moments one k evs) = map Some ls /\ rest = ps ++ rest' /\ stut l ls ps /\ minv l' rest' (krun one k evs).
Proof.
  intros one. induction evs as [|e evs IH]; intros l rest k Hm F.
  - exists [], [], rest, l. split; [reflexivity|]. split; [reflexivity|]. split; [constructor|exact Hm].
  - destruct e as [|os]; cbn [handled k_moments krun] in *.
    + destruct (minv_step one l rest k Hm) as (l1 & rest1 & M1 & C). destruct (IH l1 rest1 _ M1 F) as (ls & ps & rest2 & l2 & E & Er & S & M2).
      exists (l1 :: ls). rewrite map_app, E. cbn [map app]. rewrite (proj1 (proj2 M1)). destruct C as [[-> ->]|C].
      * exists ps, rest2, l2. split; [reflexivity|]. split; [exact Er|]. split; [constructor; exact S|exact M2].
      * exists (l1 :: ps), rest2, l2. split; [reflexivity|]. split; [rewrite C, Er; reflexivity|]. split; [constructor; exact S|exact M2].
    + apply Forall_app in F. destruct F as [F1 F2]. destruct (minv_isr one l rest k os Hm F1) as [M1 E1].
      destruct (IH l rest _ M1 F2) as (ls & ps & rest2 & l2 & E & Er & S & M2).
      exists (map (fun _ => l) os ++ ls), ps, rest2, l2. rewrite !map_app, E1, E. split; [reflexivity|]. split; [exact Er|]. split; [|exact M2].
      clear - S. induction os as [|o os IH]; [exact S|]. cbn [map app]. constructor. exact IH.
Qed.
Lemma al_main_l : forall one m cs evs l, bytes m -> al_lines x m = Some l -> Forall (acall_ok x) cs -> Forall (other_ok x) (handled evs) ->
  let k := krun one (k_init m (al_prog x cs)) evs in
  exists ls ps rest, map (al_lines x) (k_moments one (k_init m (al_prog x cs)) evs) = map Some ls /\
    lingers l ls ps /\ par_run l (al_ops cs) = ps ++ rest /\ (k_call k = None -> k_prog k = [] -> rest = []).
Proof.
  intros one m cs evs l B L F Fh k. 
  assert (Hm : minv l (lrun l (al_prog x cs)) (k_init m (al_prog x cs))).
  { split; [exact B|]. split; [exact L|]. split; [apply prog_okop; exact F|]. reflexivity. }
  destruct (main_run one evs l _ _ Hm Fh) as (ls & ps & rest & l' & E & Er & S & M). exists ls, ps, rest.
  split; [exact E|]. split; [apply stut_lingers; exact S|]. split; [rewrite <- lrun_prog by exact F; exact Er|].
  intros K1 K2. fold k in M. destruct M as (_ & _ & _ & M). rewrite K1, K2 in M. exact M.
Qed.

(** ** A display of the handlers *)
Definition high (m : regs) : Prop := (forall q, In q (al_pins x) -> Z.testbit (m (a_dir (fst q))) (snd q) = true) /\
  Z.testbit (m (a_out (fst (x_en x)))) (snd (x_en x)) = true.
Definition high_at (a w : Z) : Prop := (forall q, In q (al_pins x) -> a = a_dir (fst q) -> Z.testbit w (snd q) = true) /\
  (a = a_out (fst (x_en x)) -> Z.testbit w (snd (x_en x)) = true).
Lemma high_lines : forall m, high m -> exists l, al_lines x m = Some l /\ en l = true.
Proof. intros m [D E]. eexists. split; [apply lines_some; split; [exact D|reflexivity]|exact E]. Qed.
Lemma lines_high : forall m l, al_lines x m = Some l -> en l = true -> high m.
Proof. intros m l L E. apply lines_some in L. destruct L as [D ->]. split; [exact D|exact E]. Qed.
Lemma high_upd : forall m a w, high m -> high_at a w -> high (upd m a w).
Proof.
  intros m a w [D E] [Hd He]. unfold high, upd. split.
  - intros q I. destruct (Z.eqb_spec (a_dir (fst q)) a) as [<-|]; [apply Hd; auto|apply D; exact I].
  - destruct (Z.eqb_spec (a_out (fst (x_en x))) a) as [<-|]; [apply He; reflexivity|exact E].
Qed.
Lemma high_self : forall m a, high m -> high_at a (m a).
Proof. intros m a [D E]. split; [intros q I ->; apply D; exact I|intros ->; exact E]. Qed.
Lemma high_choose : forall a w i v, 0 <= i < 8 -> ~ Q a i -> high_at a w -> high_at a (r_choose w i v).
Proof.
  intros a w i v Hi N [Hd He]. split.
  - intros q I ->. rewrite r_choose_bits; [|lia|apply pin8; exact I]. destruct (Z.eqb_spec (snd q) i) as [<-|]; [|apply Hd; auto]. exfalso. apply N. exists q. auto.
  - intros ->. assert (I : In (x_en x) (al_pins x)) by pins. rewrite r_choose_bits; [|lia|apply pin8; exact I].
    destruct (Z.eqb_spec (snd (x_en x)) i) as [<-|]; [|apply He; auto]. exfalso. apply N. exists (x_en x). auto.
Qed.
Lemma high_put : forall a w, (forall i, 0 <= i < 8 -> ~ Q a i) -> high_at a w.
Proof.
  intros a w N. split.
  - intros q I ->. exfalso. apply (N (snd q)); [apply pin8; exact I|]. exists q. auto.
  - intros ->. assert (I : In (x_en x) (al_pins x)) by pins. exfalso. apply (N (snd (x_en x))); [apply pin8; exact I|]. exists (x_en x). auto.
Qed.
Definition yinv (k : kst) : Prop :=
  bytes (k_regs k) /\ high (k_regs k) /\ Forall (other_ok x) (k_prog k) /\
  match k_call k with
  | None => True
  | Some (c, h, _) => Forall iok c /\ Forall quiet c /\ match c, h with Chg a _ _ :: _, Some w => high_at a w | _, _ => True end
  end.
Lemma yinv_step : forall one k, yinv k -> yinv (kstep one k KStep).
Proof.
  intros one [m call prog ans] (B & H & P & C). unfold yinv in *. cbn [k_regs k_call k_prog k_ans kstep] in *.
  destruct call as [[[c h] an]|].
  - destruct C as (Hi & Hq & Hh). destruct c as [|[a i v|a w|p pin] c]; cbn [kexec].
    + cbn [k_regs k_call k_prog]. auto.
    + inversion Hi as [|? ? Hi0 Hi1]; subst. inversion Hq as [|? ? Hq0 Hq1]; subst. cbn [iok quiet] in *.
      assert (ST : forall w, high_at a w -> bytes (upd m a (r_choose w i v)) /\ high (upd m a (r_choose w i v))).
      { intros w W. split; [apply upd_b; [exact B|apply r_choose_byte]|]. apply high_upd; [exact H|]. apply high_choose; assumption. }
      assert (NH : match c with Chg _ _ _ :: _ => True | _ => True end) by (destruct c as [|[] ?]; exact Logic.I).
      destruct h as [w|]; [|destruct (one a)]; cbn [k_regs k_call k_prog].
      * destruct (ST w Hh) as [B1 H1]. repeat (split; [assumption|]). destruct c as [|[] ?]; exact Logic.I.
      * destruct (ST (m a) (high_self m a H)) as [B1 H1]. repeat (split; [assumption|]). destruct c as [|[] ?]; exact Logic.I.
      * repeat (split; [assumption|]). apply high_self. exact H.
    + inversion Hi as [|? ? Hi0 Hi1]; subst. inversion Hq as [|? ? Hq0 Hq1]; subst. cbn [k_regs k_call k_prog quiet] in *.
      split; [apply upd_b; assumption|]. split; [apply high_upd; [exact H|apply high_put; exact Hq0]|]. repeat (split; [assumption|]). destruct c as [|[] ?]; exact Logic.I.
    + inversion Hi as [|? ? Hi0 Hi1]; subst. inversion Hq as [|? ? Hq0 Hq1]; subst. cbn [k_regs k_call k_prog].
      repeat (split; [assumption|]). destruct (Z.land (m (a_dir p)) (2 ^ pin) =? 0).
      * repeat (split; [assumption|]). destruct c as [|[] ?]; exact Logic.I.
      * split; [constructor|]. split; [constructor|exact Logic.I].
  - destruct prog as [|o prog]; cbn [k_regs k_call k_prog].
    + auto.
    + inversion P as [|? ? O P']; subst. repeat (split; [assumption|]). split; [apply code_ok; apply O|]. split; [apply other_quiet; apply O|].
      destruct (fst (code o)) as [|[] ?]; exact Logic.I.
Qed.
Lemma full_rs : forall os r r', Forall full_call os -> all_nibs r os = all_nibs r' os.
Proof.
  intros [|[b|b|n] os] r r' F; try reflexivity. inversion F as [|? ? H _]; subst. destruct H.
Qed.
Lemma all_nibs_app : forall a b r, Forall full_call b -> all_nibs r (a ++ b) = all_nibs r a ++ all_nibs r b.
Proof.
  induction a as [|o a IH]; intros b r F; [reflexivity|]. cbn [app all_nibs]. rewrite IH by exact F. rewrite <- app_assoc. f_equal. f_equal. apply full_rs. exact F.
Qed.
Lemma ops_ok : forall cs, Forall (acall_ok x) cs -> Forall dop_ok (al_ops cs).
Proof. induction cs as [|[o|o] cs IH]; intros F; [constructor| |]; inversion F; subst; cbn [al_ops]; auto. Qed.
Lemma isr_run : forall lo one evs k l, yinv k -> al_lines x (k_regs k) = Some l -> en l = true -> Forall (aev_ok x) evs -> Forall full_call (aisr_ops evs) ->
  exists ls l', map (al_lines x) (k_moments one k (map (al_ev x) evs)) = map Some ls /\ delivers lo l ls (all_nibs (rs l) (aisr_ops evs)) l'.
Proof.
  intros lo one. induction evs as [|e evs IH]; intros k l Y L E F W.
  - exists [], l. split; [reflexivity|]. apply delivers_nil. exact E.
  - inversion F as [|? ? Fe F']; subst. destruct e as [|cs]; cbn [map al_ev k_moments aisr_ops] in *.
    + pose proof (yinv_step one k Y) as Y1. destruct (high_lines _ (proj1 (proj2 Y1))) as (l1 & L1 & E1).
      destruct (IH _ l1 Y1 L1 E1 F' W) as (ls & l' & M & D). exists (l1 :: ls), l'. rewrite map_app, M. cbn [map app]. rewrite L1. split; [reflexivity|].
      change (l1 :: ls) with ([l1] ++ ls). rewrite (full_rs _ (rs l) (rs l1) W). eapply (delivers_app lo l _ []); [apply delivers_high; exact E1|exact D].
    + apply Forall_app in W. destruct W as [W1 W2]. destruct Y as (B & H & P & C).
      destruct (handler_run (al_prog x cs) (k_regs k) l B (prog_okop cs Fe) L) as (ls1 & M1 & S1 & B1 & L1).
      rewrite (lrun_prog cs l Fe) in S1. destruct (par_run_d lo (al_ops cs) l E (ops_ok cs Fe)) as (l1 & D1).
      pose proof (delivers_stut lo _ _ _ _ _ S1 D1) as D1'. pose proof D1' as (E1 & _ & La & _). rewrite La in L1.
      assert (Y1 : yinv (kstep one k (KIsr (al_prog x cs)))).
      { split; [exact B1|]. split; [exact (lines_high _ _ L1 E1)|]. split; [exact P|exact C]. }
      destruct (IH _ l1 Y1 L1 E1 F' W2) as (ls & l' & M & D). exists (ls1 ++ ls), l'. rewrite !map_app, M1, M. split; [reflexivity|].
      rewrite all_nibs_app by exact W2. rewrite (full_rs _ (rs l) (rs l1) W2). eapply delivers_app; eassumption.
Qed.
Lemma al_isr_l : forall lo one m prog evs l, bytes m -> al_lines x m = Some l -> en l = true -> Forall (other_ok x) prog ->
  Forall (aev_ok x) evs -> Forall full_call (aisr_ops evs) ->
  exists ls l', map (al_lines x) (k_moments one (k_init m prog) (map (al_ev x) evs)) = map Some ls /\
    delivers lo l ls (all_nibs (rs l) (aisr_ops evs)) l'.
Proof.
  intros lo one m prog evs l B L E P F W. apply isr_run; try assumption.
  split; [exact B|]. split; [exact (lines_high _ _ L E)|]. split; [exact P|exact Logic.I].
Qed.
End X.
