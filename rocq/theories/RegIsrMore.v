Require Import ZArith List Bool Lia ZifyBool.
Import ListNotations.
From Verif Require Import Base BaseFacts BitModel BitProofs AvrModel AvrSpec AvrProofs RegIsrModel RegIsrSpec RegIsrProofs.
Open Scope Z_scope.
Local Ltac Zify.zify_post_hook ::= idtac.

(** ** The bits a call changes *)
Definition marks (o : rop) (x : instr) : Prop :=
  match x with Chg a i _ => names o a i | Put a _ => forall i, 0 <= i < 8 -> names o a i | IfIn _ _ => True end.
Lemma names_const : forall o a i, fst (bstep (fun _ _ => false) o) a i = fst (bstep (fun _ _ => true) o) a i -> names o a i.
Proof.
  intros o a i E. destruct (fst (bstep (fun _ _ => false) o) a i) eqn:F.
  - exists true, (fun _ _ => false). split; [exact F|discriminate].
  - exists false, (fun _ _ => true). split; [symmetry; exact E|discriminate].
Qed.
Lemma code_marks : forall o, Forall (marks o) (fst (code o)).
Proof.
  intros o. destruct o; cbn [code fst]; unfold set_code, power_code;
    try (destruct v; repeat (apply Forall_cons; [cbn [marks]; intros; apply names_const; cbn [bstep fst]; unfold set1, setall; rewrite ?Z.eqb_refl; reflexivity|]); apply Forall_nil).
  - repeat (apply Forall_cons; [cbn [marks]; intros; apply names_const; cbn [bstep fst]; unfold set1, setall; rewrite ?Z.eqb_refl; reflexivity|]); apply Forall_nil.
  - apply Forall_cons; [exact Logic.I|]. apply Forall_cons; [|apply Forall_nil]. cbn [marks]. exists true, (fun _ _ => false).
    cbn [bstep fst]. unfold set1. rewrite !Z.eqb_refl. split; [reflexivity|discriminate].
  - apply Forall_cons; [|apply Forall_nil]. cbn [marks]. apply names_const. cbn [bstep fst]. unfold set1. rewrite !Z.eqb_refl. reflexivity.
  - destruct (flags =? 0) eqn:Ef.
    + apply Forall_cons; [|apply Forall_nil]. cbn [marks]. apply names_const. cbn [bstep]. rewrite Ef. cbn [fst]. unfold set1. rewrite !Z.eqb_refl. reflexivity.
    + apply Forall_cons; [|destruct (p <? 3) eqn:E3; [apply Forall_cons; [|apply Forall_nil]|apply Forall_nil]];
        cbn [marks]; intros; apply names_const; cbn [bstep]; rewrite Ef; cbn [fst]; unfold set1, setall; try rewrite E3; try destruct (p <? 3); rewrite ?Z.eqb_refl; try reflexivity.
  - destruct (get_mode c) eqn:Em; cbn [fst app]; try apply Forall_nil.
    all: assert (D : (c_div c =? 8) || (c_div c =? 16) = true) by
      (unfold get_mode in Em; destruct (c_div c =? 16); [apply orb_true_r|]; destruct (c_div c =? 8); [reflexivity|]; destruct (c_div c =? 2); destruct (c_div c =? 0); discriminate Em).
    all: repeat (apply Forall_cons; [cbn [marks]; intros; apply names_const; cbn [bstep]; rewrite D; cbn [fst]; unfold set1, setall; rewrite ?Z.eqb_refl; cbn [andb];
      repeat match goal with |- context [if ?c then _ else _] => destruct c end; reflexivity|]); apply Forall_nil.
  - repeat (apply Forall_cons; [cbn [marks app]; intros; apply names_const; cbn [bstep fst]; unfold set1, setall; rewrite ?Z.eqb_refl; cbn [andb];
      repeat match goal with |- context [if ?c then _ else _] => destruct c eqn:? end; first [reflexivity|discriminate]|]); apply Forall_nil.
Qed.

(** ** A handler's view *)
Lemma bstep_local : forall o s s' a i, s a i = s' a i ->
  (forall p pin e, o = Pullup p pin e -> s (a_dir p) pin = s' (a_dir p) pin) -> fst (bstep s o) a i = fst (bstep s' o) a i.
Proof.
  intros o s s' a i E R. destruct o; cbn [bstep fst]; unfold set1, setall; try (destruct ((a =? _) && (i =? _)); [reflexivity|exact E]).
  - destruct (a =? a_dir p); [reflexivity|exact E].
  - rewrite (R p pin enable eq_refl). destruct (s' (a_dir p) pin); cbn [fst]; [exact E|]. destruct ((a =? _) && (i =? _)); [reflexivity|exact E].
  - destruct (flags =? 0); cbn [fst]; [destruct ((a =? _) && (i =? _)); [reflexivity|exact E]|].
    destruct (p <? 3); [destruct (a =? a_pcmsk p); [reflexivity|]|]; destruct ((a =? _) && (i =? _)); try reflexivity; exact E.
  - destruct ((c_div c =? 8) || (c_div c =? 16)); cbn [fst]; [|exact E].
    repeat match goal with |- context [if ?c then _ else _] => destruct c end; try reflexivity; exact E.
  - destruct ((a =? a_prr) && (i =? prusart id)); [reflexivity|]. destruct (Z.eqb_spec a (a_ucsrb id)) as [->|]; [|exact E].
    destruct (i <? 3); [exact E|reflexivity].
Qed.
Lemma brun_local : forall os s s' (P : Z -> Z -> Prop), (forall a i, P a i -> s a i = s' a i) ->
  (forall p pin e, In (Pullup p pin e) os -> P (a_dir p) pin) -> forall a i, P a i -> fst (brun s os) a i = fst (brun s' os) a i.
Proof.
  induction os as [|o os IH]; intros s s' P E R a i Pa; [apply E; exact Pa|].
  rewrite (proj1 (brun_cons s o os)), (proj1 (brun_cons s' o os)). apply (IH _ _ P); [|intros p pin e In'; apply (R p pin e); right; exact In'|exact Pa].
  intros a' i' Pa'. apply bstep_local; [apply E; exact Pa'|]. intros p pin e ->. apply E. apply (R p pin e). left. reflexivity.
Qed.
Lemma untouched : forall m os a, bytes m -> Forall rop_ok os -> (forall o, In o os -> ~ touches o a) -> fst (rrun m os) a = m a.
Proof.
  intros m os a B F N. pose proof (rrun_bits m os B F a) as [Ba T]. apply byte_ext; [exact Ba|apply B|]. intros i Hi. rewrite (T i Hi).
  destruct (brun_gives os (bits_of m) a i) as [E|(o & In' & G)]; [rewrite E; reflexivity|].
  exfalso. apply (N o In'). exists i. split; [exact Hi|]. exists (fst (brun (bits_of m) os) a i). exact G.
Qed.
Lemma no_asks : forall o p pin, rop_ok o -> (exists e, o = Pullup p pin e) -> 0 <= pin < 8.
Proof. intros o p pin O (e & ->). exact O. Qed.

Section Run.
Variable one : Z -> bool.
Variable prog : list rop.
Hypothesis Fp : Forall rop_ok prog.
Definition mine (a i : Z) : Prop := 0 <= i < 8 /\ forall o, In o prog -> ~ names o a i.
Definition hinv (s : rbits) (k : kst) : Prop :=
  bytes (k_regs k) /\ (forall a i, mine a i -> Z.testbit (k_regs k a) i = s a i) /\ (forall o, In o (k_prog k) -> In o prog) /\
  match k_call k with
  | None => True
  | Some (l, x, _) => (exists o, In o prog /\ Forall (marks o) l) /\ Forall iok l /\
      match x with None => True | Some y => match l with Chg a _ _ :: _ => y = k_regs k a | _ => False end end
  end.
Lemma upd_bytes : forall m a x, bytes m -> byte x -> bytes (upd m a x).
Proof. intros m a x B Bx b. unfold upd. destruct (b =? a); [exact Bx|apply B]. Qed.
Lemma hstep_inv : forall s k, hinv s k -> hinv s (kstep one k KStep).
Proof.
  intros s [m c p ans] (B & E & Ip & C). cbn [k_regs k_call k_prog k_ans] in *. cbn [kstep k_call k_regs k_prog k_ans].
  destruct c as [[[l x] h]|].
  - destruct C as ((o & Io & Mk) & Fl & X). destruct l as [|[a i v|a y|q pin] l]; cbn [kexec].
    + repeat (split; [assumption|]). exact Logic.I.
    + inversion Mk as [|? ? Mi Mk']; subst. inversion Fl as [|? ? Oi Fl']; subst. cbn [marks iok] in Mi, Oi.
      assert (Do : hinv s (mkK (upd m a (r_choose (m a) i v)) (Some (l, None, h)) p ans)).
      { split; [apply upd_bytes; [exact B|apply r_choose_byte]|]. cbn [k_regs k_call k_prog k_ans]. split.
        - intros a' i' Pm. unfold upd. destruct (Z.eqb_spec a' a) as [->|]; [|apply E; exact Pm].
          destruct Pm as [Hi' Nm]. rewrite r_choose_bits by lia. destruct (Z.eqb_spec i' i) as [->|]; [exfalso; apply (Nm o Io); exact Mi|].
          apply E. split; assumption.
        - split; [exact Ip|]. split; [exists o; split; assumption|]. split; [exact Fl'|exact Logic.I]. }
      destruct x as [x|]; [subst x; exact Do|]. destruct (one a); [exact Do|].
      split; [exact B|]. split; [exact E|]. split; [exact Ip|]. cbn [k_call]. split; [exists o; split; assumption|]. split; [exact Fl|reflexivity].
    + inversion Mk as [|? ? Mi Mk']; subst. inversion Fl as [|? ? Oi Fl']; subst. cbn [marks iok] in Mi, Oi.
      split; [apply upd_bytes; [exact B|exact Oi]|]. cbn [k_regs k_call k_prog k_ans]. split.
      * intros a' i' Pm. unfold upd. destruct (Z.eqb_spec a' a) as [->|]; [|apply E; exact Pm].
        destruct Pm as [Hi' Nm]. exfalso. apply (Nm o Io). apply Mi. exact Hi'.
      * split; [exact Ip|]. split; [exists o; split; assumption|]. split; [exact Fl'|exact Logic.I].
    + inversion Mk as [|? ? Mi Mk']; subst. inversion Fl as [|? ? Oi Fl']; subst.
      split; [exact B|]. split; [exact E|]. split; [exact Ip|]. cbn [k_call]. destruct (_ =? 0).
      * split; [exists o; split; assumption|]. split; [exact Fl'|exact Logic.I].
      * split; [exists o; split; [exact Io|apply Forall_nil]|]. split; [apply Forall_nil|exact Logic.I].
  - destruct p as [|o p]; [split; [exact B|split; [exact E|split; [exact Ip|exact Logic.I]]]|].
    assert (Io : In o prog) by (apply Ip; left; reflexivity).
    split; [exact B|]. split; [exact E|]. split; [intros o' In'; apply Ip; right; exact In'|]. cbn [k_call].
    split; [exists o; split; [exact Io|apply code_marks]|]. split; [|exact Logic.I]. apply code_ok. rewrite Forall_forall in Fp. apply Fp. exact Io.
Qed.
Lemma hisr_inv : forall s k os, hinv s k -> Forall rop_ok os -> unasked os prog ->
  (forall a o, held k = Some a -> In o os -> ~ touches o a) -> hinv (fst (brun s os)) (kstep one k (KIsr os)).
Proof.
  intros s [m c p ans] os (B & E & Ip & C) F U N. cbn [k_regs k_call k_prog k_ans] in *. pose proof (rrun_bits m os B F) as R.
  split; [intros a; apply R|]. cbn [kstep k_regs k_call k_prog k_ans]. split.
  - intros a i Pm. rewrite (proj2 (R a) i (proj1 Pm)). apply (brun_local os _ _ mine); [exact E| |exact Pm].
    intros q pin e In'. split; [rewrite Forall_forall in F; apply (F _ In')|]. intros o Io. apply (U q pin e o In' Io).
  - split; [exact Ip|]. destruct c as [[[l x] h]|]; [|exact Logic.I]. destruct C as (Mk & Fl & X). split; [exact Mk|]. split; [exact Fl|].
    destruct x as [x|]; [|exact Logic.I]. destruct l as [|[a i v|a y|q pin] l]; try exact X. subst x. symmetry. apply untouched; [exact B|exact F|].
    intros o In'. apply (N a o); [reflexivity|exact In'].
Qed.
Lemma hrun_inv : forall evs s k, hinv s k -> Forall rop_ok (handled evs) -> unasked (handled evs) prog -> polite one k evs ->
  hinv (fst (brun s (handled evs))) (krun one k evs).
Proof.
  induction evs as [|e evs IH]; intros s k I F U P; [exact I|]. cbn [krun handled polite] in *. destruct P as [P0 P]. destruct e as [|os].
  - apply IH; try assumption. apply hstep_inv. exact I.
  - apply Forall_app in F. destruct F as [F1 F2]. rewrite (proj1 (brun_app os (handled evs) s)). apply IH; try assumption.
    + apply hisr_inv; try assumption. intros p pin e o In'. apply (U p pin e o). apply in_or_app. left. exact In'.
    + intros p pin e o In'. apply (U p pin e o). apply in_or_app. right. exact In'.
Qed.
Lemma reg_handlers_l : forall m s evs, same_regs m s -> Forall rop_ok (handled evs) -> unasked (handled evs) prog ->
  polite one (k_init m prog) evs -> forall a i, 0 <= i < 8 -> (forall o, In o prog -> ~ names o a i) ->
  Z.testbit (k_regs (krun one (k_init m prog) evs) a) i = fst (brun s (handled evs)) a i.
Proof.
  intros m s evs S0 F U P a i Hi N. apply (hrun_inv evs s (k_init m prog)); try assumption; [|split; assumption].
  split; [apply (same_bytes m s S0)|]. split; [intros a' i' [Hi' _]; apply S0; exact Hi'|]. split; [auto|exact Logic.I].
Qed.

(** ** When nothing can be lost *)
Definition owned (k : kst) : Prop := (forall o, In o (k_prog k) -> In o prog) /\
  match k_call k with
  | None => True
  | Some (l, x, _) => (exists o, In o prog /\ Forall (marks o) l) /\ Forall iok l /\ match x with None => True | Some _ => match l with Chg a _ _ :: _ => one a = false | _ => False end end
  end.
Lemma owned_step : forall k e, owned k -> owned (kstep one k e).
Proof.
  intros [m c p ans] e (Ip & C). cbn [k_call k_prog] in *. destruct e as [|os]; [|split; assumption]. cbn [kstep k_call k_regs k_prog k_ans].
  destruct c as [[[l x] h]|].
  - destruct C as ((o & Io & Mk) & Fl & X). destruct l as [|[a i v|a y|q pin] l]; cbn [kexec].
    + split; [exact Ip|exact Logic.I].
    + inversion Mk as [|? ? Mi Mk']; subst. inversion Fl as [|? ? Oi Fl']; subst.
      destruct x as [x|]; [|destruct (one a) eqn:Eo]; (split; [exact Ip|]); cbn [k_call]; (split; [exists o; split; assumption|]); split; assumption || exact Logic.I.
    + inversion Mk as [|? ? Mi Mk']; subst. inversion Fl as [|? ? Oi Fl']; subst.
      split; [exact Ip|]. cbn [k_call]. split; [exists o; split; assumption|]. split; [exact Fl'|exact Logic.I].
    + inversion Mk as [|? ? Mi Mk']; subst. inversion Fl as [|? ? Oi Fl']; subst.
      split; [exact Ip|]. cbn [k_call]. destruct (_ =? 0); [split; [exists o; split; assumption|split; [exact Fl'|exact Logic.I]]|].
      split; [exists o; split; [exact Io|apply Forall_nil]|]. split; [apply Forall_nil|exact Logic.I].
  - destruct p as [|o p]; [split; assumption|]. assert (Io : In o prog) by (apply Ip; left; reflexivity).
    split; [intros o' In'; apply Ip; right; exact In'|]. cbn [k_call]. split; [exists o; split; [exact Io|apply code_marks]|]. split; [|exact Logic.I].
    apply code_ok. rewrite Forall_forall in Fp. apply Fp. exact Io.
Qed.
Lemma apart_polite : forall evs hs k, owned k -> (forall o, In o (handled evs) -> In o hs) -> apart_regs one prog hs -> polite one k evs.
Proof.
  induction evs as [|e evs IH]; intros hs k O In' A; [exact Logic.I|]. cbn [polite]. split.
  - destruct e as [|os]; [exact Logic.I|]. intros a h Eh Ih T. cbn [handled] in In'. destruct O as [_ C]. unfold held in Eh.
    destruct (k_call k) as [[[l x] b]|]; [|discriminate Eh]. destruct l as [|[a' i v|a' y|q pin] l]; try discriminate Eh.
    destruct x as [x|]; [|discriminate Eh]. injection Eh as ->. destruct C as ((o & Io & Mk) & Fl & X).
    inversion Mk as [|? ? Mi Mk']; subst. inversion Fl as [|? ? Oi Fl']; subst. cbn [marks iok] in Mi, Oi.
    rewrite (A a o h Io) in X; [discriminate X|apply In'; apply in_or_app; left; exact Ih| |exact T]. exists i. split; assumption.
  - apply (IH hs); [apply owned_step; exact O| |exact A]. intros o Io. apply In'. destruct e; cbn [handled]; [exact Io|apply in_or_app; right; exact Io].
Qed.
Lemma reg_apart_l : forall m evs, apart_regs one prog (handled evs) -> polite one (k_init m prog) evs.
Proof.
  intros m evs A. apply (apart_polite evs (handled evs)); [|auto|exact A]. split; [auto|exact Logic.I].
Qed.
End Run.

(** ** Every program ends *)
Definition cwork (c : option (list instr * option Z * bool)) : nat :=
  match c with
  | None => O
  | Some (l, x, _) => (1 + 2 * length l - match x with Some _ => 1 | None => 0 end)%nat
  end.
Definition kwork (k : kst) : nat := (cwork (k_call k) + fold_right (fun o n => 2 + 2 * length (fst (code o)) + n) 0 (k_prog k))%nat.
Lemma kstep_work : forall one k, (match k_call k with Some ([], Some _, _) => False | _ => True end) ->
  (kwork (kstep one k KStep) <= kwork k - 1)%nat /\
  match k_call (kstep one k KStep) with Some ([], Some _, _) => False | _ => True end.
Proof.
  intros one [m c p ans] W. unfold kwork. cbn [kstep k_call k_regs k_prog k_ans] in *.
  destruct c as [[[l x] h]|].
  - destruct l as [|[a i v|a y|q pin] l]; cbn [kexec].
    + destruct x; [destruct W|]. cbn [k_call k_prog cwork length]. split; [lia|exact Logic.I].
    + destruct x as [x|]; [|destruct (one a)]; cbn [k_call k_prog cwork length]; (split; [lia|]); destruct l; exact Logic.I.
    + cbn [k_call k_prog cwork length]. split; [destruct x; lia|]. destruct l; exact Logic.I.
    + cbn [k_call k_prog cwork]. destruct (_ =? 0); cbn [cwork length]; (split; [destruct x; lia|]); try (destruct l); exact Logic.I.
  - destruct p as [|o p]; cbn [k_call k_prog cwork fold_right]; [split; [lia|exact Logic.I]|].
    split; [lia|]. destruct (fst (code o)); exact Logic.I.
Qed.
Lemma kwork_0 : forall k, kwork k = O -> (match k_call k with Some ([], Some _, _) => False | _ => True end) -> k_call k = None /\ k_prog k = [].
Proof.
  intros [m c p ans] E W. unfold kwork in E. cbn [k_call k_prog] in *. destruct c as [[[l x] h]|]; cbn [cwork] in E.
  - destruct l as [|y l]; [destruct x; [destruct W|cbn in E; lia]|]. cbn [length] in E. destruct x; lia.
  - destruct p as [|o p]; [split; reflexivity|cbn [fold_right] in E; lia].
Qed.
Lemma krun_work : forall one evs k, (match k_call k with Some ([], Some _, _) => False | _ => True end) -> (kwork k <= ksteps evs)%nat ->
  k_call (krun one k evs) = None /\ k_prog (krun one k evs) = [].
Proof.
  intros one. induction evs as [|e evs IH]; intros k W L; [apply kwork_0; [apply PeanoNat.Nat.le_0_r; exact L|exact W]|]. cbn [krun]. destruct e as [|os]; cbn [ksteps] in L.
  - destruct (kstep_work one k W) as [L1 W1]. apply IH; [exact W1|lia].
  - apply IH; [exact W|exact L].
Qed.
Lemma reg_done_l : forall prog, exists n, forall one m evs, (n <= ksteps evs)%nat ->
  let k := krun one (k_init m prog) evs in k_call k = None /\ k_prog k = [].
Proof. intros prog. exists (kwork (k_init (fun _ => 0) prog)). intros one m evs L. apply krun_work; [exact Logic.I|exact L]. Qed.

(** ** What is lost *)
Lemma reg_lost_l : forall one m a i v r h prog ans os, one a = false -> bytes m -> Forall rop_ok os -> 0 <= i < 8 ->
  let k := krun one (mkK m (Some (Chg a i v :: r, None, h)) prog ans) [KStep; KIsr os; KStep] in
  (forall j, 0 <= j < 8 -> Z.testbit (k_regs k a) j = if j =? i then v else Z.testbit (m a) j) /\
  (forall b, b <> a -> k_regs k b = fst (rrun m os) b) /\ k_call k = Some (r, None, h).
Proof.
  intros one m a i v r h prog ans os E B F Hi k.
  assert (Ek : k = mkK (upd (fst (rrun m os)) a (r_choose (m a) i v)) (Some (r, None, h)) prog ans).
  { unfold k. cbn [krun kstep k_call kexec k_regs k_prog k_ans]. rewrite E. cbn [kstep k_call kexec k_regs k_prog k_ans]. reflexivity. }
  rewrite Ek. cbn [k_regs k_call]. split; [|split; [|reflexivity]].
  - intros j Hj. rewrite upd_same. apply r_choose_bits; lia.
  - intros b N. unfold upd. destruct (Z.eqb_spec b a); [contradiction|reflexivity].
Qed.

(** ** Two pins of one port *)
Lemma writes_run : forall p pin os s, Forall (writes p pin) os -> fst (brun s os) (a_out p) pin = last_pin p pin os (s (a_out p) pin).
Proof.
  intros p pin. induction os as [|o os IH]; intros s F; [reflexivity|]. inversion F as [|? ? [v ->] F']; subst.
  rewrite (proj1 (brun_cons s _ os)). rewrite (IH _ F'). cbn [bstep fst last_pin]. unfold set1. rewrite !Z.eqb_refl. reflexivity.
Qed.
Lemma write_names : forall p pin v a i, names (PortWrite p pin v) a i -> a = a_out p /\ i = pin.
Proof.
  intros p pin v a i (w & s & E & N). cbn [bstep fst] in E. unfold set1 in E.
  destruct (Z.eqb_spec a (a_out p)); destruct (Z.eqb_spec i pin); cbn [andb] in E; try contradiction. split; assumption.
Qed.
Lemma writes_ok : forall p pin os, 0 <= pin < 8 -> Forall (writes p pin) os -> Forall rop_ok os.
Proof. intros p pin os Hp F. apply (Forall_impl rop_ok) with (2 := F). intros o [v ->]. exact Hp. Qed.
Lemma writes_unasked : forall p pin os l, Forall (writes p pin) os -> unasked os l.
Proof. intros p pin os l F q i e o In'. rewrite Forall_forall in F. destruct (F _ In') as [v E]. discriminate E. Qed.
Lemma writes_map : forall p pin vs, Forall (writes p pin) (map (PortWrite p pin) vs).
Proof. intros p pin vs. apply Forall_forall. intros o X. apply in_map_iff in X. destruct X as (v & <- & _). exists v. reflexivity. Qed.
Lemma other_pin : forall p pin pin' os a, pin <> pin' -> Forall (writes p pin) os -> forall o, In o os -> ~ names o a pin'.
Proof.
  intros p pin pin' os a N F o In' Nm. rewrite Forall_forall in F. destruct (F o In') as [v ->].
  destruct (write_names p pin v a pin' Nm) as [_ E]. congruence.
Qed.
Lemma reg_pins_l : forall one p pin pin', 0 <= pin < 8 -> 0 <= pin' < 8 -> pin <> pin' ->
  (one (a_out p) = true <->
   forall m vs evs, bytes m -> Forall (writes p pin') (handled evs) ->
     Z.testbit (k_regs (krun one (k_init m (map (PortWrite p pin) vs)) evs) (a_out p)) pin' =
     last_pin p pin' (handled evs) (Z.testbit (m (a_out p)) pin')).
Proof.
  intros one p pin pin' Hp Hp' N. split.
  - intros O m vs evs B F. set (prog := map (PortWrite p pin) vs).
    assert (Wp : Forall (writes p pin) prog) by apply writes_map.
    rewrite (reg_handlers_l one prog (writes_ok p pin prog Hp Wp) m (bits_of m) evs (same_bits m B) (writes_ok p pin' _ Hp' F)
               (writes_unasked p pin' _ _ F)); [apply (writes_run p pin' (handled evs) (bits_of m) F)| |exact Hp'|apply (other_pin p pin pin' prog (a_out p) N Wp)].
    apply reg_apart_l; [apply (writes_ok p pin prog Hp Wp)|]. intros a o h Io Ih (i & Hi & Ti) _.
    rewrite Forall_forall in Wp. destruct (Wp o Io) as [v ->]. destruct (write_names p pin v a i Ti) as [-> _]. exact O.
  - intros H. destruct (one (a_out p)) eqn:E; [reflexivity|]. exfalso.
    set (evs := [KStep; KStep; KIsr [PortWrite p pin' true]; KStep]).
    assert (B : bytes (fun _ => 0)) by (intros a; unfold byte; lia).
    assert (F : Forall (writes p pin') (handled evs)) by (apply Forall_cons; [exists true; reflexivity|apply Forall_nil]).
    specialize (H (fun _ => 0) [true] evs B F). unfold evs in H. cbn [handled app last_pin map] in H. rewrite !Z.eqb_refl in H. cbn [andb] in H.
    change (krun one (k_init (fun _ => 0) [PortWrite p pin true]) [KStep; KStep; KIsr [PortWrite p pin' true]; KStep])
      with (krun one (mkK (fun _ => 0) (Some ([Chg (a_out p) pin true], None, true)) [] []) [KStep; KIsr [PortWrite p pin' true]; KStep]) in H.
    destruct (reg_lost_l one (fun _ => 0) (a_out p) pin true [] true [] [] [PortWrite p pin' true] E B) as [L _].
    { apply (writes_ok p pin'); [exact Hp'|exact F]. }
    { exact Hp. }
    rewrite (L pin' Hp') in H. destruct (Z.eqb_spec pin' pin); [congruence|]. rewrite Z.testbit_0_l in H. discriminate H.
Qed.
Lemma reg_pin_main_l : forall one p pin pin' m vs evs, 0 <= pin < 8 -> 0 <= pin' < 8 -> pin <> pin' -> bytes m -> Forall (writes p pin') (handled evs) ->
  let k := krun one (k_init m (map (PortWrite p pin) vs)) evs in k_call k = None -> k_prog k = [] ->
  Z.testbit (k_regs k (a_out p)) pin = last vs (Z.testbit (m (a_out p)) pin).
Proof.
  intros one p pin pin' m vs evs Hp Hp' N B F k Ek Ep. set (prog := map (PortWrite p pin) vs).
  assert (Wp : Forall (writes p pin) prog) by apply writes_map.
  destruct (reg_values_l one m (bits_of m) prog evs (same_bits m B) (writes_ok p pin prog Hp Wp) (writes_ok p pin' _ Hp' F) (writes_unasked p pin prog _ Wp) Ek)
    as (dn & Ed & _ & _ & V). change (krun one (k_init m prog) evs) with k in Ed, V. assert (X : k_prog k = []) by exact Ep. rewrite X, app_nil_r in Ed. subst dn.
  destruct (V (a_out p) pin Hp) as [E|(o & In' & G)].
  - rewrite E, (writes_run p pin prog (bits_of m) Wp). unfold prog, bits_of. clear. generalize (Z.testbit (m (a_out p)) pin). induction vs as [|v vs IH]; intros d; [reflexivity|].
    cbn [map last_pin]. rewrite !Z.eqb_refl. cbn [andb]. rewrite IH. destruct vs as [|w vs]; [reflexivity|]. change (last (v :: w :: vs) d) with (last (w :: vs) d).
    clear. revert w. induction vs as [|x vs IH]; intros w; [reflexivity|]. apply (IH x).
  - exfalso. rewrite Forall_forall in F. destruct (F o In') as [v ->]. destruct (write_names p pin' v (a_out p) pin) as [_ E]; [eexists; exact G|congruence].
Qed.
(** ** Close *)
Lemma reg_close_l : forall one m id evs, id = 0 \/ id = 1 -> bytes m -> Forall rop_ok (handled evs) -> Forall (only_off id) (handled evs) ->
  let k := krun one (k_init m [Close id]) evs in k_call k = None -> k_prog k = [] ->
  hw_powered (k_regs k) id = false /\ hw_enables (k_regs k) id = [false; false; false; false; false].
Proof.
  intros one m id evs Hid B F O k Ek Ep.
  destruct (reg_values_l one m (bits_of m) [Close id] evs (same_bits m B)) as (dn & Ed & _ & _ & V); try assumption.
  { apply Forall_cons; [exact Logic.I|apply Forall_nil]. }
  { intros p pin e o [E|[]]. discriminate E. }
  fold k in Ed, V. assert (X : k_prog k = []) by exact Ep. rewrite X, app_nil_r in Ed. subst dn. cbn [brun bstep fst] in V. rewrite Forall_forall in O.
  assert (En : forall i, 3 <= i < 8 -> Z.testbit (k_regs k (a_ucsrb id)) i = false).
  { intros i Hi. destruct (V (a_ucsrb id) i) as [E|(o & In' & G)]; [lia| |].
    - rewrite E. unfold set1, setall. rewrite Z.eqb_refl. destruct (Z.eqb_spec (a_ucsrb id) a_prr) as [Y|_]; [unfold a_ucsrb, a_prr in Y; lia|].
      cbn [andb]. destruct (Z.ltb_spec i 3); [lia|reflexivity].
    - destruct (Z.testbit (k_regs k (a_ucsrb id)) i); [|reflexivity]. exfalso. apply (proj1 (O o In') i Hi G). }
  split.
  - unfold hw_powered. destruct (V a_prr (prusart id) (prusart8 id)) as [E|(o & In' & G)].
    + rewrite E. unfold set1. rewrite !Z.eqb_refl. reflexivity.
    + destruct (Z.testbit (k_regs k a_prr) (prusart id)); [reflexivity|]. exfalso. apply (proj2 (O o In') G).
  - unfold hw_enables. cbn [map]. rewrite !En by lia. reflexivity.
Qed.
