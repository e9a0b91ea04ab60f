Require Import ZArith List Bool Lia ZifyBool.
Import ListNotations.
From Verif Require Import Base BaseFacts BitModel BitProofs AvrModel AvrSpec AvrProofs RegIsrModel RegIsrSpec.
Open Scope Z_scope.
Local Ltac Zify.zify_post_hook ::= idtac.

(** ** A call alone *)
Fixpoint rcode (m : regs) (l : list instr) (h : bool) : regs * bool :=
  match l with
  | [] => (m, h)
  | Chg a i v :: r => rcode (upd m a (r_choose (m a) i v)) r h
  | Put a x :: r => rcode (upd m a x) r h
  | IfIn p pin :: r => if Z.land (m (a_dir p)) (2 ^ pin) =? 0 then rcode m r h else (m, false)
  end.
Definition iok (x : instr) : Prop :=
  match x with Chg _ i _ => 0 <= i < 8 | Put _ x => byte x | IfIn _ pin => 0 <= pin < 8 end.

Lemma rcode_app : forall l l' m h, (forall p pin, ~ In (IfIn p pin) l) -> rcode m (l ++ l') h = rcode (fst (rcode m l h)) l' h.
Proof.
  induction l as [|x l IH]; intros l' m h N; [reflexivity|].
  assert (N' : forall p pin, ~ In (IfIn p pin) l) by (intros p pin X; apply (N p pin); right; exact X).
  destruct x; cbn [app rcode]; try (apply IH; exact N'). exfalso. apply (N p pin). left. reflexivity.
Qed.
Lemma set_code_no : forall a i v p pin, ~ In (IfIn p pin) (set_code a i v).
Proof. intros a i [] p pin; cbn; intuition discriminate. Qed.
Lemma prusart8 : forall id, 0 <= prusart id < 8.
Proof. intros id. unfold prusart. destruct (id =? 0); lia. Qed.
Lemma get_small : forall c, 0 <= c_bits c <= 4 -> byte (get_ucsra c) /\ byte (get_ucsrb c) /\ byte (get_ucsrc c).
Proof.
  intros c B. destruct (config_l c B) as (Ea & Eb & Ec & _). rewrite Ea, Eb. unfold byte.
  destruct (c_div c =? 8); destruct (c_bits c =? 4); lia.
Qed.
Lemma code_ok : forall o, rop_ok o -> Forall iok (fst (code o)).
Proof.
  intros o O. pose proof prusart8 as P. destruct o; cbn [code fst rop_ok] in *; unfold set_code, power_code;
    try (repeat (apply Forall_cons; [cbn [iok]; first [exact O|apply P|lia]|]); apply Forall_nil);
    try (destruct v; repeat (apply Forall_cons; [cbn [iok]; lia|]); apply Forall_nil).
  - destruct O as [Op Of]. destruct (flags =? 0); [|destruct (p <? 3)]; repeat (apply Forall_cons; [cbn [iok]; first [exact Of|lia]|]); apply Forall_nil.
  - destruct O as [Ou Ob]. destruct (get_small c Ob) as (Ea & Eb & Ec).
    destruct (get_mode c); cbn [fst app]; repeat (apply Forall_cons; [cbn [iok]; first [apply P|apply u8_byte|assumption]|]); apply Forall_nil.
Qed.
Lemma same_point : forall m m' s, same_regs m s -> (forall a, m' a = m a) -> same_regs m' s.
Proof. intros m m' s H E a. rewrite (E a). apply H. Qed.
Lemma set_code_run : forall m a i v h b, fst (rcode m (set_code a i v) h) b = put_bit a i v m b.
Proof.
  intros m a i v h b. unfold set_code, put_bit, at_reg, r_put. destruct v; cbn [rcode fst r_choose]; unfold upd; destruct (b =? a) eqn:E; try reflexivity.
  rewrite Z.eqb_refl. reflexivity.
Qed.
Lemma same_set_code : forall m s a i v h, same_regs m s -> 0 <= i < 8 -> same_regs (fst (rcode m (set_code a i v) h)) (set1 s a i v).
Proof.
  intros m s a i v h H Hi. apply (same_point (put_bit a i v m)); [|intros b; apply set_code_run].
  apply same_set1; [exact H|apply r_put_byte|]. intros. apply r_put_bits; lia.
Qed.
Lemma same_chg : forall m s a i v, same_regs m s -> 0 <= i < 8 -> same_regs (upd m a (r_choose (m a) i v)) (set1 s a i v).
Proof.
  intros m s a i v H Hi. apply (same_set1 m s a i v (fun r => r_choose r i v)); [exact H|apply r_choose_byte|]. intros. apply r_choose_bits; lia.
Qed.
Lemma code_l : forall o m s, same_regs m s -> rop_ok o ->
  same_regs (fst (rcode m (fst (code o)) (snd (code o)))) (fst (bstep s o)) /\ snd (rcode m (fst (code o)) (snd (code o))) = snd (bstep s o).
Proof.
  intros o m s H O. destruct (rstep_l m s o H O) as [R E]. destruct o; cbn [code fst snd] in *; try (split; [exact R|exact E]);
    try (split; [apply (same_set_code m s _ _ _ true H); lia|unfold set_code; destruct v; reflexivity]).
  - cbn [rstep] in R, E. destruct (flags =? 0); [split; [exact R|exact E]|]. destruct (p <? 3); split; try exact R; exact E.
  - cbn [rstep] in R, E. destruct (get_mode c); cbn [fst snd] in *; split; assumption.
Qed.

(** ** Bits changed by handlers *)
Lemma bstep_gives : forall s o a i, fst (bstep s o) a i = s a i \/ gives o a i (fst (bstep s o) a i).
Proof.
  intros s o a i. destruct (Bool.bool_dec (s a i) (fst (bstep s o) a i)) as [E|N]; [left; auto|]. right. exists s. split; [reflexivity|exact N].
Qed.
Lemma brun_cons : forall s o r, fst (brun s (o :: r)) = fst (brun (fst (bstep s o)) r) /\ snd (brun s (o :: r)) = snd (bstep s o) :: snd (brun (fst (bstep s o)) r).
Proof. intros s o r. cbn [brun]. destruct (bstep s o) as [s1 h]. cbn [fst snd]. destruct (brun s1 r). split; reflexivity. Qed.
Lemma brun_app : forall l l' s, fst (brun s (l ++ l')) = fst (brun (fst (brun s l)) l') /\ snd (brun s (l ++ l')) = snd (brun s l) ++ snd (brun (fst (brun s l)) l').
Proof.
  induction l as [|o l IH]; intros l' s; [split; reflexivity|]. cbn [app].
  destruct (brun_cons s o (l ++ l')) as [E1 E2]. destruct (brun_cons s o l) as [F1 F2]. destruct (IH l' (fst (bstep s o))) as [G1 G2].
  rewrite E1, E2, F1, F2, G1, G2. split; reflexivity.
Qed.
Lemma brun_gives : forall os s a i, fst (brun s os) a i = s a i \/ exists o, In o os /\ gives o a i (fst (brun s os) a i).
Proof.
  induction os as [|o os IH]; intros s a i; [left; reflexivity|]. rewrite (proj1 (brun_cons s o os)).
  destruct (IH (fst (bstep s o)) a i) as [E|(o' & In' & G)].
  - rewrite E. destruct (bstep_gives s o a i) as [E'|G]; [left; exact E'|]. right. exists o. split; [left; reflexivity|exact G].
  - right. exists o'. split; [right; exact In'|exact G].
Qed.
Lemma rrun_bits : forall m os, bytes m -> Forall rop_ok os -> same_regs (fst (rrun m os)) (fst (brun (bits_of m) os)).
Proof. intros m os B F. apply rrun_l; [apply same_bits; exact B|exact F]. Qed.
Lemma byte_ext : forall x y, byte x -> byte y -> (forall i, 0 <= i < 8 -> Z.testbit x i = Z.testbit y i) -> x = y.
Proof.
  intros x y Bx By E. rewrite <- (u8_small x) by exact Bx. rewrite <- (u8_small y) by exact By. apply Z.bits_inj'. intros i Hi.
  destruct (Z.ltb_spec i 8) as [L|G]; [rewrite !u8_bits by lia; apply E; lia|].
  unfold u8. change 256 with (2 ^ 8). rewrite !Z.mod_pow2_bits_high by lia. reflexivity.
Qed.

Lemma code_asks : forall o p pin, In (IfIn p pin) (fst (code o)) -> exists e, o = Pullup p pin e.
Proof.
  intros o p pin X. destruct o; cbn [code fst] in X; unfold set_code, power_code in X; try (destruct v); cbn [In app] in X;
    try (exfalso; intuition discriminate).
  - destruct X as [E|[E|[]]]; [injection E as <- <-; exists enable; reflexivity|discriminate E].
  - exfalso. destruct (flags =? 0); [|destruct (p0 <? 3)]; cbn [In] in X; intuition discriminate.
  - exfalso. destruct (get_mode c); cbn [fst In app] in X; intuition discriminate.
Qed.
(** ** The bits in the middle of a call *)
Fixpoint bcode (s : rbits) (l : list instr) : rbits :=
  match l with
  | [] => s
  | Chg a i v :: r => bcode (set1 s a i v) r
  | Put a x :: r => bcode (setall s a (Z.testbit x)) r
  | IfIn _ _ :: r => bcode s r
  end.
Lemma bcode_app : forall l l' s, bcode s (l ++ l') = bcode (bcode s l) l'.
Proof. induction l as [|[a i v|a x|p pin] l IH]; intros l' s; [reflexivity|apply IH|apply IH|apply IH]. Qed.
(** [l] is what is left of the call, [M] the registers without handlers. *)
Definition midway (M : regs) (s : rbits) (o : rop) (l : list instr) : Prop :=
  exists l1 l2, fst (code o) = l1 ++ l2 /\ (l = l2 \/ l = []) /\ same_regs M (bcode s l1) /\
    forall p pin, In (IfIn p pin) l1 -> s (a_dir p) pin = false.
Lemma mid_chg : forall M s o a i v l, midway M s o (Chg a i v :: l) -> 0 <= i < 8 -> midway (upd M a (r_choose (M a) i v)) s o l.
Proof.
  intros M s o a i v l (l1 & l2 & E & [<-|X] & R & Q) Hi; [|discriminate X]. exists (l1 ++ [Chg a i v]), l. rewrite <- app_assoc.
  split; [exact E|]. split; [left; reflexivity|]. split; [rewrite bcode_app; apply same_chg; assumption|].
  intros q pin In'. apply in_app_or in In'. destruct In' as [In'|[In'|[]]]; [apply (Q q pin In')|discriminate In'].
Qed.
Lemma mid_put : forall M s o a x l, midway M s o (Put a x :: l) -> byte x -> midway (upd M a x) s o l.
Proof.
  intros M s o a x l (l1 & l2 & E & [<-|X] & R & Q) Hi; [|discriminate X]. exists (l1 ++ [Put a x]), l. rewrite <- app_assoc.
  split; [exact E|]. split; [left; reflexivity|]. split; [rewrite bcode_app; apply same_upd; [exact R|exact Hi|reflexivity]|].
  intros q pin In'. apply in_app_or in In'. destruct In' as [In'|[In'|[]]]; [apply (Q q pin In')|discriminate In'].
Qed.
Lemma mid_if : forall M s o p pin l, midway M s o (IfIn p pin :: l) -> 0 <= pin < 8 ->
  (Z.testbit (M (a_dir p)) pin = false -> midway M s o l) /\ midway M s o [].
Proof.
  intros M s o p pin l (l1 & l2 & E & [<-|X] & R & Q) Hp; [|discriminate X]. split.
  - intros T. destruct (code_asks o p pin) as (e & Eo); [rewrite E; apply in_or_app; right; left; reflexivity|].
    rewrite Eo in E. cbn [code fst] in E. destruct l1 as [|y l1]; [|destruct l1 as [|z l1]; [discriminate E|]; injection E as _ _ E; destruct l1; discriminate E].
    exists [IfIn p pin], l. rewrite Eo. split; [exact E|]. split; [left; reflexivity|]. split; [exact R|].
    intros q i [Y|[]]. injection Y as <- <-. rewrite <- T. symmetry. apply (proj2 (R (a_dir p)) pin Hp).
  - exists l1, (IfIn p pin :: l). split; [exact E|]. split; [right; reflexivity|]. split; [exact R|exact Q].
Qed.
Lemma mid_start : forall M s o, same_regs M s -> midway M s o (fst (code o)).
Proof. intros M s o R. exists [], (fst (code o)). split; [reflexivity|]. split; [left; reflexivity|]. split; [exact R|intros ? ? []]. Qed.

Lemma bcode_same : forall l m s h, (forall p pin, ~ In (IfIn p pin) l) -> Forall iok l -> same_regs m s -> same_regs (fst (rcode m l h)) (bcode s l).
Proof.
  induction l as [|[a i v|a x|p pin] l IH]; intros m s h N F R; [exact R| | |exfalso; apply (N p pin); left; reflexivity];
    inversion F as [|? ? Oi F']; subst; cbn [iok] in Oi; cbn [rcode bcode];
    (apply IH; [intros p pin X; apply (N p pin); right; exact X|exact F'|]).
  - apply same_chg; assumption.
  - apply same_upd; [exact R|exact Oi|reflexivity].
Qed.
Lemma bcode_full : forall o m s, same_regs m s -> rop_ok o -> (forall p pin, ~ In (IfIn p pin) (fst (code o))) ->
  forall a i, 0 <= i < 8 -> fst (bstep s o) a i = bcode s (fst (code o)) a i.
Proof.
  intros o m s R O N a i Hi. destruct (code_l o m s R O) as [R1 _]. pose proof (bcode_same (fst (code o)) m s (snd (code o)) N (code_ok o O) R) as R2.
  rewrite <- (proj2 (R1 a) i Hi). apply (R2 a). exact Hi.
Qed.
Lemma mid_bits : forall m s o l1 l2, same_regs m s -> fst (code o) = l1 ++ l2 -> (forall p pin, In (IfIn p pin) l1 -> s (a_dir p) pin = false) ->
  rop_ok o -> usart_real o -> forall a i, 0 <= i < 8 ->
  bcode s l1 a i = s a i \/ bcode s l1 a i = fst (bstep s o) a i \/ (bcode s l1 a i = false /\ blinks o a i).
Proof.
  intros m s o l1 l2 R E Q O Or a i Hi. pose proof (bcode_full o m s R O) as Full.
  assert (One : forall a0 k v, [Chg a0 k v] = l1 ++ l2 -> fst (bstep s o) = set1 s a0 k v -> bcode s l1 a i = s a i \/ bcode s l1 a i = fst (bstep s o) a i).
  { intros a0 k v El Es. destruct l1 as [|y [|z l1]]; [left; reflexivity| |destruct l1; discriminate El].
    injection El as <- _. right. rewrite Es. reflexivity. }
  assert (Two : forall a0 k v, set_code a0 k v = l1 ++ l2 -> fst (bstep s o) = set1 s a0 k v -> (v = true -> blinks o a0 k) ->
    bcode s l1 a i = s a i \/ bcode s l1 a i = fst (bstep s o) a i \/ (bcode s l1 a i = false /\ blinks o a i)).
  { intros a0 k [] El Es Bk; unfold set_code in El; [|destruct (One _ _ _ El Es); auto]. destruct l1 as [|y [|z [|w l1]]]; [left; reflexivity| | |discriminate El].
    - injection El as <- _. cbn [bcode]. unfold set1. destruct (Z.eqb_spec a a0) as [->|]; destruct (Z.eqb_spec i k) as [->|]; cbn [andb]; auto.
    - injection El as <- <- _. right. left. rewrite Es. cbn [bcode]. unfold set1. destruct ((a =? a0) && (i =? k)); reflexivity. }
  destruct o; cbn [code fst] in E; unfold power_code in E;
    try (destruct (One _ _ _ E eq_refl); auto; fail);
    try (apply (Two _ _ _ E eq_refl); intros ->; split; reflexivity).
  - destruct l1 as [|y [|z l1]]; [left; reflexivity| |destruct l1; discriminate E]. injection E as <- _. right. left. reflexivity.
  - destruct l1 as [|y [|z [|w l1]]]; [left; reflexivity|injection E as <- _; left; reflexivity| |destruct l1; discriminate E].
    injection E as <- <- _. right. left. cbn [bstep]. rewrite (Q p pin (or_introl eq_refl)). reflexivity.
  - cbn [bstep]. destruct (flags =? 0); cbn [fst].
    + destruct l1 as [|y [|z l1]]; [left; reflexivity| |destruct l1; discriminate E]. injection E as <- _. right. left. reflexivity.
    + destruct (p <? 3).
      * destruct l1 as [|y [|z [|w l1]]]; [left; reflexivity|injection E as <- _|injection E as <- <- _; right; left; reflexivity|destruct l1; discriminate E].
        cbn [bcode]. unfold setall. destruct (Z.eqb_spec a (a_pcmsk p)) as [->|]; [|auto]. left. unfold set1.
        destruct (Z.eqb_spec (a_pcmsk p) a_pcicr) as [Y|]; [|reflexivity]. destruct O as [Op _]. unfold a_pcmsk, a_pcicr in Y. lia.
      * destruct l1 as [|y [|z l1]]; [left; reflexivity| |destruct l1; discriminate E]. injection E as <- _. right. left. reflexivity.
  - assert (N : forall p pin, ~ In (IfIn p pin) (fst (code (Open id c)))) by (intros p pin X; destruct (code_asks _ _ _ X) as (e & Y); discriminate Y).
    rewrite (Full N a i Hi). clear - E Or. cbn [code fst usart_real] in *.
    destruct (get_mode c); cbn [fst app] in *; try (destruct l1; [left; reflexivity|discriminate E]).
    all: unfold power_code in *; cbn [app] in *; generalize dependent (get_ucsra c); generalize dependent (get_ucsrb c); generalize dependent (get_ucsrc c);
      generalize dependent (u8 (c_ubrr c)); generalize dependent (u8 (c_ubrr c / 256)); intros x1 x2 x3 x4 x5 E.
    all: destruct Or as [-> | ->]; destruct l1 as [|? [|? [|? [|? [|? [|? [|? l1]]]]]]]; cbn [app] in E; try discriminate E; try (injection E; clear E; intros; subst); cbn [bcode]; unfold set1, setall.
    all: cbv [a_prr a_ubrr a_ucsra a_ucsrb a_ucsrc Z.add Z.mul Pos.add Pos.mul Pos.succ Pos.add_carry].
    all: try (left; reflexivity); try (right; left; reflexivity).
    all: repeat match goal with |- context [?y =? ?n] => is_var y; destruct (Z.eqb_spec y n) as [->|]; cbn [andb Z.eqb Pos.eqb]; auto end.
  - assert (N : forall p pin, ~ In (IfIn p pin) (fst (code (Close id)))) by (intros p pin X; destruct (code_asks _ _ _ X) as (e & Y); discriminate Y).
    rewrite (Full N a i Hi). clear - E Or Hi. cbn [code fst usart_real] in *. unfold set_code, power_code in *. cbn [app] in *.
    destruct Or as [-> | ->]; destruct l1 as [|? [|? [|? [|? [|? [|? [|? l1]]]]]]]; cbn [app] in E; try discriminate E; try (injection E; clear E; intros; subst); cbn [bcode]; unfold set1, setall.
    all: cbv [a_prr a_ucsrb Z.add Z.mul Pos.add Pos.mul Pos.succ Pos.add_carry].
    all: try (left; reflexivity); try (right; left; reflexivity).
    all: repeat match goal with |- context [?y =? ?n] => is_var y; destruct (Z.eqb_spec y n) as [->|]; cbn [andb Z.eqb Pos.eqb]; auto end.
    all: destruct (bit_in i Hi) as [->|[->|[->|[->|[->|[->|[->| ->]]]]]]]; cbn; auto.
Qed.
Section Run.
Variable one : Z -> bool.

(** ** What the main program finds *)
Section Near.
Variable Hg : Z -> Z -> bool -> Prop.
Definition near (x y a : Z) : Prop := forall i, 0 <= i < 8 -> Z.testbit x i = Z.testbit y i \/ Hg a i (Z.testbit x i).
Definition blind (l : list instr) : Prop := forall p pin, In (IfIn p pin) l -> forall v, ~ Hg (a_dir p) pin v.
Definition calm (m M : regs) : Prop := bytes m /\ bytes M /\ forall a, near (m a) (M a) a.
(** [M]: the registers as they would be without handlers; [s], [as_]: bits and answers when the call is over. *)
Definition busy (M : regs) (c : list instr * option Z * bool) (s : rbits) (h : bool) : Prop :=
  let '(l, x, h0) := c in
  Forall iok l /\ blind l /\ same_regs (fst (rcode M l h0)) s /\ snd (rcode M l h0) = h /\
  match x with
  | None => True
  | Some x => match l with Chg a _ _ :: _ => byte x /\ near x (M a) a | _ => False end
  end.
Definition kinv (s0 : rbits) (prog : list rop) (k : kst) : Prop :=
  exists M, calm (k_regs k) M /\
    match k_call k with
    | None => exists done, prog = done ++ k_prog k /\ same_regs M (fst (brun s0 done)) /\ k_ans k = snd (brun s0 done)
    | Some c => exists done o h, prog = done ++ o :: k_prog k /\ busy M c (fst (brun s0 (done ++ [o]))) h /\
                  snd (brun s0 (done ++ [o])) = k_ans k ++ [h] /\ midway M (fst (brun s0 done)) o (fst (fst c))
    end.
Lemma upd_same : forall (m : regs) a x, upd m a x a = x.
Proof. intros. unfold upd. rewrite Z.eqb_refl. reflexivity. Qed.
Lemma near_choose : forall x y a i v, near x y a -> 0 <= i < 8 -> near (r_choose x i v) (r_choose y i v) a.
Proof.
  intros x y a i v N Hi j Hj. rewrite !r_choose_bits by lia. destruct (j =? i); [left; reflexivity|]. apply N. exact Hj.
Qed.
Lemma calm_upd : forall m M a x y, calm m M -> byte x -> byte y -> near x y a -> calm (upd m a x) (upd M a y).
Proof.
  intros m M a x y (B & BM & N) Bx By Nx. unfold calm, bytes, upd. split; [|split].
  - intros b. destruct (b =? a); [exact Bx|apply B].
  - intros b. destruct (b =? a); [exact By|apply BM].
  - intros b. destruct (Z.eqb_spec b a) as [->|]; [exact Nx|apply N].
Qed.
Lemma near_self : forall x a, near x x a. Proof. intros x a i Hi. left. reflexivity. Qed.
Lemma same_bytes : forall m s, same_regs m s -> bytes m. Proof. intros m s H a. apply H. Qed.

Lemma kstep_inv : forall s0 prog k, Forall rop_ok prog -> (forall o, In o prog -> blind (fst (code o))) ->
  kinv s0 prog k -> kinv s0 prog (kstep one k KStep).
Proof.
  intros s0 prog [m c p ans] Fp Bl (M & C & I). cbn [k_regs k_call k_prog k_ans] in *. cbn [kstep k_call k_regs k_prog k_ans].
  destruct c as [[[l x] h0]|].
  - destruct I as (dn & o & h & Ep & (Fl & Bd & S1 & E1 & X) & Ea & Mw). cbn [fst] in Mw.
    destruct l as [|[a i v|a y|q pin] l]; cbn [kexec].
    + exists M. cbn [k_regs k_call k_prog k_ans]. split; [exact C|]. cbn [rcode fst snd] in *. exists (dn ++ [o]).
      split; [rewrite <- app_assoc; exact Ep|]. split; [exact S1|]. rewrite Ea, E1. reflexivity.
    + inversion Fl as [|? ? Oi Fl']; subst. cbn [iok] in Oi. cbn [rcode] in *. assert (Bd' : blind l) by (intros q pin In'; apply Bd; right; exact In').
      destruct C as (B & BM & N).
      assert (Do : forall x, byte x -> near x (M a) a -> kinv s0 (dn ++ o :: p) (mkK (upd m a (r_choose x i v)) (Some (l, None, h0)) p ans)).
      { intros y By Ny. exists (upd M a (r_choose (M a) i v)). cbn [k_regs k_call k_prog k_ans].
        split; [apply calm_upd; [split; [exact B|split; [exact BM|exact N]]|apply r_choose_byte|apply r_choose_byte|apply near_choose; assumption]|].
        exists dn, o, (snd (rcode (upd M a (r_choose (M a) i v)) l h0)). split; [reflexivity|]. split; [|split; [exact Ea|apply mid_chg; assumption]].
        repeat (split; try assumption); reflexivity. }
      destruct x as [x|]; [destruct X as [Bx Nx]; apply Do; assumption|].
      destruct (one a); [apply Do; [apply B|apply N]|].
      exists M. cbn [k_regs k_call k_prog k_ans]. split; [split; [exact B|split; [exact BM|exact N]]|].
      exists dn, o, (snd (rcode (upd M a (r_choose (M a) i v)) l h0)). split; [reflexivity|]. split; [|split; [exact Ea|exact Mw]].
      split; [exact Fl|]. split; [exact Bd|]. split; [exact S1|]. split; [reflexivity|]. split; [apply B|apply N].
    + inversion Fl as [|? ? Oi Fl']; subst. cbn [iok] in Oi. cbn [rcode] in *. assert (Bd' : blind l) by (intros q pin In'; apply Bd; right; exact In').
      exists (upd M a y). cbn [k_regs k_call k_prog k_ans]. split; [apply calm_upd; [exact C|exact Oi|exact Oi|apply near_self]|].
      exists dn, o, (snd (rcode (upd M a y) l h0)). split; [reflexivity|]. split; [|split; [exact Ea|apply mid_put; assumption]]. repeat (split; try assumption); reflexivity.
    + inversion Fl as [|? ? Oi Fl']; subst. cbn [iok] in Oi. assert (Bd' : blind l) by (intros q' pin' In'; apply Bd; right; exact In').
      exists M. cbn [k_regs k_call k_prog k_ans]. split; [exact C|]. destruct C as (B & BM & N).
      assert (E : (Z.land (m (a_dir q)) (2 ^ pin) =? 0) = (Z.land (M (a_dir q)) (2 ^ pin) =? 0)).
      { rewrite !land_pow by lia. destruct (N (a_dir q) pin Oi) as [E|G]; [rewrite E; reflexivity|].
        exfalso. apply (Bd q pin (or_introl eq_refl) _ G). }
      rewrite E. cbn [rcode] in S1, Ea |- *. destruct (mid_if _ _ _ _ _ _ Mw Oi) as [Mt Mf].
      destruct (Z.land (M (a_dir q)) (2 ^ pin) =? 0) eqn:Et.
      * exists dn, o, (snd (rcode M l h0)). split; [reflexivity|]. split; [|split; [exact Ea|apply Mt; rewrite land_pow in Et by lia; destruct (Z.testbit (M (a_dir q)) pin); [pose proof (pow_pos pin ltac:(lia)); lia|reflexivity]]]. repeat (split; try assumption); reflexivity.
      * exists dn, o, false. split; [reflexivity|]. split; [|split; [exact Ea|exact Mf]]. cbn [fst] in S1.
        split; [constructor|]. split; [intros ? ? []|]. split; [exact S1|]. split; [reflexivity|exact Logic.I].
  - destruct I as (dn & Ep & S1 & Ea). destruct p as [|o p].
    + exists M. cbn [k_regs k_call k_prog k_ans]. split; [exact C|]. exists dn. split; [exact Ep|]. split; assumption.
    + exists M. cbn [k_regs k_call k_prog k_ans]. split; [exact C|].
      assert (Io : In o prog) by (rewrite Ep; apply in_or_app; right; left; reflexivity).
      assert (Oo : rop_ok o) by (rewrite Forall_forall in Fp; apply Fp; exact Io).
      destruct (code_l o M (fst (brun s0 dn)) S1 Oo) as [S2 E2]. destruct (brun_app dn [o] s0) as [G1 G2].
      destruct (brun_cons (fst (brun s0 dn)) o []) as [K1 K2]. cbn [brun fst snd] in K1, K2.
      exists dn, o, (snd (bstep (fst (brun s0 dn)) o)). split; [exact Ep|]. split.
      * split; [apply code_ok; exact Oo|]. split; [apply Bl; exact Io|]. rewrite G1. cbn [brun]. destruct (bstep (fst (brun s0 dn)) o) as [s1 h1].
        cbn [fst snd] in *. split; [exact S2|]. split; [exact E2|exact Logic.I].
      * split; [rewrite G2, Ea; f_equal; exact K2|]. apply mid_start. exact S1.
Qed.
Lemma isr_calm : forall m M os, calm m M -> Forall rop_ok os -> (forall o a i v, In o os -> gives o a i v -> Hg a i v) -> calm (fst (rrun m os)) M.
Proof.
  intros m M os (B & BM & N) F G. pose proof (rrun_bits m os B F) as R. split; [intros a; apply R|]. split; [exact BM|].
  intros a i Hi. rewrite (proj2 (R a) i Hi). destruct (brun_gives os (bits_of m) a i) as [E|(o & In' & Go)].
  - rewrite E. apply N. exact Hi.
  - right. apply (G o a i _ In' Go).
Qed.
Lemma kisr_inv : forall s0 prog k os, Forall rop_ok os -> (forall o a i v, In o os -> gives o a i v -> Hg a i v) ->
  kinv s0 prog k -> kinv s0 prog (kstep one k (KIsr os)).
Proof.
  intros s0 prog [m c p ans] os F G (M & C & I). exists M. cbn [k_regs k_call k_prog k_ans kstep] in *. split; [apply isr_calm; assumption|exact I].
Qed.
Lemma krun_inv : forall evs s0 prog k, Forall rop_ok prog -> (forall o, In o prog -> blind (fst (code o))) -> Forall rop_ok (handled evs) ->
  (forall o a i v, In o (handled evs) -> gives o a i v -> Hg a i v) -> kinv s0 prog k -> kinv s0 prog (krun one k evs).
Proof.
  induction evs as [|e evs IH]; intros s0 prog k Fp Bl F G I; [exact I|]. cbn [krun]. destruct e as [|os]; cbn [handled] in F, G.
  - apply IH; try assumption. apply kstep_inv; assumption.
  - apply Forall_app in F. destruct F as [F1 F2]. apply IH; try assumption; [intros o a i v In'; apply G; apply in_or_app; right; exact In'|].
    apply kisr_inv; [exact F1| |exact I]. intros o a i v In'. apply G. apply in_or_app. left. exact In'.
Qed.
End Near.

Definition given (hs : list rop) (a i : Z) (v : bool) : Prop := exists o, In o hs /\ gives o a i v.
Lemma kinv_all : forall m s prog evs, same_regs m s -> Forall rop_ok prog -> Forall rop_ok (handled evs) -> unasked prog (handled evs) ->
  kinv (given (handled evs)) s prog (krun one (k_init m prog) evs).
Proof.
  intros m s prog evs S0 Fp Fh U. apply krun_inv; try assumption.
  - intros o Io p pin X v (o' & In' & Go). destruct (code_asks o p pin X) as (e & ->). apply (U p pin e o' Io In'). exists v. exact Go.
  - intros o a i v Io Go. exists o. split; assumption.
  - exists m. cbn [k_init k_regs k_call k_prog k_ans]. split; [split; [apply (same_bytes m s S0)|split; [apply (same_bytes m s S0)|intros a; apply near_self]]|].
    exists []. split; [reflexivity|]. split; [exact S0|reflexivity].
Qed.
Lemma reg_values_l : forall m s prog evs, same_regs m s -> Forall rop_ok prog -> Forall rop_ok (handled evs) -> unasked prog (handled evs) ->
  let k := krun one (k_init m prog) evs in k_call k = None ->
  exists dn, prog = dn ++ k_prog k /\ k_ans k = snd (brun s dn) /\ bytes (k_regs k) /\
    forall a i, 0 <= i < 8 -> Z.testbit (k_regs k a) i = fst (brun s dn) a i \/
      exists o, In o (handled evs) /\ gives o a i (Z.testbit (k_regs k a) i).
Proof.
  intros m s prog evs S0 Fp Fh U k Ek. pose proof (kinv_all m s prog evs S0 Fp Fh U) as I. fold k in I.
  destruct I as (M & (B & BM & N) & I). rewrite Ek in I. destruct I as (dn & Ep & S1 & Ea). exists dn.
  split; [exact Ep|]. split; [exact Ea|]. split; [exact B|]. intros a i Hi. destruct (N a i Hi) as [E|G].
  - left. rewrite E. apply S1. exact Hi.
  - right. exact G.
Qed.
Lemma reg_moment_l : forall m s prog evs, same_regs m s -> Forall rop_ok prog -> Forall usart_real prog -> Forall rop_ok (handled evs) -> unasked prog (handled evs) ->
  let k := krun one (k_init m prog) evs in k_call k <> None ->
  exists dn o, prog = dn ++ o :: k_prog k /\ k_ans k = snd (brun s dn) /\ bytes (k_regs k) /\
    forall a i, 0 <= i < 8 -> let x := Z.testbit (k_regs k a) i in
      x = fst (brun s dn) a i \/ x = fst (brun s (dn ++ [o])) a i \/ (x = false /\ blinks o a i) \/
      exists o', In o' (handled evs) /\ gives o' a i x.
Proof.
  intros m s prog evs S0 Fp Fr Fh U k Ek. pose proof (kinv_all m s prog evs S0 Fp Fh U) as I. fold k in I.
  destruct I as (M & (B & BM & N) & I). destruct (k_call k) as [c|]; [|contradiction Ek; reflexivity]. destruct I as (dn & o & h & Ep & _ & Ea & Mw). exists dn, o.
  split; [exact Ep|]. split.
  { rewrite (proj2 (brun_app dn [o] s)) in Ea. rewrite (proj2 (brun_cons _ o [])) in Ea. apply app_inj_tail in Ea. symmetry. apply Ea. }
  split; [exact B|]. intros a i Hi x. destruct (N a i Hi) as [E|G]; [|right; right; right; exact G].
  destruct Mw as (l1 & l2 & El & _ & R & Q). unfold x. rewrite E, (proj2 (R a) i Hi).
  rewrite (proj1 (brun_app dn [o] s)), (proj1 (brun_cons _ o [])). cbn [brun fst].
  assert (Oo : rop_ok o) by (rewrite Forall_forall in Fp; apply Fp; rewrite Ep; apply in_or_app; right; left; reflexivity).
  assert (Or : usart_real o) by (rewrite Forall_forall in Fr; apply Fr; rewrite Ep; apply in_or_app; right; left; reflexivity).
  assert (Fd : Forall rop_ok dn) by (rewrite Ep in Fp; apply Forall_app in Fp; apply Fp).
  destruct (mid_bits (fst (rrun m dn)) (fst (brun s dn)) o l1 l2 (proj1 (rrun_l dn m s S0 Fd)) El Q Oo Or a i Hi) as [X|[X|X]]; auto.
Qed.
End Run.
