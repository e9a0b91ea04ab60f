Require Import ZArith List Bool Lia ZifyBool.
Import ListNotations.
From Verif Require Import Base BaseFacts BitModel BitSpec BitProofs ShiftModel ShiftSpec ShiftProofs
  MotorModel MotorSpec MotorProofs HdModel HdSpec HdIfProofs ChainModel ChainSpec.
Open Scope Z_scope.
Local Ltac Zify.zify_post_hook ::= idtac.

(** ** Repeats *)
Inductive stut {A} : A -> list A -> list A -> Prop :=
| st_nil : forall x, stut x [] []
| st_same : forall x a b, stut x a b -> stut x (x :: a) b
| st_new : forall x y a b, stut y a b -> stut x (y :: a) (y :: b).
Lemma last_step : forall A (a : list A) x y, last (y :: a) x = last a y.
Proof. intros A a x y. destruct a as [|z a]; [reflexivity|]. apply (last_cons_any A a z x y). Qed.
Lemma stut_last : forall A (x : A) a b, stut x a b -> last a x = last b x.
Proof.
  intros A x a b H. induction H as [x|x a b H IH|x y a b H IH]; [reflexivity| |]; rewrite ?last_step; exact IH.
Qed.
Lemma stut_app : forall A (x : A) a b a' b', stut x a b -> stut (last b x) a' b' -> stut x (a ++ a') (b ++ b').
Proof.
  intros A x a b a' b' H. revert a' b'. induction H as [x|x a b H IH|x y a b H IH]; intros a' b' K; cbn [app].
  - exact K.
  - apply st_same. apply IH. exact K.
  - apply st_new. apply IH. rewrite last_step in K. exact K.
Qed.
Lemma stut_same : forall A (x : A) a, Forall (eq x) a -> stut x a [].
Proof. intros A x a H. induction H as [|y a -> H IH]; constructor; exact IH. Qed.
Lemma stut_refl : forall A a (x : A), stut x a a.
Proof. intros A a. induction a as [|y a IH]; intros x; constructor; apply IH. Qed.

Lemma watch_stut : forall lo l a b, stut l a b -> forall m, watch lo l m a = watch lo l m b.
Proof.
  intros lo l a b H. induction H as [x|x a b H IH|x y a b H IH]; intros m; [reflexivity| |]; cbn [watch].
  - rewrite andb_negb_r, IH. destruct (watch lo x m b) as [[? ?] ?]. reflexivity.
  - destruct (if en x && negb (en y) then edge lo m (rs y) (nibble y) else (m, [])) as [m' t]. rewrite IH. reflexivity.
Qed.
Lemma setup_stut : forall l a b, stut l a b -> setup l b -> setup l a.
Proof.
  intros l a b H. induction H as [x|x a b H IH|x y a b H IH]; intros K; [exact K| |]; cbn [setup] in *.
  - split; [intros; congruence|]. apply IH. exact K.
  - destruct K as [K1 K2]. split; [exact K1|]. apply IH. exact K2.
Qed.
Lemma delivers_stut : forall lo l a b ns l', stut l a b -> delivers lo l b ns l' -> delivers lo l a ns l'.
Proof.
  intros lo l a b ns l' H (D1 & D2 & D3 & D4). split; [exact D1|]. split; [eapply setup_stut; eassumption|].
  split; [rewrite (stut_last _ _ _ _ H); exact D3|]. intros m. rewrite (watch_stut lo _ _ _ H). apply D4.
Qed.

(** ** The wires *)
Lemma moments_app : forall a b x, moments x (a ++ b) = moments x a ++ moments (wires_run x a) b.
Proof. induction a as [|e a IH]; intros b x; [reflexivity|]. cbn. rewrite IH. reflexivity. Qed.
Lemma wires_run_app : forall a b x, wires_run x (a ++ b) = wires_run (wires_run x a) b.
Proof. intros a b x. apply fold_left_app. Qed.
Lemma wires_pins : forall es b, wires_run b (map CPin es) = mkWires (chip_run (w_chip b) es) (w_pwm b).
Proof.
  induction es as [|e es IH]; intros b; [destruct b; reflexivity|].
  cbn [map]. change (wires_run b (CPin e :: map CPin es)) with (wires_run (wires_step b (CPin e)) (map CPin es)).
  rewrite IH. reflexivity.
Qed.
Lemma moments_pre : forall pre b, Forall (fun e => fst e <> PLatch) pre ->
  Forall (fun x => outs (w_chip x) = outs (w_chip b) /\ w_pwm x = w_pwm b) (moments b (map CPin pre)).
Proof.
  induction pre as [|[p v] pre IH]; intros b F; [constructor|]. inversion F; subst. cbn [map moments].
  assert (E : outs (w_chip (wires_step b (CPin (p, v)))) = outs (w_chip b) /\ w_pwm (wires_step b (CPin (p, v))) = w_pwm b).
  { destruct p; [split; reflexivity|split; reflexivity|]. cbn in H1. congruence. }
  constructor; [exact E|]. destruct E as [E1 E2]. specialize (IH (wires_step b (CPin (p, v))) H2).
  eapply Forall_impl; [|exact IH]. intros x [A B]. cbv beta. rewrite A, B. split; assumption.
Qed.

Section W.
Variables (iw w : Z).
Hypothesis Hw : 1 <= w <= iw.
Local Notation range v := (0 <= v < 2 ^ w).
Definition shows (r : Z) (b : wires) : Prop := forall i, 0 <= i < w -> out_bit w b i = Z.testbit r i.
Local Notation wok := (wires_ok w).

Lemma nth_low : forall n b i j, (j < n)%nat -> nth j (low_bits b i n) false = Z.testbit b (i + Z.of_nat j).
Proof.
  induction n as [|n IH]; intros b i j H; [lia|]. destruct j as [|j]; cbn [low_bits nth].
  - f_equal. lia.
  - rewrite IH by lia. f_equal. lia.
Qed.
Lemma low_len : forall n b i, length (low_bits b i n) = n.
Proof. induction n as [|n IH]; intros b i; cbn; [reflexivity|]. rewrite IH. reflexivity. Qed.
Lemma outs_shows : forall r c x p, outs c = rev (low_bits r 0 (Z.to_nat w)) ++ x -> shows r (mkWires c p).
Proof.
  intros r c x p H i Hi. unfold out_bit. cbn [w_chip]. rewrite H.
  rewrite app_nth1 by (rewrite rev_length, low_len; lia).
  rewrite rev_nth by (rewrite low_len; lia). rewrite low_len, nth_low by lia. f_equal. lia.
Qed.

Lemma write_wires : forall r b, range r -> wok b -> exists es bs b1 b', ch_write iw w r = Some es /\
  moments b es = bs ++ [b1; b'] /\ Forall (fun x => outs (w_chip x) = outs (w_chip b) /\ w_pwm x = w_pwm b) bs /\
  wires_run b es = b' /\ shows r b1 /\ shows r b' /\ w_pwm b1 = w_pwm b /\ w_pwm b' = w_pwm b /\ wok b'.
Proof.
  intros r b Hr (K1 & K2 & K3).
  destruct (write_reverse_l iw w r (w_chip b) Hw Hr K1 K2 K3) as (es & pre & E & Ee & F & C1 & C2 & C3 & C4).
  unfold ch_write. rewrite E. cbn [bindo]. exists (map CPin es).
  set (bp := wires_run b (map CPin pre)).
  exists (moments b (map CPin pre)), (wires_step bp (CPin (PLatch, true))), (wires_run b (map CPin es)).
  assert (M : moments b (map CPin es) = moments b (map CPin pre) ++ [wires_step bp (CPin (PLatch, true)); wires_run b (map CPin es)]).
  { rewrite Ee, map_app, moments_app. fold bp. f_equal. cbn. unfold bp. rewrite wires_run_app. reflexivity. }
  assert (B : wires_run b (map CPin es) = mkWires (chip_run (w_chip b) es) (w_pwm b)) by apply wires_pins.
  assert (O1 : outs (w_chip (wires_step bp (CPin (PLatch, true)))) = outs (chip_run (w_chip b) es)).
  { rewrite Ee, chip_run_app. unfold bp. rewrite wires_pins. cbn. reflexivity. }
  split; [reflexivity|]. split; [exact M|]. split; [apply moments_pre; exact F|]. split; [reflexivity|].
  split. { intros i Hi. unfold out_bit. rewrite O1. pose proof (outs_shows r _ _ (w_pwm b) C4 i Hi) as S. exact S. }
  split. { rewrite B. eapply outs_shows. exact C4. }
  split. { unfold bp. rewrite wires_pins. reflexivity. }
  split; [rewrite B; reflexivity|]. rewrite B. split; [exact C1|]. split; [exact C2|].
  cbn [w_chip]. rewrite C3, C4, app_length, rev_length, low_len. lia.
Qed.

Lemma ch_writes_wires : forall X (P : wires -> X) (Q : Z -> X) p,
  (forall x y, outs (w_chip x) = outs (w_chip y) -> w_pwm x = w_pwm y -> P x = P y) ->
  (forall x v, shows v x -> w_pwm x = p -> P x = Q v) ->
  forall vs b, Forall (fun v => range v) vs -> wok b -> w_pwm b = p ->
  exists es, ch_writes iw w vs = Some es /\ wok (wires_run b es) /\ w_pwm (wires_run b es) = p /\
    (forall r, (vs = [] -> shows r b) -> shows (last vs r) (wires_run b es)) /\
    stut (P b) (map P (moments b es)) (map Q vs).
Proof.
  intros X P Q p HP HQ. induction vs as [|v vs IH]; intros b F K E.
  - exists []. cbn. repeat split; auto; try apply K. constructor.
  - inversion F; subst. destruct (write_wires v b H1 K) as (es & bs & b1 & b' & W & M & Fb & R & S1 & S2 & P1 & P2 & K').
    cbn [ch_writes]. rewrite W. cbn [bindo]. destruct (IH b' H2 K' P2) as (es2 & W2 & K2 & E2 & L2 & T2). rewrite W2. cbn [bindo].
    exists (es ++ es2). split; [reflexivity|]. rewrite wires_run_app, R. split; [exact K2|]. split; [exact E2|]. split.
    { intros r _. rewrite last_step. apply L2. intros _. exact S2. }
    rewrite moments_app, map_app, M, map_app, R. cbn [map]. change (Q v :: map Q vs) with (([] ++ [Q v]) ++ map Q vs).
    rewrite <- app_assoc, <- app_assoc. cbn [app]. change (Q v :: map Q vs) with ([] ++ (Q v :: map Q vs)).
    apply stut_app.
    + apply stut_same. rewrite Forall_map. eapply Forall_impl; [|exact Fb]. intros x [A B]. apply HP; congruence.
    + cbn [last]. rewrite (HQ b1 v S1 P1). apply st_new. rewrite (HQ b' v S2 P2). apply st_same. rewrite <- (HQ b' v S2 P2). exact T2.
Qed.
End W.

(** ** The layout *)
Lemma nodup_app_l : forall A (a b : list A), NoDup (a ++ b) -> NoDup a /\ NoDup b /\ forall x, In x a -> ~ In x b.
Proof.
  intros A a b. induction a as [|y a IH]; cbn [app]; intros H.
  - split; [constructor|]. split; [exact H|]. intros x [].
  - inversion H; subst. destruct (IH H3) as (A1 & A2 & A3). split.
    + constructor; [|exact A1]. intros K. apply H2. apply in_or_app. left. exact K.
    + split; [exact A2|]. intros x [<-|K]; [|apply A3; exact K]. intros K. apply H2. apply in_or_app. right. exact K.
Qed.
Lemma concat_part : forall A (ls : list (list A)) k l, NoDup (concat ls) -> nth_error ls k = Some l ->
  NoDup l /\ (forall x, In x l -> In x (concat ls)) /\
  forall j l', nth_error ls j = Some l' -> j <> k -> forall x, In x l -> ~ In x l'.
Proof.
  intros A ls. induction ls as [|m ls IH]; intros k l N H; [destruct k; discriminate|].
  cbn [concat] in *. destruct (nodup_app_l _ _ _ N) as (N1 & N2 & N3). destruct k as [|k]; cbn [nth_error] in H.
  - injection H as ->. split; [exact N1|]. split; [intros x Hx; apply in_or_app; left; exact Hx|].
    intros [|j] l' E J x Hx; [congruence|]. cbn [nth_error] in E. intros K. apply (N3 x Hx).
    apply in_concat. exists l'. split; [eapply nth_error_In; exact E|exact K].
  - destruct (IH k l N2 H) as (B1 & B2 & B3). split; [exact B1|]. split; [intros x Hx; apply in_or_app; right; apply B2; exact Hx|].
    intros [|j] l' E J x Hx; cbn [nth_error] in E.
    + injection E as ->. intros K. apply (N3 x K). apply B2. exact Hx.
    + apply (B3 j l' E); [congruence|exact Hx].
Qed.

Section L.
Variables (iw w : Z) (devs : list device).
Hypothesis Hw : 1 <= w <= iw.
Hypothesis Hl : layout_ok w devs.
Local Notation range v := (0 <= v < 2 ^ w).
Local Notation wok := (wires_ok w).

Lemma dev_bits : forall k d, nth_error devs k = Some d -> NoDup (bits_of d) /\ Forall (fun i => 0 <= i < w) (bits_of d) /\
  forall j d', nth_error devs j = Some d' -> j <> k -> forall x, In x (bits_of d) -> ~ In x (bits_of d').
Proof.
  intros k d H. destruct Hl as [N F]. destruct (concat_part Z (map bits_of devs) k (bits_of d) N (map_nth_error _ _ _ H)) as (A & B & C).
  split; [exact A|]. split; [rewrite Forall_forall in *; intros x Hx; apply F, B, Hx|].
  intros j d' E J. apply (C j (bits_of d') (map_nth_error _ _ _ E) J).
Qed.

(** Only the bits of [d] differ. *)
Definition keeps (d : device) (r v : Z) : Prop := forall i, 0 <= i < w -> ~ In i (bits_of d) -> Z.testbit v i = Z.testbit r i.

Lemma put_range : forall r i v r', range r -> put iw w r i v = Some r' -> range r'.
Proof.
  intros r i v r' Hr E. unfold put, ba_put in E. destruct (negb (ba_valid w i 1)); cbn [bindo fst] in E; [injection E as <-; exact Hr|].
  destruct (one_shl iw i); cbn [bindo fst] in E; [|discriminate]. injection E as <-. destruct v; apply un_range; lia.
Qed.
Ltac puts := repeat match goal with
  | H : bindo (put ?a ?b ?r ?i ?v) _ = Some _ |- _ =>
      let E := fresh "E" in let x := fresh "x" in destruct (put a b r i v) as [x|] eqn:E; cbn [bindo] in H; [|discriminate H];
      apply put_range in E; [|assumption]
  end.
Lemma write4_range : forall ix r n r' tr, range r -> w3_write4 iw w ix r n = Some (r', tr) -> range r' /\ Forall (fun v => range v) tr.
Proof.
  intros ix r n r' tr Hr H. unfold w3_write4 in H. puts. injection H as <- <-. split; [assumption|]. repeat constructor; lia.
Qed.
Lemma write8_range : forall ix r n r' tr, range r -> w3_write8 iw w ix r n = Some (r', tr) -> range r' /\ Forall (fun v => range v) tr.
Proof.
  intros ix r n r' tr Hr H. unfold w3_write8 in H.
  destruct (w3_write4 iw w ix r (Z.shiftr n 4)) as [[r1 t1]|] eqn:E1; cbn [bindo fst snd] in H; [|discriminate].
  destruct (write4_range _ _ _ _ _ Hr E1) as [A B].
  destruct (w3_write4 iw w ix r1 n) as [[r2 t2]|] eqn:E2; cbn [bindo fst snd] in H; [|discriminate]. injection H as <- <-.
  destruct (write4_range _ _ _ _ _ A E2) as [C D]. split; [exact C|]. apply Forall_app. split; assumption.
Qed.
Lemma op_range : forall ix r o r' tr, range r -> w3_op iw w ix r o = Some (r', tr) -> range r' /\ Forall (fun v => range v) tr.
Proof.
  intros ix r [b|b|n] r' tr Hr H; cbn [w3_op] in H; puts; eauto using write8_range, write4_range.
Qed.
Lemma op_last : forall ix r o r' tr, w3_op iw w ix r o = Some (r', tr) -> last tr r = r' /\ tr <> [].
Proof.
  assert (Q4 : forall ix r n r' tr, w3_write4 iw w ix r n = Some (r', tr) -> exists a, tr = a ++ [r']).
  { intros ix r n r' tr H. unfold w3_write4 in H.
    repeat match goal with H : bindo ?m _ = Some _ |- _ => destruct m; cbn [bindo] in H; [|discriminate H] end.
    injection H as <- <-. eexists [_; _]. reflexivity. }
  assert (Q8 : forall ix r n r' tr, w3_write8 iw w ix r n = Some (r', tr) -> exists a, tr = a ++ [r']).
  { intros ix r n r' tr H. unfold w3_write8 in H.
    destruct (w3_write4 iw w ix r (Z.shiftr n 4)) as [[r1 t1]|] eqn:E1; cbn [bindo fst snd] in H; [|discriminate].
    destruct (w3_write4 iw w ix r1 n) as [[r2 t2]|] eqn:E2; cbn [bindo fst snd] in H; [|discriminate]. injection H as <- <-.
    destruct (Q4 _ _ _ _ _ E2) as (a & ->). exists (t1 ++ a). rewrite app_assoc. reflexivity. }
  intros ix r o r' tr H. assert (exists a, tr = a ++ [r']) as (a & ->).
  { destruct o as [b|b|n]; cbn [w3_op] in H; [| |eauto];
      match type of H with bindo ?m _ = _ => destruct m; cbn [bindo] in H; [|discriminate H] end; eauto. }
  split; [apply last_last|]. destruct a; discriminate.
Qed.

(** Attached displays rest with enable high. *)
Definition rests (s : chain) : Prop := range (ch_reg s) /\
  forall k ix, nth_error devs k = Some (Display ix) -> ch_att s k = true -> en (w3_lines ix (ch_reg s)) = true.

(** What a call does to the array and which values it writes. *)
Definition effect (s : chain) (k : nat) (d : device) (o : chop) (r' : Z) (vs : list Z) (tl : list cev) : Prop :=
  match d, o with
  | Display ix, Attach => vs = [r'] /\ tl = [] /\
      w3_lines ix r' = {| rs := false; en := true; d4 := false; d5 := false; d6 := false; d7 := false |}
  | Display ix, Disp o => tl = [] /\
      if ch_att s k
      then vs <> [] /\ (forall lo, delivers lo (w3_lines ix (ch_reg s)) (map (w3_lines ix) vs) (nibs (rs (w3_lines ix (ch_reg s))) o) (w3_lines ix r')) /\
           rs (w3_lines ix r') = rs_after (rs (w3_lines ix (ch_reg s))) o
      else vs = []
  | Motor i1 i2, Attach => vs = [r'] /\ tl = [] /\ Z.testbit r' i1 = false /\ Z.testbit r' i2 = false
  | Motor i1 i2, Run c => vs = [r'] /\ tl = [CPwm k (duty c)] /\ Z.testbit r' i1 = in1_of c /\ Z.testbit r' i2 = in2_of c
  | _, _ => False
  end.

Lemma put_ok : forall r i v, range r -> 0 <= i < w -> exists r', put iw w r i v = Some r' /\ range r' /\
  forall j, 0 <= j < w -> Z.testbit r' j = if j =? i then v else Z.testbit r j.
Proof.
  intros r i v Hr Hi. unfold put. destruct (ba_put_ok iw w r i v Hw Hr Hi) as (r' & E & R & T). rewrite E. cbn [bindo fst].
  exists r'. auto.
Qed.
Lemma mo_ok : forall k i1 i2 r a b, nth_error devs k = Some (Motor i1 i2) -> range r -> exists r1 r2,
  put iw w r i1 a = Some r1 /\ put iw w r1 i2 b = Some r2 /\ range r2 /\ Z.testbit r2 i1 = a /\ Z.testbit r2 i2 = b /\
  keeps (Motor i1 i2) r r2.
Proof.
  intros k i1 i2 r a b H Hr. destruct (dev_bits _ _ H) as (N & F & _). cbn [bits_of] in *.
  inversion N; subst. inversion F; subst. inversion H5; subst.
  assert (i1 <> i2) by (intros ->; apply H2; left; reflexivity).
  destruct (put_ok r i1 a Hr H4) as (r1 & E1 & R1 & T1). destruct (put_ok r1 i2 b R1 H6) as (r2 & E2 & R2 & T2).
  exists r1, r2. split; [exact E1|]. split; [exact E2|]. split; [exact R2|]. split.
  { rewrite T2, T1 by assumption. rewrite Z.eqb_refl. destruct (Z.eqb_spec i1 i2); [congruence|reflexivity]. }
  split; [rewrite T2 by assumption; rewrite Z.eqb_refl; reflexivity|].
  intros i Hi K. cbn [bits_of] in K. rewrite T2, T1 by assumption.
  destruct (Z.eqb_spec i i2); [subst; exfalso; apply K; right; left; reflexivity|].
  destruct (Z.eqb_spec i i1); [subst; exfalso; apply K; left; reflexivity|reflexivity].
Qed.

Lemma keeps_lines : forall d ix r v, Forall (fun i => 0 <= i < w) (index_list ix) ->
  (forall x, In x (index_list ix) -> ~ In x (bits_of d)) -> keeps d r v -> w3_lines ix v = w3_lines ix r.
Proof.
  intros d ix r v F D K. rewrite Forall_forall in F. unfold w3_lines.
  assert (Q : forall x, In x (index_list ix) -> Z.testbit v x = Z.testbit r x) by (intros x Hx; apply K; [apply F|apply D]; exact Hx).
  unfold index_list in Q. rewrite !Q by (cbn [In]; tauto). reflexivity.
Qed.

Lemma ch_writes_total : forall vs, Forall (fun v => range v) vs -> exists es, ch_writes iw w vs = Some es.
Proof.
  intros vs F. pose (b := mkWires {| data := false; clock := false; latch := false; reg := repeat false (Z.to_nat w); outs := [] |} (fun _ => 0)).
  destruct (ch_writes_wires iw w Hw unit (fun _ => tt) (fun _ => tt) (w_pwm b) (fun _ _ _ _ => eq_refl) (fun _ _ _ _ => eq_refl) vs b F) as (es & E & _);
    [|reflexivity|exists es; exact E].
  split; [reflexivity|]. split; [reflexivity|]. cbn. rewrite repeat_length. lia.
Qed.

Lemma duty_l : forall c, speed_ok c -> send_args c = (in1_of c, in2_of c, snd (send_args c)) /\ pwm_value (snd (send_args c)) = duty c.
Proof. intros [| |v|v] H; cbn in *; split; try reflexivity; apply pwm_value_l; lia. Qed.

Lemma step_l : forall s k o, rests s -> call_ok devs (ch_att s) k o ->
  exists d s' vs es tl, nth_error devs k = Some d /\ ch_step iw w devs s k o = Some (s', es ++ tl) /\ ch_writes iw w vs = Some es /\
    rests s' /\ ch_att s' = note (ch_att s) k o /\ Forall (fun v => range v) vs /\ last vs (ch_reg s) = ch_reg s' /\
    Forall (keeps d (ch_reg s)) vs /\ keeps d (ch_reg s) (ch_reg s') /\ effect s k d o (ch_reg s') vs tl.
Proof.
  intros s k o [Hr Hen] Hc. unfold call_ok in Hc. destruct (nth_error devs k) as [d|] eqn:E; [|destruct o; contradiction].
  destruct (dev_bits _ _ E) as (N & F & Dis).
  (* the other displays keep their lines *)
  assert (REST : forall r' at', range r' -> keeps d (ch_reg s) r' -> 
    (forall j ix, nth_error devs j = Some (Display ix) -> at' j = true -> j <> k -> ch_att s j = true) ->
    (forall ix, d = Display ix -> at' k = true -> en (w3_lines ix r') = true) -> rests (mkChain r' at')).
  { intros r' at' R K A B. split; [exact R|]. cbn [ch_reg ch_att]. intros j ix J T. destruct (Nat.eq_dec j k) as [->|Ne].
    - rewrite E in J. injection J as ->. apply B; [reflexivity|exact T].
    - destruct (dev_bits _ _ J) as (_ & Fj & Dj). rewrite (keeps_lines d ix (ch_reg s) r' Fj); [|intros x Hx; apply (Dj k d E); [congruence|exact Hx]|exact K].
      eapply Hen; [exact J|]. eapply A; eassumption. }
  exists d. destruct d as [ix|i1 i2], o as [|o|c]; try contradiction; unfold ch_step; rewrite E.
  - (* attach a display *)
    cbn [bits_of] in *. destruct (w3_attach_l iw w ix Hw F N (ch_reg s) Hr) as (r' & A & R & O & L). rewrite A. cbn [bindo fst snd].
    destruct (ch_writes_total [r'] (Forall_cons _ R (Forall_nil _))) as (es & W). rewrite W. cbn [bindo].
    exists (attached s k r'), [r'], es, []. rewrite app_nil_r. split; [reflexivity|]. split; [reflexivity|]. split; [exact W|].
    split. { apply REST; [exact R|exact O| |].
      - intros j ix' _ T Ne. destruct (Nat.eqb_spec j k); [contradiction|exact T].
      - intros ix' Q _. injection Q as <-. rewrite L. reflexivity. }
    split; [reflexivity|]. split; [repeat constructor; lia|]. split; [reflexivity|]. split; [repeat constructor; exact O|]. split; [exact O|].
    cbn [effect attached ch_reg]. auto.
  - (* a display's call *)
    cbn [bits_of] in *. destruct (ch_att s k) eqn:T.
    + pose proof (fun lo => w3_op_l lo iw w ix Hw F N (ch_reg s) o Hr (Hen _ _ E T) Hc) as P.
      destruct (w3_op iw w ix (ch_reg s) o) as [[r' tr]|] eqn:W3; [|destruct (P 0) as (? & ? & X & _); discriminate].
      destruct (P 0) as (r0 & t0 & X & R & O & Fo & _). injection X as <- <-.
      destruct (op_range _ _ _ _ _ Hr W3) as [_ Rt]. destruct (op_last _ _ _ _ _ W3) as [La Ne].
      cbn [bindo fst snd]. destruct (ch_writes_total tr Rt) as (es & W). rewrite W. cbn [bindo].
      exists (mkChain r' (ch_att s)), tr, es, []. rewrite app_nil_r. split; [reflexivity|]. split; [reflexivity|]. split; [exact W|].
      split. { apply REST; [exact R|exact O|intros; assumption|].
        intros ix' Q _. injection Q as <-. destruct (P 0) as (r0 & t0 & X & _ & _ & _ & D & _). injection X as <- <-. apply D. }
      split; [reflexivity|]. split; [exact Rt|]. split; [exact La|]. split; [exact Fo|]. split; [exact O|].
      cbn [effect ch_reg]. split; [reflexivity|]. rewrite T. split; [exact Ne|]. split.
      * intros lo. destruct (P lo) as (r0 & t0 & X & _ & _ & _ & D & _). injection X as <- <-. exact D.
      * destruct (P 0) as (r0 & t0 & X & _ & _ & _ & _ & D). injection X as <- <-. exact D.
    + exists s, [], [], []. split; [reflexivity|]. split; [reflexivity|]. split; [reflexivity|]. split; [split; assumption|].
      split; [reflexivity|]. split; [constructor|]. split; [reflexivity|]. split; [constructor|]. split; [intros i _ _; reflexivity|].
      cbn [effect]. rewrite T. auto.
  - (* attach a motor *)
    destruct (mo_ok k i1 i2 (ch_reg s) false false E Hr) as (r1 & r2 & P1 & P2 & R & B1 & B2 & K).
    unfold mo_lines. rewrite P1. cbn [bindo]. rewrite P2. cbn [bindo].
    destruct (ch_writes_total [r2] (Forall_cons _ R (Forall_nil _))) as (es & W). pose proof W as W'. cbn [ch_writes] in W'.
    destruct (ch_write iw w r2) as [es1|]; cbn [bindo] in *; [|discriminate]. rewrite app_nil_r in W'. injection W' as ->.
    exists (attached s k r2), [r2], es, []. rewrite app_nil_r. split; [reflexivity|]. split; [reflexivity|]. split; [exact W|].
    split. { apply REST; [exact R|exact K| |discriminate].
      intros j ix' _ T Ne. destruct (Nat.eqb_spec j k); [contradiction|exact T]. }
    split; [reflexivity|]. split; [repeat constructor; lia|]. split; [reflexivity|]. split; [repeat constructor; exact K|]. split; [exact K|].
    cbn [effect attached ch_reg]. auto.
  - (* a motor's call *)
    destruct Hc as [Sp T]. rewrite T. destruct (duty_l c Sp) as [Q1 Q2]. destruct (send_args c) as [[a b] p]. cbn [snd] in *. injection Q1 as -> ->.
    destruct (mo_ok k i1 i2 (ch_reg s) (in1_of c) (in2_of c) E Hr) as (r1 & r2 & P1 & P2 & R & B1 & B2 & K).
    unfold mo_lines. rewrite P1. cbn [bindo]. rewrite P2. cbn [bindo].
    destruct (ch_writes_total [r2] (Forall_cons _ R (Forall_nil _))) as (es & W). pose proof W as W'. cbn [ch_writes] in W'.
    destruct (ch_write iw w r2) as [es1|]; cbn [bindo] in *; [|discriminate]. rewrite app_nil_r in W'. injection W' as ->. rewrite Q2.
    exists (mkChain r2 (ch_att s)), [r2], es, [CPwm k (duty c)]. split; [reflexivity|]. split; [reflexivity|]. split; [exact W|].
    split. { apply REST; [exact R|exact K|intros; assumption|discriminate]. }
    split; [reflexivity|]. split; [repeat constructor; lia|]. split; [reflexivity|]. split; [repeat constructor; exact K|]. split; [exact K|].
    cbn [effect ch_reg]. auto.
Qed.

Lemma tail_wires : forall s k d o r' vs tl, effect s k d o r' vs tl -> forall b, wok b ->
  wok (wires_run b tl) /\ Forall (fun x => outs (w_chip x) = outs (w_chip b)) (moments b tl) /\
  outs (w_chip (wires_run b tl)) = outs (w_chip b).
Proof.
  intros s k d o r' vs tl H b K.
  assert (tl = [] \/ exists v, tl = [CPwm k v]) as [->|(v & ->)].
  { destruct d, o; cbn [effect] in H; try contradiction; decompose [and] H; eauto. }
  - split; [exact K|]. split; [constructor|reflexivity].
  - split; [exact K|]. split; [repeat constructor|reflexivity].
Qed.

(** One call, seen at the wires through [P]. *)
Lemma step_wires : forall s k o b, rests s -> call_ok devs (ch_att s) k o -> wok b ->
  exists d s' vs es tl, nth_error devs k = Some d /\ ch_step iw w devs s k o = Some (s', es ++ tl) /\
    rests s' /\ ch_att s' = note (ch_att s) k o /\ keeps d (ch_reg s) (ch_reg s') /\ Forall (keeps d (ch_reg s)) vs /\
    effect s k d o (ch_reg s') vs tl /\
    wok (wires_run b (es ++ tl)) /\ (vs <> [] \/ shows w (ch_reg s) b -> shows w (ch_reg s') (wires_run b (es ++ tl))) /\
    w_pwm (wires_run b es) = w_pwm b /\ last vs (ch_reg s) = ch_reg s' /\
    Forall (fun x => outs (w_chip x) = outs (w_chip (wires_run b es))) (moments (wires_run b es) tl) /\
    forall X (P : wires -> X) (Q : Z -> X),
      (forall x y, outs (w_chip x) = outs (w_chip y) -> w_pwm x = w_pwm y -> P x = P y) ->
      (forall x v, shows w v x -> w_pwm x = w_pwm b -> P x = Q v) ->
      stut (P b) (map P (moments b es)) (map Q vs).
Proof.
  intros s k o b Hs Hc K. destruct (step_l s k o Hs Hc) as (d & s' & vs & es & tl & E & S & W & R & A & Rv & La & Ks & Kp & Ef).
  exists d, s', vs, es, tl. split; [exact E|]. split; [exact S|]. split; [exact R|]. split; [exact A|]. split; [exact Kp|].
  split; [exact Ks|]. split; [exact Ef|].
  destruct (ch_writes_wires iw w Hw unit (fun _ => tt) (fun _ => tt) (w_pwm b) (fun _ _ _ _ => eq_refl) (fun _ _ _ _ => eq_refl) vs b Rv K eq_refl)
    as (es0 & W0 & K0 & P0 & L0 & _). rewrite W in W0. injection W0 as <-.
  destruct (tail_wires _ _ _ _ _ _ _ Ef _ K0) as (K1 & F1 & O1). rewrite wires_run_app.
  split; [exact K1|]. split.
  { intros H i Hi. unfold out_bit. rewrite O1. change (out_bit w (wires_run b es) i = Z.testbit (ch_reg s') i). rewrite <- La. apply L0; [|exact Hi].
    intros ->. destruct H as [H|H]; [contradiction|exact H]. }
  split; [exact P0|]. split; [exact La|]. split; [exact F1|].
  intros X P Q HP HQ. 
  destruct (ch_writes_wires iw w Hw X P Q (w_pwm b) HP HQ vs b Rv K eq_refl) as (es0 & W0 & _ & _ & _ & T). rewrite W in W0. injection W0 as <-. exact T.
Qed.

Lemma run_wires : forall h s b, rests s -> calls_ok devs (ch_att s) h -> wok b ->
  exists s' es, ch_run iw w devs s h = Some (s', es) /\ rests s' /\ wok (wires_run b es) /\
    forall h', calls_ok devs (ch_att s) (h ++ h') -> calls_ok devs (ch_att s') h'.
Proof.
  induction h as [|[k o] h IH]; intros s b Hs Hc K.
  - exists s, []. cbn. auto.
  - cbn [calls_ok] in Hc. destruct Hc as [Hc Hh].
    destruct (step_wires s k o b Hs Hc K) as (d & s1 & vs & es & tl & _ & S & R & A & _ & _ & _ & K1 & _).
    cbn [ch_run]. rewrite S. cbn [bindo fst snd]. rewrite <- A in Hh.
    destruct (IH s1 _ R Hh K1) as (s2 & es2 & S2 & R2 & K2 & C2). rewrite S2. cbn [bindo fst snd].
    exists s2, ((es ++ tl) ++ es2). split; [reflexivity|]. split; [exact R2|]. rewrite wires_run_app. split; [exact K2|].
    intros h' C. cbn [app calls_ok] in C. apply C2. rewrite A. apply C.
Qed.
Lemma ch_run_app : forall a b s, ch_run iw w devs s (a ++ b) =
  bindo (ch_run iw w devs s a) (fun x => bindo (ch_run iw w devs (fst x) b) (fun y => Some (fst y, snd x ++ snd y))).
Proof.
  induction a as [|[k o] a IH]; intros b s; cbn [app ch_run bindo fst snd].
  - destruct (ch_run iw w devs s b) as [[? ?]|]; reflexivity.
  - destruct (ch_step iw w devs s k o) as [[s1 e1]|]; [|reflexivity]. cbn [bindo fst snd]. rewrite IH.
    destruct (ch_run iw w devs s1 a) as [[s2 e2]|]; [|reflexivity]. cbn [bindo fst snd].
    destruct (ch_run iw w devs s2 b) as [[s3 e3]|]; [|reflexivity]. cbn [bindo fst snd]. rewrite app_assoc. reflexivity.
Qed.

Lemma shows_lines : forall ix r b, Forall (fun i => 0 <= i < w) (index_list ix) -> shows w r b -> lines_at w ix b = w3_lines ix r.
Proof.
  intros ix r b F S. rewrite Forall_forall in F. unfold lines_at, w3_lines, index_list in *.
  rewrite !S by (apply F; cbn [In]; tauto). reflexivity.
Qed.
Lemma delivers_still : forall lo l a, en l = true -> Forall (eq l) a -> delivers lo l a [] l.
Proof. intros lo l a H F. eapply delivers_stut; [apply stut_same; exact F|]. apply delivers_nil. exact H. Qed.
Lemma last_moments : forall X (P : wires -> X) es b, last (map P (moments b es)) (P b) = P (wires_run b es).
Proof. intros X P. induction es as [|e es IH]; intros b; [reflexivity|]. cbn [moments map]. rewrite last_step. apply IH. Qed.

(** ** The displays *)
Section D.
Variables (lo : Z) (k : nat) (ix : indices).
Hypothesis Hk : nth_error devs k = Some (Display ix).
Lemma Fix : Forall (fun i => 0 <= i < w) (index_list ix).
Proof. apply (dev_bits _ _ Hk). Qed.

(** The lines of display [k] during a call, from any state. *)
Lemma disp_step : forall s j o b, rests s -> call_ok devs (ch_att s) j o -> wok b ->
  (ch_att s k = true /\ shows w (ch_reg s) b) \/ (j = k /\ o = Attach) ->
  exists s' es, ch_step iw w devs s j o = Some (s', es) /\ rests s' /\ wok (wires_run b es) /\
    ch_att s' = note (ch_att s) j o /\ ch_att s' k = true /\ shows w (ch_reg s') (wires_run b es) /\
    delivers lo (lines_at w ix b) (map (lines_at w ix) (moments b es))
      (if (j =? k)%nat then sent (rs (lines_at w ix b)) [o] else []) (w3_lines ix (ch_reg s')) /\
    rs (w3_lines ix (ch_reg s')) =
      (if (j =? k)%nat then match o with Disp o => rs_after (rs (lines_at w ix b)) o | Attach => false | Run _ => rs (lines_at w ix b) end
       else rs (lines_at w ix b)).
Proof.
  intros s j o b Hs Hc K H.
  destruct (step_wires s j o b Hs Hc K) as (d & s' & vs & es & tl & E & S & R & A & Kp & Ks & Ef & K1 & Sh & Pw & La & Tl & St).
  exists s', (es ++ tl). split; [exact S|]. split; [exact R|]. split; [exact K1|]. split; [exact A|].
  assert (At : ch_att s' k = true).
  { rewrite A. destruct H as [[H _]|[-> ->]]; cbn [note]; [|rewrite Nat.eqb_refl; reflexivity].
    destruct o; cbn [note]; [|exact H|exact H]. destruct (k =? j)%nat; [reflexivity|exact H]. }
  split; [exact At|].
  assert (Sh' : shows w (ch_reg s') (wires_run b (es ++ tl))).
  { apply Sh. destruct H as [[_ H]|[-> ->]]; [right; exact H|]. left. rewrite Hk in E. injection E as <-. cbn [effect] in Ef.
    destruct Ef as (-> & _). discriminate. }
  split; [exact Sh'|].
  specialize (St lines (lines_at w ix) (w3_lines ix)).
  assert (T : stut (lines_at w ix b) (map (lines_at w ix) (moments b (es ++ tl))) (map (w3_lines ix) vs)).
  { rewrite moments_app, map_app. rewrite <- (app_nil_r (map (w3_lines ix) vs)).
    assert (T0 : stut (lines_at w ix b) (map (lines_at w ix) (moments b es)) (map (w3_lines ix) vs)).
    { apply St.
      - intros x y O _. unfold lines_at, out_bit. rewrite O. reflexivity.
      - intros x v V _. apply shows_lines; [apply Fix|exact V]. }
    apply stut_app; [exact T0|]. apply stut_same. rewrite Forall_map.
    rewrite <- (stut_last _ _ _ _ T0), last_moments.
    eapply Forall_impl; [|exact Tl]. intros x O. unfold lines_at, out_bit. cbv beta in O. rewrite O. reflexivity. }
  destruct (Nat.eqb_spec j k) as [->|Ne].
  - rewrite Hk in E. injection E as <-. destruct o as [|o|c]; cbn [effect] in Ef; [| |contradiction].
    + destruct Ef as (-> & _ & L). split; [|rewrite L; reflexivity]. eapply delivers_stut; [exact T|].
      cbn [map sent]. apply delivers_high. rewrite L. reflexivity.
    + destruct H as [[H1 H2]|[_ X]]; [|discriminate]. destruct Ef as (_ & Ef). rewrite H1 in Ef. destruct Ef as (_ & D & RS).
      rewrite (shows_lines ix _ b Fix H2) in *. split; [|exact RS]. eapply delivers_stut; [exact T|].
      cbn [sent]. rewrite app_nil_r. apply D.
  - destruct H as [[H1 H2]|[X _]]; [|contradiction]. rewrite (shows_lines ix _ b Fix H2) in *.
    destruct (dev_bits _ _ Hk) as (_ & _ & Dis).
    assert (Q : forall v, keeps d (ch_reg s) v -> w3_lines ix v = w3_lines ix (ch_reg s)).
    { intros v Kv. apply (keeps_lines d); [apply Fix|intros x Hx; apply (Dis j d E Ne); exact Hx|exact Kv]. }
    rewrite (Q _ Kp). split; [|reflexivity]. eapply delivers_stut; [exact T|]. apply delivers_still.
    + destruct Hs as [_ Hs]. eapply Hs; eassumption.
    + rewrite Forall_map. eapply Forall_impl; [|exact Ks]. intros v Kv. symmetry. apply Q. exact Kv.
Qed.

Lemma sent_cons : forall r o os, sent r (o :: os) = sent r [o] ++
  sent (match o with Disp o => rs_after r o | Attach => false | Run _ => r end) os.
Proof. intros r [|o|c] os; cbn [sent]; rewrite ?app_nil_r; reflexivity. Qed.

Lemma disp_run : forall h s b, rests s -> calls_ok devs (ch_att s) h -> wok b -> ch_att s k = true -> shows w (ch_reg s) b ->
  exists s' es, ch_run iw w devs s h = Some (s', es) /\
    delivers lo (lines_at w ix b) (map (lines_at w ix) (moments b es)) (sent (rs (lines_at w ix b)) (own k h)) (lines_at w ix (wires_run b es)).
Proof.
  induction h as [|[j o] h IH]; intros s b Hs Hc K At Sh.
  - exists s, []. split; [reflexivity|]. cbn. apply delivers_nil. rewrite (shows_lines ix _ b Fix Sh). destruct Hs as [_ Hs]. eapply Hs; eassumption.
  - cbn [calls_ok] in Hc. destruct Hc as [Hc Hh].
    destruct (disp_step s j o b Hs Hc K (or_introl (conj At Sh))) as (s1 & es & S & R & K1 & A & At1 & Sh1 & D & RS).
    cbn [ch_run]. rewrite S. cbn [bindo fst snd]. rewrite <- A in Hh.
    destruct (IH s1 _ R Hh K1 At1 Sh1) as (s2 & es2 & S2 & D2). rewrite S2. cbn [bindo fst snd].
    exists s2, (es ++ es2). split; [reflexivity|]. rewrite moments_app, map_app, wires_run_app.
    rewrite (shows_lines ix _ _ Fix Sh1) in D2.
    cbn [own]. rewrite RS in D2. destruct (j =? k)%nat.
    + rewrite sent_cons. eapply delivers_app; eassumption.
    + pose proof (delivers_app lo _ _ _ _ _ _ _ D D2) as X. exact X.
Qed.

Lemma display_l : forall r b h1 h2, range r -> wok b -> calls_ok devs (fun _ => false) (h1 ++ (k, Attach) :: h2) ->
  exists s1 es1 s2 es2, ch_run iw w devs (ch_new r) h1 = Some (s1, es1) /\ ch_run iw w devs s1 ((k, Attach) :: h2) = Some (s2, es2) /\
    let b1 := wires_run b es1 in
    delivers lo (lines_at w ix b1) (map (lines_at w ix) (moments b1 es2)) (sent false (own k h2)) (lines_at w ix (wires_run b1 es2)).
Proof.
  intros r b h1 h2 Hr K C.
  assert (Hs : rests (ch_new r)) by (split; [exact Hr|intros ? ? _ X; discriminate X]).
  assert (C1 : calls_ok devs (ch_att (ch_new r)) h1).
  { revert C. cbn [ch_new ch_att]. generalize (fun _ : nat => false). clear. induction h1 as [|[j o] h IH]; intros at_ C; [exact Logic.I|].
    cbn [app calls_ok] in *. split; [apply C|]. apply IH. apply C. }
  destruct (run_wires h1 (ch_new r) b Hs C1 K) as (s1 & es1 & S1 & R1 & K1 & N1).
  specialize (N1 ((k, Attach) :: h2) C). cbn [calls_ok] in N1. destruct N1 as [N1 N2].
  destruct (disp_step s1 k Attach (wires_run b es1) R1 N1 K1 (or_intror (conj eq_refl eq_refl))) as (s2 & es2 & S2 & R2 & K2 & A2 & At2 & Sh2 & D2 & RS2).
  rewrite <- A2 in N2. destruct (disp_run h2 s2 _ R2 N2 K2 At2 Sh2) as (s3 & es3 & S3 & D3).
  exists s1, es1, s3, (es2 ++ es3). split; [exact S1|]. cbn [ch_run]. rewrite S2. cbn [bindo fst snd]. rewrite S3. cbn [bindo fst snd].
  split; [reflexivity|]. cbv zeta. rewrite moments_app, map_app, wires_run_app. rewrite Nat.eqb_refl in *. cbn [sent] in D2.
  rewrite (shows_lines ix _ _ Fix Sh2) in D3. rewrite RS2 in D3. pose proof (delivers_app lo _ _ _ _ _ _ _ D2 D3) as X. exact X.
Qed.
End D.

(** ** The motors *)
Lemma split_new : forall (at_ : nat -> bool) h h', calls_ok devs at_ (h ++ h') -> calls_ok devs at_ h.
Proof.
  intros at_ h. revert at_. induction h as [|[j o] h IH]; intros at_ h' C; [exact Logic.I|].
  cbn [app calls_ok] in *. split; [apply C|]. eapply IH. apply C.
Qed.
Lemma rests_new : forall r, range r -> rests (ch_new r).
Proof. intros r Hr. split; [exact Hr|intros ? ? _ X; discriminate X]. Qed.
Lemma stut_one : forall A (x y : A) a, stut x a [y] -> exists n m, a = repeat x n ++ repeat y m.
Proof.
  intros A x y a H. remember [y] as b eqn:Eb. induction H as [x|x a b H IH|x z a b H IH].
  - discriminate.
  - destruct (IH Eb) as (n & m & ->). exists (S n), m. reflexivity.
  - injection Eb as -> ->. exists O. clear IH. remember [] as e. assert (exists m, a = repeat y m) as (m & ->).
    { induction H as [z|z a b H IH|z u a b H IH]; [exists O; reflexivity| |discriminate].
      destruct (IH Heqe) as (m & ->). exists (S m). reflexivity. }
    exists (S m). reflexivity.
Qed.
Lemma stut_none : forall A (x : A) a b, stut x a b -> Forall (eq x) b -> exists n, a = repeat x n.
Proof.
  intros A x a b H. induction H as [x|x a b H IH|x y a b H IH]; intros F; [exists O; reflexivity| |].
  - destruct (IH F) as (n & ->). exists (S n). reflexivity.
  - inversion F; subst. destruct (IH H3) as (n & ->). exists (S n). reflexivity.
Qed.

Section M.
Variables (k : nat) (i1 i2 : Z).
Hypothesis Hk : nth_error devs k = Some (Motor i1 i2).
Local Notation pa := (pins_at w i1 i2 k).
Lemma in_w : 0 <= i1 < w /\ 0 <= i2 < w.
Proof. destruct (dev_bits _ _ Hk) as (_ & F & _). cbn [bits_of] in F. inversion F; subst. inversion H2; subst. auto. Qed.

Lemma motor_step : forall s j o b, rests s -> call_ok devs (ch_att s) j o -> wok b -> shows w (ch_reg s) b \/ (j = k /\ o = Attach) ->
  exists s' es, ch_step iw w devs s j o = Some (s', es) /\ rests s' /\ wok (wires_run b es) /\
    ch_att s' = note (ch_att s) j o /\ shows w (ch_reg s') (wires_run b es) /\
    (if (j =? k)%nat
     then (exists n m, map pa (moments b es) = repeat (pa b) n ++ repeat (halfway (pa b) o) m ++
             match o with Run _ => [turned (pa b) o] | _ => [] end) /\
          pa (wires_run b es) = turned (pa b) o
     else (exists n, map pa (moments b es) = repeat (pa b) n) /\ pa (wires_run b es) = pa b).
Proof.
  intros s j o b Hs Hc K H. destruct in_w as [W1 W2].
  destruct (step_wires s j o b Hs Hc K) as (d & s' & vs & es & tl & E & S & R & A & Kp & Ks & Ef & K1 & Sh & Pw & La & Tl & St).
  exists s', (es ++ tl). split; [exact S|]. split; [exact R|]. split; [exact K1|]. split; [exact A|].
  assert (Sh' : shows w (ch_reg s') (wires_run b (es ++ tl))).
  { apply Sh. destruct H as [H|[-> ->]]; [right; exact H|]. left. rewrite Hk in E. injection E as <-. cbn [effect] in Ef.
    destruct Ef as (-> & _). discriminate. }
  split; [exact Sh'|].
  set (q := fun v => {| in1 := Z.testbit v i1; in2 := Z.testbit v i2; pwm := w_pwm b k |}).
  specialize (St pins pa q).
  assert (T : stut (pa b) (map pa (moments b es)) (map q vs)).
  { apply St.
    - intros x y O P. unfold pins_at, out_bit. rewrite O, P. reflexivity.
    - intros x v V P. unfold pins_at, q. rewrite !V by assumption. rewrite P. reflexivity. }
  pose proof (last_moments pins pa es b) as Lm. rewrite moments_app, map_app, wires_run_app.
  destruct (Nat.eqb_spec j k) as [->|Ne].
  - rewrite Hk in E. injection E as <-. destruct o as [|o|c]; cbn [effect] in Ef; [|contradiction|].
    + destruct Ef as (-> & -> & B1 & B2). cbn [moments map] in *. rewrite !app_nil_r.
      assert (Q : q (ch_reg s') = turned (pa b) Attach) by (unfold q; rewrite B1, B2; reflexivity).
      rewrite Q in T. split; [destruct (stut_one _ _ _ _ T) as (n & m & ->); exists n, m; rewrite app_nil_r; reflexivity|]. cbn [wires_run fold_left]. fold (wires_run b es). rewrite <- Lm, (stut_last _ _ _ _ T). reflexivity.
    + destruct Ef as (-> & -> & B1 & B2). cbn [moments map] in *.
      assert (Q : q (ch_reg s') = halfway (pa b) (Run c)) by (unfold q; rewrite B1, B2; reflexivity). rewrite Q in T.
      rewrite (stut_last _ _ _ _ T) in Lm. cbn [last] in Lm.
      assert (Z0 : pa (wires_step (wires_run b es) (CPwm k (duty c))) = turned (pa b) (Run c)).
      { unfold pins_at in *. cbn [wires_step w_pwm w_chip]. rewrite Nat.eqb_refl. unfold halfway in Lm. injection Lm as L1 L2 _.
        unfold out_bit in *. cbn [w_chip]. cbn [turned in1 in2] in *. rewrite <- L1, <- L2. reflexivity. }
      split; [|exact Z0]. destruct (stut_one _ _ _ _ T) as (n & m & ->). exists n, m. rewrite <- app_assoc. rewrite Z0. reflexivity.
  - destruct H as [H|[X _]]; [|contradiction]. destruct (dev_bits _ _ Hk) as (_ & _ & Dis).
    assert (Pb : pa b = q (ch_reg s)) by (unfold pins_at, q; rewrite !H by assumption; reflexivity).
    assert (Q : forall v, keeps d (ch_reg s) v -> q v = pa b).
    { intros v Kv. rewrite Pb. unfold q. rewrite !Kv; try assumption; try reflexivity; apply (Dis j d E Ne); cbn [bits_of In]; tauto. }
    assert (F : Forall (eq (pa b)) (map q vs)).
    { rewrite Forall_map. eapply Forall_impl; [|exact Ks]. intros v Kv. symmetry. apply Q. exact Kv. }
    destruct (stut_none _ _ _ _ T F) as (n & M). 
    assert (L : pa (wires_run b es) = pa b).
    { rewrite <- Lm, M. clear. induction n as [|n IH]; [reflexivity|]. cbn [repeat]. rewrite last_step. exact IH. }
    assert (TL : exists m, map pa (moments (wires_run b es) tl) = repeat (pa b) m /\ pa (wires_run (wires_run b es) tl) = pa b).
    { destruct d as [ix|j1 j2], o as [|o|c]; cbn [effect] in Ef; try contradiction.
      - destruct Ef as (_ & -> & _). exists O. split; [reflexivity|exact L].
      - destruct Ef as (-> & _). exists O. split; [reflexivity|exact L].
      - destruct Ef as (_ & -> & _). exists O. split; [reflexivity|exact L].
      - destruct Ef as (_ & -> & _). exists 1%nat. 
        assert (Z0 : pa (wires_step (wires_run b es) (CPwm j (duty c))) = pa b).
        { rewrite <- L. unfold pins_at, out_bit. cbn [wires_step w_pwm w_chip]. destruct (Nat.eqb_spec k j); [congruence|reflexivity]. }
        cbn [moments map repeat]. rewrite Z0. split; [reflexivity|exact Z0]. }
    destruct TL as (m & M2 & L2). split; [|exact L2]. exists (n + m)%nat. rewrite M, M2, <- repeat_app. reflexivity.
Qed.

Lemma motor_run_l : forall h s b, rests s -> calls_ok devs (ch_att s) h -> wok b -> shows w (ch_reg s) b ->
  exists s' es, ch_run iw w devs s h = Some (s', es) /\ rests s' /\ wok (wires_run b es) /\ shows w (ch_reg s') (wires_run b es) /\
    (forall h', calls_ok devs (ch_att s) (h ++ h') -> calls_ok devs (ch_att s') h') /\
    pa (wires_run b es) = fold_left turned (own k h) (pa b).
Proof.
  induction h as [|[j o] h IH]; intros s b Hs Hc K Sh.
  - exists s, []. cbn. auto 7.
  - cbn [calls_ok] in Hc. destruct Hc as [Hc Hh].
    destruct (motor_step s j o b Hs Hc K (or_introl Sh)) as (s1 & es & S & R & K1 & A & Sh1 & D).
    cbn [ch_run]. rewrite S. cbn [bindo fst snd]. rewrite <- A in Hh.
    destruct (IH s1 _ R Hh K1 Sh1) as (s2 & es2 & S2 & R2 & K2 & Sh2 & C2 & D2). rewrite S2. cbn [bindo fst snd].
    exists s2, (es ++ es2). split; [reflexivity|]. split; [exact R2|]. rewrite wires_run_app. split; [exact K2|]. split; [exact Sh2|]. split.
    { intros h' C. cbn [app calls_ok] in C. apply C2. rewrite A. apply C. }
    cbn [own]. rewrite D2. destruct (j =? k)%nat; destruct D as [_ ->]; reflexivity.
Qed.

Lemma motor_l : forall r b h1 h2 j o, range r -> wok b -> calls_ok devs (fun _ => false) (h1 ++ (k, Attach) :: h2 ++ [(j, o)]) ->
  exists s1 es1 s2 es2 s3 es3, ch_run iw w devs (ch_new r) h1 = Some (s1, es1) /\
    ch_run iw w devs s1 ((k, Attach) :: h2) = Some (s2, es2) /\ ch_step iw w devs s2 j o = Some (s3, es3) /\
    let b1 := wires_run b es1 in let b2 := wires_run b1 es2 in let b3 := wires_run b2 es3 in
    pa b2 = fold_left turned (own k h2) (turned (pa b1) Attach) /\
    (if (j =? k)%nat
     then (exists n m, map pa (moments b2 es3) = repeat (pa b2) n ++ repeat (halfway (pa b2) o) m ++
             match o with Run _ => [turned (pa b2) o] | _ => [] end) /\ pa b3 = turned (pa b2) o
     else (exists n, map pa (moments b2 es3) = repeat (pa b2) n) /\ pa b3 = pa b2).
Proof.
  intros r b h1 h2 j o Hr K C.
  destruct (run_wires h1 (ch_new r) b (rests_new r Hr) (split_new _ _ _ C) K) as (s1 & es1 & S1 & R1 & K1 & N1).
  specialize (N1 _ C). cbn [calls_ok] in N1. destruct N1 as [N1 N2].
  destruct (motor_step s1 k Attach (wires_run b es1) R1 N1 K1 (or_intror (conj eq_refl eq_refl))) as (s2 & es2 & S2 & R2 & K2 & A2 & Sh2 & D2).
  rewrite <- A2 in N2. destruct (motor_run_l h2 s2 _ R2 (split_new _ _ _ N2) K2 Sh2) as (s3 & es3 & S3 & R3 & K3 & Sh3 & C3 & D3).
  specialize (C3 _ N2). cbn [calls_ok] in C3. destruct C3 as [C3 _].
  destruct (motor_step s3 j o _ R3 C3 K3 (or_introl Sh3)) as (s4 & es4 & S4 & R4 & K4 & A4 & Sh4 & D4).
  exists s1, es1, s3, (es2 ++ es3), s4, es4. split; [exact S1|]. cbn [ch_run]. rewrite S2. cbn [bindo fst snd]. rewrite S3. cbn [bindo fst snd].
  split; [reflexivity|]. split; [exact S4|]. cbv zeta. rewrite !wires_run_app. rewrite Nat.eqb_refl in D2. destruct D2 as [_ D2].
  split; [rewrite D3, D2; reflexivity|exact D4].
Qed.
End M.

(** ** Bits of nobody *)
Lemma free_run : forall i, 0 <= i < w -> ~ In i (concat (map bits_of devs)) -> forall h s, rests s -> calls_ok devs (ch_att s) h ->
  forall b, wok b -> exists s' es, ch_run iw w devs s h = Some (s', es) /\ Z.testbit (ch_reg s') i = Z.testbit (ch_reg s) i /\
    (shows w (ch_reg s) b -> shows w (ch_reg s') (wires_run b es)).
Proof.
  intros i Hi N. induction h as [|[k o] h IH]; intros s Hs Hc b K.
  - exists s, []. cbn. auto.
  - cbn [calls_ok] in Hc. destruct Hc as [Hc Hh].
    destruct (step_wires s k o b Hs Hc K) as (d & s1 & vs & es & tl & E & S & R & A & Kp & _ & _ & K1 & Sh & _).
    cbn [ch_run]. rewrite S. cbn [bindo fst snd]. rewrite <- A in Hh.
    destruct (IH s1 R Hh _ K1) as (s2 & es2 & S2 & T2 & Sh2). rewrite S2. cbn [bindo fst snd].
    exists s2, ((es ++ tl) ++ es2). split; [reflexivity|]. split.
    + rewrite T2. apply Kp; [exact Hi|]. intros X. apply N. apply in_concat. exists (bits_of d). split; [|exact X]. apply in_map. eapply nth_error_In. exact E.
    + intros X. rewrite wires_run_app. apply Sh2, Sh. right. exact X.
Qed.
Lemma free_l : forall i r b h1 k h2, 0 <= i < w -> ~ In i (concat (map bits_of devs)) -> range r -> wok b ->
  calls_ok devs (fun _ => false) (h1 ++ (k, Attach) :: h2) ->
  exists s es, ch_run iw w devs (ch_new r) (h1 ++ (k, Attach) :: h2) = Some (s, es) /\ out_bit w (wires_run b es) i = Z.testbit r i.
Proof.
  intros i r b h1 k h2 Hi N Hr K C.
  destruct (free_run i Hi N h1 (ch_new r) (rests_new r Hr) (split_new _ _ _ C) b K) as (s1 & es1 & S1 & T1 & _).
  destruct (run_wires h1 (ch_new r) b (rests_new r Hr) (split_new _ _ _ C) K) as (s1' & es1' & S1' & R1 & K1 & N1).
  rewrite S1 in S1'. injection S1' as <- <-. specialize (N1 _ C).
  pose proof N1 as N1'. cbn [calls_ok] in N1. destruct N1 as [N1 N2].
  destruct (step_wires s1 k Attach _ R1 N1 K1) as (d & s2 & vs & es & tl & E & S & R & A & Kp & _ & Ef & K2 & Sh & _).
  rewrite <- A in N2. destruct (free_run i Hi N h2 s2 R N2 _ K2) as (s3 & es3 & S3 & T3 & Sh3).
  exists s3, (es1 ++ (es ++ tl) ++ es3). rewrite ch_run_app, S1. cbn [bindo fst snd ch_run]. rewrite S. cbn [bindo fst snd]. rewrite S3. cbn [bindo fst snd].
  split; [reflexivity|]. rewrite !wires_run_app in *. rewrite Sh3; [|apply Sh; left|exact Hi].
  - rewrite T3. rewrite Kp; [exact T1|exact Hi|]. intros X. apply N. apply in_concat. exists (bits_of d). split; [|exact X]. apply in_map. eapply nth_error_In. exact E.
  - destruct d; cbn [effect] in Ef; destruct Ef as (-> & _); discriminate.
Qed.
End L.
