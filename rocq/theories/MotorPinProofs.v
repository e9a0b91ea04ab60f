Require Import ZArith List Bool Lia ZifyBool.
Import ListNotations.
From Verif Require Import Base BaseFacts ArduinoModel ArduinoSpec ArduinoProofs MotorModel MotorSpec MotorPinModel MotorPinSpec.
Open Scope Z_scope.

Section M.
Variable timer : Z -> bool.
Variable outside : Z -> bool -> bool.
Notation run := (fun b ops => fst (p_run timer outside b ops)).
Notation trace := (p_trace timer outside).
Lemma run_cons : forall o ops b, run b (o :: ops) = run (fst (p_step timer outside b o)) ops.
Proof. intros o ops b. cbn [p_run]. destruct (p_step timer outside b o) as [b1 v]. cbn [fst]. destruct (p_run timer outside b1 ops). reflexivity. Qed.
Lemma run_app : forall o1 o2 b, run b (o1 ++ o2) = run (run b o1) o2.
Proof. induction o1 as [|o o1 IH]; intros o2 b; [reflexivity|]. rewrite <- app_comm_cons, !run_cons. apply IH. Qed.
Lemma trace_app : forall o1 o2 b, trace b (o1 ++ o2) = trace b o1 ++ trace (run b o1) o2.
Proof. induction o1 as [|o o1 IH]; intros o2 b; [reflexivity|]. rewrite <- app_comm_cons, run_cons. cbn [p_trace app]. rewrite IH. reflexivity. Qed.
Lemma trace_frame : forall ops b n, sane timer b -> (forall o, In o ops -> pin_of o <> n) -> Forall (fun b' => b' n = b n) (trace b ops).
Proof.
  induction ops as [|o ops IH]; intros b n S F; [constructor|]. cbn [p_trace]. destruct (step_frame timer outside b o S) as [S1 F1].
  assert (E : fst (p_step timer outside b o) n = b n) by (apply F1; intro X; apply (F o); [left; reflexivity|congruence]).
  constructor; [exact E|]. rewrite <- E. apply IH; [exact S1|]. intros o' I. apply F. right. exact I.
Qed.
Lemma channel_ext : forall x b b', (forall n, In n (motor_list x) -> b' n = b n) -> channel x b' = channel x b.
Proof.
  intros x b b' H. unfold channel. rewrite !(H (m_in1 x)), !(H (m_in2 x)), !(H (m_pwm x)); try reflexivity; unfold motor_list; cbn [In]; auto.
Qed.
Lemma channel_frame : forall x ops b, sane timer b -> (forall o n, In o ops -> In n (motor_list x) -> pin_of o <> n) ->
  Forall (fun b' => channel x b' = channel x b) (trace b ops) /\ channel x (run b ops) = channel x b.
Proof.
  intros x ops b S F. split.
  - assert (A : forall n, In n (motor_list x) -> Forall (fun b' => b' n = b n) (trace b ops)) by (intros n I; apply trace_frame; [exact S|intros o J; apply F; assumption]).
    apply Forall_forall. intros b' I. apply channel_ext. intros n J. specialize (A n J). rewrite Forall_forall in A. apply A. exact I.
  - apply channel_ext. intros n J. apply pins_frame_l; [exact S|]. intros o K. apply F; assumption.
Qed.

(** Input pins that are outputs with their timer off. *)
Definition out_pin (b : board) (n : Z) : Prop := p_ddr (b n) = true /\ p_pwm (b n) = None.
Definition ready (x : motor_pins) (b : board) : Prop := out_pin b (m_in1 x) /\ out_pin b (m_in2 x).
Lemma duty_analog : forall v p, 0 < v < 256 -> signal_of p = analog_signal true v -> duty p = v.
Proof.
  intros v p V E. unfold duty. rewrite E. unfold analog_signal. replace (v =? 0) with false by lia. destruct (v =? 255) eqn:F; [lia|reflexivity].
Qed.
Lemma send_l : forall x b a1 a2 p, NoDup (motor_list x) -> sane timer b -> ready x b -> 0 <= p < 256 ->
  exists b1 b2 b3, trace b (motor_send x a1 a2 p) = [b1; b2; b3] /\ run b (motor_send x a1 a2 p) = b3 /\
    (high (b1 (m_in1 x)) = a1 /\ high (b1 (m_in2 x)) = high (b (m_in2 x)) /\ duty (b1 (m_pwm x)) = duty (b (m_pwm x))) /\
    (high (b2 (m_in1 x)) = a1 /\ high (b2 (m_in2 x)) = a2 /\ duty (b2 (m_pwm x)) = duty (b (m_pwm x))) /\
    (high (b3 (m_in1 x)) = a1 /\ high (b3 (m_in2 x)) = a2 /\ signal_of (b3 (m_pwm x)) = analog_signal (timer (m_pwm x)) (Z.max 1 p)) /\
    sane timer b3 /\ ready x b3.
Proof.
  intros x b a1 a2 p N S [[R1 R2] [R3 R4]] P. unfold motor_send.
  assert (D12 : m_in1 x <> m_in2 x /\ m_in1 x <> m_pwm x /\ m_in2 x <> m_pwm x).
  { unfold motor_list in N. inversion N as [|? ? N1 N2]; subst. inversion N2 as [|? ? N3 N4]; subst. cbn [In] in N1, N3. repeat split; intro E; rewrite E in *; tauto. }
  destruct D12 as (D1 & D2 & D3).
  set (o3 := if p >? 0 then PAnalog (m_pwm x) p else PAnalog (m_pwm x) 1).
  assert (O3 : o3 = PAnalog (m_pwm x) (Z.max 1 p)) by (unfold o3; destruct (p >? 0) eqn:E; f_equal; lia). rewrite O3. clear o3 O3.
  set (b1 := digital_write timer b (m_in1 x) a1). assert (S1 : sane timer b1) by (apply sane_write; exact S).
  set (b2 := digital_write timer b1 (m_in2 x) a2). assert (S2 : sane timer b2) by (apply sane_write; exact S1).
  assert (V : 0 <= Z.max 1 p < 256) by lia.
  destruct (analog_l timer b2 (m_pwm x) (Z.max 1 p) S2 V) as (S3 & F3 & G3).
  set (b3 := analog_write timer b2 (m_pwm x) (Z.max 1 p)) in *.
  exists b1, b2, b3.
  assert (E1 : b1 (m_in1 x) = mkPin true a1 None) by (unfold b1; rewrite write_at, Z.eqb_refl, R1 by exact S; reflexivity).
  assert (O1 : forall n, n <> m_in1 x -> b1 n = b n) by (intros n H; unfold b1; rewrite write_at by exact S; rewrite (proj2 (Z.eqb_neq n (m_in1 x)) H); reflexivity).
  assert (E2 : b2 (m_in2 x) = mkPin true a2 None) by (unfold b2; rewrite write_at, Z.eqb_refl, O1, R3 by (exact S1 || congruence); reflexivity).
  assert (O2 : forall n, n <> m_in2 x -> b2 n = b1 n) by (intros n H; unfold b2; rewrite write_at by exact S1; rewrite (proj2 (Z.eqb_neq n (m_in2 x)) H); reflexivity).
  split; [cbn [p_trace p_step fst]; rewrite (u8_small (Z.max 1 p)) by exact V; reflexivity|].
  split; [rewrite !run_cons; cbn [p_step fst p_run]; rewrite (u8_small (Z.max 1 p)) by exact V; reflexivity|].
  rewrite (F3 (m_in1 x)), (F3 (m_in2 x)) by assumption. rewrite (O2 (m_in1 x)), (O2 (m_pwm x)) by congruence.
  rewrite (O1 (m_in2 x)), (O1 (m_pwm x)) by congruence. rewrite E1, E2.
  split; [repeat split|]. split; [repeat split|]. split; [split; [reflexivity|split; [reflexivity|]]|].
  - exact G3.
  - split; [exact S3|]. unfold ready, out_pin. rewrite (F3 (m_in1 x)), (F3 (m_in2 x)), (O2 (m_in1 x)), E1, E2 by congruence. repeat split.
Qed.
Definition call_args (c : command) : bool * bool * Z :=
  match c with Stop => (false, false, 0) | Break => (true, true, 0) | Clockwise v => (true, false, v) | CounterClockwise v => (false, true, v) end.
Lemma call_send : forall x c, motor_call x c = motor_send x (fst (fst (call_args c))) (snd (fst (call_args c))) (snd (call_args c)).
Proof. intros x []; reflexivity. Qed.
Lemma call_l : forall x b c, NoDup (motor_list x) -> timer (m_pwm x) = true -> sane timer b -> ready x b -> speed_ok c ->
  sane timer (run b (motor_call x c)) /\ ready x (run b (motor_call x c)) /\ channel x (run b (motor_call x c)) = asked c.
Proof.
  intros x b c N T S R C. rewrite call_send. destruct (send_l x b (fst (fst (call_args c))) (snd (fst (call_args c))) (snd (call_args c)) N S R) as (b1 & b2 & b3 & _ & E & _ & _ & (H1 & H2 & H3) & S3 & R3).
  { destruct c; cbn [call_args fst snd]; cbn [speed_ok] in C; lia. }
  rewrite T in H3. apply duty_analog in H3; [|destruct c; cbn [call_args snd]; cbn [speed_ok] in C; lia].
  rewrite E. split; [exact S3|]. split; [exact R3|]. unfold channel. rewrite H1, H2, H3. clear - C.
  destruct c as [| |v|v]; cbn [call_args fst snd asked]; try reflexivity; replace (Z.max 1 v =? 0) with false by lia; reflexivity.
Qed.
Lemma glitch_l : forall x b c, NoDup (motor_list x) -> timer (m_pwm x) = true -> sane timer b -> ready x b -> speed_ok c ->
  (channel x b = Off -> c <> Break) -> (high (b (m_in1 x)) = true -> high (b (m_in2 x)) = true -> c <> Stop) ->
  Forall (fun b' => direction (channel x b') = direction (channel x b) \/ direction (channel x b') = direction (asked c) \/
                    direction (channel x b') = None) (trace b (motor_call x c)).
Proof.
  intros x b c N T S R C G1 G2. rewrite call_send.
  destruct (send_l x b (fst (fst (call_args c))) (snd (fst (call_args c))) (snd (call_args c)) N S R) as (b1 & b2 & b3 & E & _ & (H1 & H2 & H3) & (I1 & I2 & I3) & (J1 & J2 & J3) & _).
  { destruct c; cbn [call_args fst snd]; cbn [speed_ok] in C; lia. }
  rewrite T in J3. apply duty_analog in J3; [|destruct c; cbn [call_args snd]; cbn [speed_ok] in C; lia].
  rewrite E. unfold channel in *. repeat apply Forall_cons; [| | |apply Forall_nil];
  rewrite ?H1, ?H2, ?H3, ?I1, ?I2, ?I3, ?J1, ?J2, ?J3;
  destruct (high (b (m_in1 x))), (high (b (m_in2 x))), c as [| |v|v]; cbn [call_args fst snd asked direction] in *;
  try (exfalso; apply G1; reflexivity); try (exfalso; apply G2; reflexivity);
  repeat match goal with |- context [if ?d =? 0 then _ else _] => destruct (d =? 0) end; cbn [direction]; auto.
Qed.
Lemma untimed_l : forall x b v, NoDup (motor_list x) -> timer (m_pwm x) = false -> sane timer b -> ready x b -> 0 <= v < 256 ->
  channel x (run b (motor_call x (Clockwise v))) = (if v <? 128 then Brake else CW 255) /\
  channel x (run b (motor_call x (CounterClockwise v))) = (if v <? 128 then Brake else CCW 255).
Proof.
  intros x b v N T S R V.
  assert (D : forall p, signal_of p = analog_signal false (Z.max 1 v) -> duty p = if v <? 128 then 0 else 255).
  { intros p E. unfold duty. rewrite E. unfold analog_signal. replace (Z.max 1 v =? 0) with false by lia. destruct (Z.max 1 v =? 255) eqn:F.
    - replace (v <? 128) with false by lia. reflexivity.
    - replace (128 <=? Z.max 1 v) with (negb (v <? 128)) by lia. destruct (v <? 128); reflexivity. }
  split; rewrite call_send; cbn [call_args fst snd].
  - destruct (send_l x b true false v N S R V) as (b1 & b2 & b3 & _ & E & _ & _ & (H1 & H2 & H3) & _). rewrite T in H3. apply D in H3.
    rewrite E. unfold channel. rewrite H1, H2, H3. destruct (v <? 128); reflexivity.
  - destruct (send_l x b false true v N S R V) as (b1 & b2 & b3 & _ & E & _ & _ & (H1 & H2 & H3) & _). rewrite T in H3. apply D in H3.
    rewrite E. unfold channel. rewrite H1, H2, H3. destruct (v <? 128); reflexivity.
Qed.

(** ** Programs *)
Lemma nodup_split : forall (a b : list Z), NoDup (a ++ b) -> NoDup a /\ NoDup b.
Proof.
  induction a as [|n a IH]; intros b N; [split; [constructor|exact N]|]. cbn [app] in N. inversion N as [|? ? N1 N2]; subst.
  destruct (IH b N2) as [A B]. split; [constructor; [|exact A]|exact B]. intro I. apply N1, in_or_app. left. exact I.
Qed.
Lemma pins_disjoint : forall xs j k x y n, NoDup (flat_map motor_list xs) -> nth_error xs j = Some x -> nth_error xs k = Some y -> j <> k ->
  In n (motor_list x) -> ~ In n (motor_list y).
Proof.
  induction xs as [|z xs IH]; intros j k x y n N J K D I; [destruct j; discriminate|].
  cbn [flat_map] in N. destruct (nodup_split _ _ N) as [_ N2].
  assert (X : forall m w, In m (motor_list z) -> In w xs -> ~ In m (motor_list w)).
  { intros m w I1 I2 I3. clear - N I1 I2 I3. induction (motor_list z) as [|a l IHl]; [destruct I1|]. cbn [app] in N. inversion N as [|? ? N1 N2]; subst.
    destruct I1 as [->|I1]; [|apply IHl; assumption]. apply N1, in_or_app. right. apply in_flat_map. exists w. auto. }
  destruct j as [|j], k as [|k]; cbn [nth_error] in J, K; [congruence| | |].
  - injection J as ->. apply (X n y I). apply (nth_error_In _ _ K).
  - injection K as ->. intro I'. apply (X n x I' (nth_error_In _ _ J)). exact I.
  - apply (IH j k x y n N2 J K); [congruence|exact I].
Qed.
Lemma own_nodup : forall xs k x, NoDup (flat_map motor_list xs) -> nth_error xs k = Some x -> NoDup (motor_list x).
Proof.
  induction xs as [|z xs IH]; intros k x N K; [destruct k; discriminate|]. cbn [flat_map] in N.
  destruct k as [|k]; cbn [nth_error] in K; [injection K as ->; exact (proj1 (nodup_split _ _ N))|apply (IH k); [exact (proj2 (nodup_split _ _ N))|exact K]].
Qed.
Lemma pin_in : forall xs k x n, nth_error xs k = Some x -> In n (motor_list x) -> In n (flat_map motor_list xs).
Proof. intros xs k x n K I. apply in_flat_map. exists x. split; [apply (nth_error_In _ _ K)|exact I]. Qed.
Lemma call_pins : forall x c o, In o (motor_call x c) -> In (pin_of o) (motor_list x).
Proof.
  intros x c o I. rewrite call_send in I. unfold motor_send in I. cbn [In] in I. unfold motor_list. destruct I as [<-|[<-|[I|[]]]]; [left; reflexivity|right; left; reflexivity|].
  right. right. left. destruct (snd (call_args c) >? 0); subst o; reflexivity.
Qed.
Lemma other_pins : forall xs k x o p n, NoDup (flat_map motor_list xs) -> nth_error xs k = Some x -> mop_ok xs o -> commands k [o] = [] ->
  In p (mop_calls xs o) -> In n (motor_list x) -> pin_of p <> n.
Proof.
  intros xs k x o p n N K O C I J E. destruct o as [j c|o]; cbn [mop_calls mop_ok] in *.
  - unfold commands in C. cbn [flat_map] in C. destruct (Nat.eqb_spec j k) as [->|D]; [discriminate|]. destruct (nth_error xs j) as [y|] eqn:Y; [|destruct I].
    apply call_pins in I. rewrite E in I. exact (pins_disjoint xs j k y x n N Y K D I J).
  - destruct I as [<-|[]]. apply O. rewrite E. apply (pin_in xs k x n K J).
Qed.
Lemma commands_app : forall k a b, commands k (a ++ b) = commands k a ++ commands k b.
Proof. intros k a b. unfold commands. apply flat_map_app. Qed.
Lemma ready_frame : forall x ops b, sane timer b -> (forall o n, In o ops -> In n (motor_list x) -> pin_of o <> n) -> ready x b -> ready x (run b ops).
Proof.
  intros x ops b S F [[R1 R2] [R3 R4]]. unfold ready, out_pin.
  assert (E1 : run b ops (m_in1 x) = b (m_in1 x)) by (apply pins_frame_l; [exact S|intros o I; apply F; [exact I|left; reflexivity]]).
  assert (E2 : run b ops (m_in2 x) = b (m_in2 x)) by (apply pins_frame_l; [exact S|intros o I; apply F; [exact I|right; left; reflexivity]]).
  rewrite E1, E2. auto.
Qed.
Lemma run_l : forall xs k x ops b, wired timer xs -> nth_error xs k = Some x -> sane timer b -> ready x b -> Forall (mop_ok xs) ops ->
  let b' := motors_run timer outside b xs ops in sane timer b' /\ ready x b' /\ channel x b' = wanted (channel x b) (commands k ops).
Proof.
  intros xs k x ops b [N T] K S R F. unfold motors_run. induction ops as [|o ops IH] using rev_ind; [cbv zeta; cbn [flat_map p_run fst]; auto|].
  apply Forall_app in F as [F1 F2]. inversion F2 as [|? ? O _]; subst. cbv zeta in *. destruct (IH F1) as (S1 & R1 & C1). clear IH.
  rewrite flat_map_app, run_app. cbn [flat_map]. rewrite app_nil_r. set (b1 := fst (p_run timer outside b (flat_map (mop_calls xs) ops))) in *.
  rewrite commands_app. destruct (commands k [o]) as [|c cs] eqn:C.
  - rewrite app_nil_r. assert (D : forall p n, In p (mop_calls xs o) -> In n (motor_list x) -> pin_of p <> n) by (intros p n; apply (other_pins xs k x o p n N K O C)).
    split; [apply run_sane; exact S1|]. split; [apply ready_frame; assumption|]. rewrite <- C1. apply channel_frame; assumption.
  - destruct o as [j c'|o]; [|discriminate]. unfold commands in C. cbn [flat_map] in C. destruct (Nat.eqb_spec j k) as [->|]; [|discriminate].
    injection C as -> <-. cbn [mop_calls]. rewrite K. rewrite Forall_forall in T.
    destruct (call_l x b1 c (own_nodup xs k x N K) (T x (nth_error_In _ _ K)) S1 R1 O) as (S2 & R2 & C2). split; [exact S2|]. split; [exact R2|].
    rewrite C2. unfold wanted. rewrite map_app. cbn [map]. rewrite last_last. reflexivity.
Qed.
Lemma steady_l : forall xs k x ops b, wired timer xs -> nth_error xs k = Some x -> sane timer b -> Forall (mop_ok xs) ops -> commands k ops = [] ->
  Forall (fun b' => channel x b' = channel x b) (trace b (flat_map (mop_calls xs) ops)).
Proof.
  intros xs k x ops b [N T] K S F C. apply channel_frame; [exact S|]. intros p n I J. apply in_flat_map in I as (o & O & I).
  rewrite Forall_forall in F. apply (other_pins xs k x o p n N K (F o O)); [|exact I|exact J].
  destruct o as [j c|o']; [|reflexivity]. unfold commands in *. cbn [flat_map]. destruct (Nat.eqb_spec j k) as [->|D]; [|reflexivity].
  exfalso. apply in_split in O as (l1 & l2 & ->). rewrite flat_map_app in C. apply app_eq_nil in C as [_ C]. cbn [flat_map] in C. rewrite Nat.eqb_refl in C. discriminate.
Qed.

(** ** Construction *)
Lemma mode_run : forall ops b, (forall o, In o ops -> exists n, o = POut n) -> sane timer b ->
  forall m, (In (POut m) ops -> run b ops m = mkPin true (p_latch (b m)) (p_pwm (b m))) /\ (~ In (POut m) ops -> run b ops m = b m).
Proof.
  induction ops as [|o ops IH]; intros b F S m; [split; [intros []|reflexivity]|]. rewrite run_cons. destruct (F o (or_introl eq_refl)) as [n ->]. cbn [p_step fst].
  destruct (IH (pin_mode b n true) (fun o' I => F o' (or_intror I)) (sane_mode timer b n true S) m) as [I1 I2].
  destruct (Z.eq_dec m n) as [->|D].
  - split; [|intro X; exfalso; apply X; left; reflexivity]. intros _.
    destruct (in_dec (fun a b : pop => ltac:(repeat decide equality)) (POut n) ops) as [J|J]; [rewrite (I1 J)|rewrite (I2 J)]; rewrite mode_at, Z.eqb_refl; reflexivity.
  - assert (E : pin_mode b n true m = b m) by (rewrite mode_at; replace (m =? n) with false by lia; reflexivity). rewrite E in I1, I2. split.
    + intros [X|X]; [injection X as X; congruence|exact (I1 X)].
    + intros X. apply I2. intro Y. apply X. right. exact Y.
Qed.
Lemma new_out : forall xs o, In o (flat_map motor_new xs) -> exists n, o = POut n.
Proof. intros xs o I. apply in_flat_map in I as (x & _ & I). unfold motor_new in I. cbn [In] in I. destruct I as [<-|[<-|[<-|[]]]]; eexists; reflexivity. Qed.
Lemma new_in : forall xs n, In (POut n) (flat_map motor_new xs) <-> In n (flat_map motor_list xs).
Proof.
  intros xs n. rewrite !in_flat_map. split; intros (x & I & J); exists x; (split; [exact I|]); unfold motor_new, motor_list in *; cbn [In] in *.
  - destruct J as [J|[J|[J|[]]]]; injection J as J; auto.
  - destruct J as [J|[J|[J|[]]]]; subst n; auto.
Qed.
Lemma new_l : forall xs k x b, nth_error xs k = Some x -> sane timer b -> (forall n, In n (flat_map motor_list xs) -> p_pwm (b n) = None) ->
  let b' := motors_new timer outside b xs in sane timer b' /\ ready x b' /\
  (forall n, In n (flat_map motor_list xs) -> b' n = mkPin true (p_latch (b n)) None) /\ (forall n, ~ In n (flat_map motor_list xs) -> b' n = b n).
Proof.
  intros xs k x b K S P. unfold motors_new. cbv zeta. pose proof (mode_run (flat_map motor_new xs) b (new_out xs) S) as M.
  assert (V : forall n, In n (flat_map motor_list xs) -> run b (flat_map motor_new xs) n = mkPin true (p_latch (b n)) None).
  { intros n I. rewrite (proj1 (M n)) by (apply new_in; exact I). rewrite (P n I). reflexivity. }
  split; [apply run_sane; exact S|]. split; [|split; [exact V|]].
  - split; split; rewrite V by (apply (pin_in xs k x _ K); unfold motor_list; cbn [In]; auto); reflexivity.
  - intros n I. apply (M n). rewrite new_in. exact I.
Qed.
Lemma trace_out : forall ops b, (forall o, In o ops -> exists n, o = POut n) -> (forall n, p_latch (b n) = false /\ p_pwm (b n) = None) ->
  Forall (fun b' => forall n, p_latch (b' n) = false /\ p_pwm (b' n) = None) (trace b ops).
Proof.
  induction ops as [|o ops IH]; intros b F Z0; [constructor|]. cbn [p_trace]. destruct (F o (or_introl eq_refl)) as [n ->]. cbn [p_step fst].
  assert (X : forall m, p_latch (pin_mode b n true m) = false /\ p_pwm (pin_mode b n true m) = None).
  { intro m. rewrite mode_at. destruct (m =? n); [cbn [p_latch p_pwm]|]; apply Z0. }
  constructor; [exact X|]. apply IH; [intros o I; apply F; right; exact I|exact X].
Qed.
Lemma low_off : forall x b, (forall n, p_latch (b n) = false /\ p_pwm (b n) = None) -> channel x b = Off.
Proof.
  intros x b H. assert (L : forall n, high (b n) = false).
  { intro n. destruct (H n) as [H1 H2]. unfold high, signal_of. rewrite H1, H2. destruct (p_ddr (b n)); reflexivity. }
  unfold channel. rewrite !L. reflexivity.
Qed.
End M.
