(** Proofs for identifiable objects and debug messages. *)
Require Import ZArith List Bool Lia ZifyBool.
Import ListNotations.
From Verif Require Import Base BaseFacts TimeModel TimeSpec TimeProofs MiscModel MiscSpec.
Open Scope Z_scope.
Local Ltac Zify.zify_post_hook ::= idtac.

Section Rename.
Variable f : Z -> Z.
Lemma eqb_ids : forall a b, (f b = f a -> b = a) -> (f b =? f a) = (b =? a).
Proof.
  intros a b H. destruct (Z.eqb_spec b a) as [->|N].
  - apply Z.eqb_refl.
  - apply Z.eqb_neq. intros E. apply N, H, E.
Qed.
Definition only (a : Z) (ops : list dl_op) : Prop := forall b, In b (addresses ops) -> f b = f a -> b = a.
Lemma only_cons : forall a o ops, only a (o :: ops) ->
  (forall b, In b (address_of o) -> (f b =? f a) = (b =? a)) /\ only a ops.
Proof.
  intros a o ops H. split.
  - intros b Hb. apply eqb_ids. apply H. unfold addresses. cbn [flat_map]. apply in_or_app. left; exact Hb.
  - intros b Hb. apply H. unfold addresses. cbn [flat_map]. apply in_or_app. right; exact Hb.
Qed.
Lemma about_ids : forall a ops outs, only a ops -> about (f a) (map (rename f) ops) outs = about a ops outs.
Proof.
  intros a ops. induction ops as [|o ops IH]; intros outs H; [reflexivity|].
  apply only_cons in H. destruct H as [H1 H2].
  destruct outs as [|b outs]; [destruct o; reflexivity|].
  destruct o as [d|x t|x|x|x]; cbn [map rename about]; try (apply IH; exact H2);
    rewrite (H1 x (or_introl eq_refl)); destruct (x =? a); rewrite (IH outs H2); reflexivity.
Qed.
Lemma timer_ids : forall a ops tm d, only a ops -> tm_run (f a) tm d (map (rename f) ops) = tm_run a tm d ops.
Proof.
  intros a ops. induction ops as [|o ops IH]; intros tm d H; [reflexivity|].
  apply only_cons in H. destruct H as [H1 H2].
  destruct o as [x|x t|x|x|x]; cbn [map rename tm_run tm_step]; try (apply IH; exact H2);
    rewrite (H1 x (or_introl eq_refl)); destruct (x =? a); try (apply IH; exact H2).
  - destruct tm as [r|]; [destruct (r <=? d)|]; rewrite (IH _ _ H2); reflexivity.
  - rewrite (IH _ _ H2). reflexivity.
Qed.
End Rename.
Lemma id_range : forall a, 0 <= get_id a < 65536.
Proof. intros a. unfold get_id, u16. apply Z.mod_pos_bound. lia. Qed.
Lemma calls_ok : forall ops, Forall times_ok ops -> (forall a, In a (addresses ops) -> get_id a <> 0) ->
  Forall dl_ok (map by_object ops).
Proof.
  induction ops as [|o ops IH]; intros H N; [constructor|].
  inversion H as [|? ? H1 H2]; subst. cbn [map]. constructor.
  - assert (G : forall x, In x (address_of o) -> 0 < get_id x < 65536).
    { intros x Hx. pose proof (id_range x). assert (get_id x <> 0) by (apply N; unfold addresses; cbn [flat_map]; apply in_or_app; left; exact Hx). lia. }
    destruct o as [d|x t|x|x|x]; cbn [by_object rename dl_ok]; cbn [times_ok] in H1; try exact H1;
      try (split; [apply G; left; reflexivity | exact H1]); apply G; left; reflexivity.
  - apply IH; [exact H2|]. intros a Ha. apply N. unfold addresses. cbn [flat_map]. apply in_or_app. right; exact Ha.
Qed.
Lemma addresses_rename : forall f ops, addresses (map (rename f) ops) = map f (addresses ops).
Proof.
  intros f ops. unfold addresses. induction ops as [|o ops IH]; [reflexivity|].
  cbn [map flat_map]. rewrite IH, map_app. destruct o; reflexivity.
Qed.
Lemma times_rename : forall f ops, Forall times_ok ops -> Forall times_ok (map (rename f) ops).
Proof.
  intros f ops H. induction H as [|o ops H1 H2 IH]; [constructor|]. cbn [map]. constructor; [destruct o; exact H1|exact IH].
Qed.
Lemma ident_timers_l : forall n ops s outs, Forall times_ok ops ->
  (forall a, In a (addresses ops) -> get_id a <> 0) ->
  (forall a b, In a (addresses ops) -> In b (addresses ops) -> get_id a = get_id b -> a = b) ->
  dl_run (dl_init n) (map by_object ops) = Some (s, outs) ->
  forall a, In a (addresses ops) -> about a ops outs = tm_run a None 0 ops.
Proof.
  intros n ops s outs T N D R a Ha.
  assert (O : only get_id a ops) by (intros b Hb E; apply (D b a Hb Ha E)).
  rewrite <- (about_ids get_id a ops outs O), <- (timer_ids get_id a ops None 0 O).
  apply (delays_timers_l n _ s outs (calls_ok ops T N) R).
  pose proof (id_range a). pose proof (N a Ha). lia.
Qed.

Lemma id_small : forall a, 0 < a < 65536 -> get_id a = a.
Proof. intros a H. unfold get_id, u16. apply Z.mod_small. lia. Qed.
Lemma ident_distinct_l : forall x y, in_memory 16 x -> in_memory 16 y -> apart x y ->
  get_id (fst x) <> get_id (fst y) /\ get_id (fst x) = fst x /\ 0 < get_id (fst x) < 65536.
Proof.
  intros [a s] [b t] [H1 [H2 H3]] [K1 [K2 K3]] A. unfold apart in A. cbn [fst snd] in *. change (2 ^ 16) with 65536 in *.
  rewrite (id_small a), (id_small b) by lia. lia.
Qed.

Lemma log_all_filter : forall dbg write level l,
  log_all dbg write level l =
  if dbg && write
  then map snd (filter (fun x => match level with None => true | Some f => f (fst (fst x)) (snd (fst x)) end) l)
  else [].
Proof.
  intros dbg write level l. induction l as [|[[c v] m] l IH].
  - destruct (dbg && write); reflexivity.
  - cbn [log_all]. rewrite IH. unfold log, can_log.
    destruct dbg, write; cbn [andb negb]; try reflexivity.
    cbn [filter fst snd]. destruct level as [f|]; [destruct (f c v)|]; reflexivity.
Qed.

Lemma ident_timers_avr_l : forall layout n ops s outs, Forall times_ok ops ->
  (forall k, In k (addresses ops) -> in_memory 16 (layout k)) ->
  (forall k j, In k (addresses ops) -> In j (addresses ops) -> k <> j -> apart (layout k) (layout j)) ->
  dl_run (dl_init n) (map by_object (map (placed layout) ops)) = Some (s, outs) ->
  forall k, In k (addresses ops) -> about k ops outs = tm_run k None 0 ops.
Proof.
  intros layout n ops s outs T M A R k Hk.
  assert (E : map (placed layout) ops = map (rename (fun k => fst (layout k))) ops) by reflexivity. rewrite E in R. clear E.
  set (f := fun k => fst (layout k)) in *.
  assert (F : forall a, In a (addresses (map (rename f) ops)) -> exists j, a = f j /\ In j (addresses ops)).
  { intros a Ha. rewrite addresses_rename in Ha. apply in_map_iff in Ha. destruct Ha as [j [E Hj]]. exists j. auto. }
  assert (I : forall j, In j (addresses ops) -> get_id (f j) = f j /\ f j <> 0).
  { intros j Hj. destruct (M j Hj) as [P1 [P2 P3]]. change (2 ^ 16) with 65536 in P3. subst f; cbv beta.
    split; [apply id_small; lia|lia]. }
  assert (D : forall i j, In i (addresses ops) -> In j (addresses ops) -> f i = f j -> i = j).
  { intros i j Hi Hj E. destruct (Z.eq_dec i j) as [|N]; [assumption|exfalso].
    destruct (M i Hi) as [_ [P _]], (M j Hj) as [_ [Q _]]. pose proof (A i j Hi Hj N) as B.
    unfold apart in B. subst f; cbv beta in *. lia. }
  assert (O : only f k ops) by (intros j Hj E; apply (D j k Hj Hk E)).
  rewrite <- (about_ids f k ops outs O), <- (timer_ids f k ops None 0 O).
  apply (ident_timers_l n _ s outs (times_rename f ops T)); [| |exact R|].
  - intros a Ha. destruct (F a Ha) as [j [-> Hj]]. destruct (I j Hj) as [-> N]. exact N.
  - intros a b Ha Hb E. destruct (F a Ha) as [i [-> Hi]], (F b Hb) as [j [-> Hj]].
    rewrite (proj1 (I i Hi)), (proj1 (I j Hj)) in E. exact E.
  - rewrite addresses_rename. apply in_map. exact Hk.
Qed.
Lemma ident_collision_l : forall a b, a <> b -> get_id a = get_id b -> get_id a <> 0 ->
  let ops := [DWait a 10; DWait b 10; DUpdate 5; DWait a 10; DWait b 10] in
  exists s outs, dl_run (dl_init 4) (map by_object ops) = Some (s, outs) /\
    about b ops outs = [false; true] /\ tm_run b None 0 ops = [false; false].
Proof.
  intros a b N E NZ ops. unfold ops. cbn [map by_object rename]. rewrite E in *. set (i := get_id b) in *.
  assert (I0 : (0 =? i) = false) by (apply Z.eqb_neq; auto).
  assert (I1 : (i =? 0) = false) by (apply Z.eqb_neq; auto).
  assert (NB : (a =? b) = false) by (apply Z.eqb_neq; exact N).
  assert (W0 : dl_wait [(0,0);(0,0);(0,0);(0,0)] 0 i 10 = Some ([(i,10);(0,0);(0,0);(0,0)], false)).
  { clear - NZ. clearbody i. destruct i as [|p|p]; [congruence|reflexivity|reflexivity]. }
  assert (W : forall d t, dl_wait [(i,d);(0,0);(0,0);(0,0)] t i 10 =
     if t >=? d then Some ([(0,d);(0,0);(0,0);(0,0)], true) else Some ([(i,u32 (d - t));(0,0);(0,0);(0,0)], false)).
  { intros d t. unfold dl_wait. cbn [dl_scan]. rewrite I1, (Z.eqb_refl i), Bool.andb_false_r. destruct (t >=? d); reflexivity. }
  exists (mkDelays [(0,5);(0,0);(0,0);(0,0)] 5), [false; false; false; false; true]. split; [|split].
  - assert (Wa : dl_wait [(i,10);(0,0);(0,0);(0,0)] 0 i 10 = Some ([(i,10);(0,0);(0,0);(0,0)], false)) by (rewrite W; reflexivity).
    assert (Wb : dl_wait [(i,10);(0,0);(0,0);(0,0)] 5 i 10 = Some ([(i,5);(0,0);(0,0);(0,0)], false)) by (rewrite W; reflexivity).
    assert (Wc : dl_wait [(i,5);(0,0);(0,0);(0,0)] 5 i 10 = Some ([(0,5);(0,0);(0,0);(0,0)], true)) by (rewrite W; reflexivity).
    unfold dl_init. cbn [repeat dl_run dl_step d_slots d_delta]. rewrite W0. cbn [d_slots d_delta].
    rewrite Wa. cbn [d_slots d_delta]. rewrite Wb. cbn [d_slots d_delta]. rewrite Wc. reflexivity.
  - cbn [about]. rewrite NB, Z.eqb_refl. reflexivity.
  - cbn [tm_run tm_step]. rewrite NB, Z.eqb_refl. reflexivity.
Qed.
Lemma ident_zero_l : forall a n t, a mod 65536 = 0 -> (2 <= n)%nat ->
  exists s, dl_step (dl_init n) (by_object (DWait a t)) = Some (s, true).
Proof.
  intros a n t H K. unfold by_object, rename, get_id, u16. rewrite H. destruct n as [|[|n]]; [lia|lia|].
  unfold dl_init, dl_step, dl_wait. cbn [repeat d_slots d_delta dl_scan].
  cbn [Z.eqb Pos.eqb andb Z.geb Z.compare Z.add]. eexists. reflexivity.
Qed.
