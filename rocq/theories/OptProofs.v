(** Invariants of the streams in any order of accesses. *)
Require Import ZArith List Bool Lia ZifyBool Permutation.
Import ListNotations.
From Verif Require Import Base BaseFacts RingModel RingSpec RingProofs StreamModel StreamSpec StreamProofs TearModel TearSpec OptModel OptSpec.
Open Scope Z_scope.

(** ** Lists *)
Lemma split_unique : forall A (a : A) l1 l2 l3 l4, NoDup (l1 ++ a :: l2) -> l1 ++ a :: l2 = l3 ++ a :: l4 -> l1 = l3 /\ l2 = l4.
Proof.
  intros A a l1. induction l1 as [|x l1 IH]; intros l2 [|y l3] l4 N E; cbn [app] in *.
  - injection E as E. auto.
  - injection E as E1 E2. subst. exfalso. apply NoDup_cons_iff in N. apply (proj1 N). apply in_or_app. right. left. reflexivity.
  - injection E as E1 E2. subst. exfalso. apply NoDup_cons_iff in N. apply (proj1 N). apply in_or_app. right. left. reflexivity.
  - injection E as E1 E2. subst. apply NoDup_cons_iff in N. destruct (IH l2 l3 l4 (proj2 N) E2) as [-> ->]. auto.
Qed.
Lemma app_disjoint : forall A (a : A) l1 l2, NoDup (l1 ++ l2) -> In a l1 -> In a l2 -> False.
Proof.
  intros A a l1. induction l1 as [|x l1 IH]; intros l2 N H1 H2; [contradiction|]. cbn [app] in N. apply NoDup_cons_iff in N. destruct N as [N1 N2].
  destruct H1 as [->|H1]; [apply N1; apply in_or_app; auto|]. apply (IH l2 N2 H1 H2).
Qed.
Lemma before_not_after : forall A (a k : A) pre rest, NoDup (pre ++ k :: rest) -> before a k (pre ++ k :: rest) -> ~ In a rest.
Proof.
  intros A a k pre rest N (x & y & z & E) H. rewrite app_comm_cons, app_assoc in E. destruct (split_unique _ k pre rest _ _ N E) as [E1 E2].
  apply (app_disjoint _ a pre (k :: rest) N); [|right; exact H]. rewrite E1. apply in_or_app. right. left. reflexivity.
Qed.
Lemma before_after : forall A (a k : A) pre rest, NoDup (pre ++ a :: rest) -> before a k (pre ++ a :: rest) -> In k rest.
Proof.
  intros A a k pre rest N (x & y & z & E). destruct (split_unique _ a pre rest _ _ N E) as [_ ->]. apply in_or_app. right. left. reflexivity.
Qed.
Lemma in_wstep : forall a l, existsb (wstep_eqb a) l = true <-> In a l.
Proof.
  intros a l. rewrite existsb_exists. split.
  - intros (x & H & E). destruct a, x; try discriminate; exact H.
  - intros H. exists a. split; [exact H|]. destruct a; reflexivity.
Qed.

(** ** Cursors *)
Section Place.
Variables B Size : Z.
Hypothesis HP : one_page B Size.
Lemma same_page : forall p, 0 <= p < Size -> (B + p) / 256 = B / 256.
Proof.
  intros p Hp. unfold one_page in HP. assert (B / 256 <= (B + p) / 256) by (apply Z.div_le_mono; lia).
  assert ((B + p) / 256 <= (B + Size - 1) / 256) by (apply Z.div_le_mono; lia). lia.
Qed.
Lemma lo_placed : forall p n, 0 <= p < Size -> 0 <= n < Size -> lo_stored B p n = n.
Proof. intros p n Hp Hn. unfold lo_stored, glue. rewrite same_page by exact Hp. rewrite <- (same_page n Hn). pose proof (Z.div_mod (B + n) 256 ltac:(lia)). lia. Qed.
Lemma hi_placed : forall p n, 0 <= p < Size -> 0 <= n < Size -> hi_stored B p n = p.
Proof. intros p n Hp Hn. unfold hi_stored, glue. rewrite same_page by exact Hn. rewrite <- (same_page p Hp). pose proof (Z.div_mod (B + p) 256 ltac:(lia)). lia. Qed.
Lemma join_placed : forall lf p n, 0 <= p < Size -> 0 <= n < Size -> join lf (byte1 lf (B + p)) (B + n) - B = if lf then p else n.
Proof.
  intros lf p n Hp Hn. unfold join, byte1, glue. destruct lf.
  - rewrite (same_page n Hn), <- (same_page p Hp). pose proof (Z.div_mod (B + p) 256 ltac:(lia)). lia.
  - rewrite (same_page p Hp), <- (same_page n Hn). pose proof (Z.div_mod (B + n) 256 ltac:(lia)). lia.
Qed.
End Place.

Section Facts.
Variable Size : Z.
Hypothesis HSize : 1 <= Size <= 65535.
Lemma next_range : forall w, 0 <= w < Size -> 0 <= o_next Size w < Size.
Proof. intros w H. unfold o_next. destruct (Z.geb_spec (w + 1) Size); lia. Qed.
Lemma next_wrap : forall w, 0 <= w < Size -> o_next Size w = wrap Size (w + 1).
Proof. intros w H. unfold o_next, wrap. destruct (Z.geb_spec (w + 1) Size); lia. Qed.
Lemma full_l : forall T (r : ring T) q, holds Size r q ->
  (if rb_wr r + 1 >=? Size then 0 =? rb_rd r else rb_wr r + 1 =? rb_rd r) = negb (Z.of_nat (length q) <? Size - 1).
Proof.
  intros T r q [Hrd [Hq [Hw _]]]. rewrite Hw. unfold wrap. destruct (Z.geb_spec (rb_rd r + Z.of_nat (length q)) Size).
  - destruct (Z.geb_spec (rb_rd r + Z.of_nat (length q) - Size + 1) Size); destruct (Z.ltb_spec (Z.of_nat (length q)) (Size - 1)); cbn [negb]; lia.
  - destruct (Z.geb_spec (rb_rd r + Z.of_nat (length q) + 1) Size); destruct (Z.ltb_spec (Z.of_nat (length q)) (Size - 1)); cbn [negb]; lia.
Qed.
Lemma holds_next : forall T (r : ring T) q v, holds Size r q -> Z.of_nat (length q) < Size - 1 -> rb_mem r (rb_wr r) = v ->
  holds Size (mkRing (rb_mem r) (o_next Size (rb_wr r)) (rb_rd r)) (q ++ [v]).
Proof. intros T r q v H L M. exact (holds_inc Size HSize T r q v H L M). Qed.
Lemma read_mem : forall (r : ring Z) r' x, ring_read Size r = Some (r', x) -> rb_mem r' = rb_mem r /\ rb_wr r' = rb_wr r.
Proof. intros r r' x E. unfold ring_read in E. destruct (inb (rb_rd r) Size); [|discriminate]. injection E as <- <-. auto. Qed.
End Facts.

(** ** Transmit *)
Section Tx.
Variables (whole lf : bool) (order : list wstep) (B Size : Z).
Hypothesis HSize : 1 <= Size <= 65535.
Hypothesis HP : placed whole B Size.
Hypothesis HO : Permutation order (wsteps whole).
Notation key := (wcur whole).
Lemma order_nodup : NoDup order.
Proof. apply (Permutation_NoDup (Permutation_sym HO)). unfold wsteps. destruct whole; repeat constructor; cbn; intuition discriminate. Qed.
Lemma order_in : forall a, In a order <-> In a (wsteps whole).
Proof. intros a. split; apply Permutation_in; [exact HO|apply Permutation_sym; exact HO]. Qed.
Lemma key_in : In key order.
Proof. apply order_in. unfold wsteps, wcur. destruct whole; cbn; auto. Qed.
Lemma item_in : In WItem order.
Proof. apply order_in. unfold wsteps. destruct whole; cbn; auto. Qed.

Definition o_inv (s : otx) (q : list Z) : Prop :=
  Forall is_byte q /\ holds Size (o_ring s) q /\
  match o_pc s with
  | OIdle => accepted (o_done s) = o_sent s ++ q
  | OLoad v => is_byte v /\ accepted (o_done s) = o_sent s ++ q
  | OLoad2 v b => is_byte v /\ accepted (o_done s) = o_sent s ++ q /\ whole = false /\
      exists (r0 : ring Z) q0, holds Size r0 q0 /\ rb_wr r0 = rb_wr (o_ring s) /\ (length q <= length q0)%nat /\ b = byte1 lf (B + rb_rd r0)
  | ORun v false w todo => accepted (o_done s) = o_sent s ++ q /\ (todo = [WOn] \/ todo = [])
  | ORun v true w todo => is_byte v /\ 0 <= w < Size /\ (exists pre, order = pre ++ todo) /\
      ((In key todo /\ rb_wr (o_ring s) = w /\ accepted (o_done s) = o_sent s ++ q /\ Z.of_nat (length q) < Size - 1 /\
        (~ In WItem todo -> rb_mem (o_ring s) w = v)) \/
       (~ In key todo /\ ~ In WItem todo /\ accepted (o_done s) ++ [v] = o_sent s ++ q))
  end.
Definition o_live (s : otx) (q : list Z) : Prop :=
  q <> [] -> o_ien s = true \/ match o_pc s with ORun _ _ _ todo => In WOn todo | _ => False end.

Lemma check_inv : forall s q v rd, o_inv (mkO (o_ring s) (o_ien s) (OLoad v) (o_sent s) (o_done s)) q ->
  (exists (r0 : ring Z) q0, holds Size r0 q0 /\ rb_wr r0 = rb_wr (o_ring s) /\ (length q <= length q0)%nat /\ rd = rb_rd r0) ->
  o_inv (o_check order Size s v rd) q.
Proof.
  intros s q v rd (Fb & Hh & Hb & Ha) (r0 & q0 & H0 & W0 & L0 & ->). cbn [o_pc o_ring o_done o_sent o_ien] in *. unfold o_check. cbv zeta. rewrite <- W0, (full_l Size _ r0 q0 H0). 
  pose proof (holds_wr Size _ _ _ Hh) as Hw. split; [exact Fb|]. cbn [o_ring]. split; [exact Hh|]. cbn [o_pc o_done o_sent o_ring].
  destruct (Z.ltb_spec (Z.of_nat (length q0)) (Size - 1)) as [L|L]; cbn [negb].
  - split; [exact Hb|]. rewrite W0. split; [exact Hw|]. split; [exists []; reflexivity|]. left. split; [apply key_in|]. split; [reflexivity|]. split; [exact Ha|].
    split; [lia|]. intros N. destruct (N item_in).
  - split; [exact Ha|]. left. reflexivity.
Qed.

Lemma o_isr_inv : forall s q, o_inv s q -> exists s' q', o_isr Size s = Some s' /\ o_inv s' q' /\ (o_live s q -> o_live s' q') /\
  o_pc s' = o_pc s /\ o_done s' = o_done s /\ (length q' <= length q)%nat.
Proof.
  intros s q (Fb & Hh & X). unfold o_isr. destruct (o_ien s) eqn:Ei; [|exists s, q; split; [reflexivity|]; split; [exact (conj Fb (conj Hh X))|]; auto].
  rewrite (holds_length Size HSize _ _ Hh). destruct q as [|x q]; cbn [length].
  - cbn [Z.of_nat Z.eqb negb]. eexists. exists []. split; [reflexivity|]. cbn [o_pc o_done]. split; [exact (conj Fb (conj Hh X))|]. split; [intros _ N; contradiction|auto].
  - change (negb (Z.of_nat (S (length q)) =? 0)) with true. cbv iota. destruct (holds_read Size HSize _ _ _ Hh) as (r' & E & Hh'). rewrite E.
    destruct (read_mem Size _ _ _ E) as [Em Ew]. apply Forall_cons_iff in Fb. destruct Fb as [Fx Fb].
    assert (Ex : u8 x = x) by (apply u8_small; exact Fx). eexists. exists q. split; [reflexivity|]. split.
    + split; [exact Fb|]. cbn [o_ring o_pc o_done o_sent]. split; [exact Hh'|]. rewrite Ex. 
      destruct (o_pc s) as [|v|v b|v ok w todo].
      * rewrite app_snoc_assoc. exact X.
      * rewrite app_snoc_assoc. exact X.
      * rewrite app_snoc_assoc. destruct X as (X1 & X2 & X3 & r0 & q0 & X4 & X5 & X6 & X7). split; [exact X1|]. split; [exact X2|]. split; [exact X3|].
        exists r0, q0. rewrite Ew. split; [exact X4|]. split; [exact X5|]. split; [cbn [length] in X6; lia|exact X7].
      * destruct ok; rewrite app_snoc_assoc; [|exact X]. destruct X as (X1 & X2 & X3 & X4). split; [exact X1|]. split; [exact X2|]. split; [exact X3|].
        destruct X4 as [(Y1 & Y2 & Y3 & Y4 & Y5)|Y]; [left|right; exact Y]. rewrite Ew, Em. cbn [length] in Y4. repeat split; auto. lia.
    + split; [intros _ _; left; reflexivity|]. split; [reflexivity|]. split; [reflexivity|]. cbn [length]. lia.
Qed.

Lemma o_step_inv : before WItem key order -> forall s q e, o_inv s q ->
  exists s' q', o_step whole lf order B Size s e = Some s' /\ o_inv s' q' /\ (before key WOn order -> o_live s q -> o_live s' q').
Proof.
  intros BO s q e HI. destruct e as [v| |].
  - destruct HI as (Fb & Hh & X). cbn [o_step]. destruct (o_pc s) eqn:Ep; try (exists s, q; split; [reflexivity|]; split; [split; [exact Fb|]; split; [exact Hh|]; rewrite Ep; exact X|intros _ L; exact L]).
    eexists. exists q. split; [reflexivity|]. split.
    + split; [exact Fb|]. split; [exact Hh|]. cbn [o_pc o_done o_sent]. split; [apply u8_range|exact X].
    + intros _ L N. destruct (L N) as [I|I]; [left; exact I|]. rewrite Ep in I. contradiction.
  - cbn [o_step]. unfold o_main. cbv zeta. destruct (o_pc s) as [|v|v b|v ok w todo] eqn:Ep.
    + exists s, q. auto.
    + pose proof HI as (Fb & Hh & X). rewrite Ep in X. destruct X as [Xb Xa]. destruct (Sumbool.sumbool_of_bool whole) as [Ew|Ew].
      * eexists. exists q. split; [rewrite Ew; reflexivity|]. split.
        -- apply check_inv; [split; [exact Fb|]; split; [exact Hh|]; cbn [o_pc o_done o_sent]; auto|]. exists (o_ring s), q. auto.
        -- intros _ L N. destruct (L N) as [I|I]; [left; exact I|]. rewrite Ep in I. contradiction.
      * eexists. exists q. split; [rewrite Ew; reflexivity|]. split.
        -- split; [exact Fb|]. split; [exact Hh|]. cbn [o_pc o_done o_sent o_ring]. split; [exact Xb|]. split; [exact Xa|]. split; [exact Ew|]. exists (o_ring s), q. auto.
        -- intros _ L N. destruct (L N) as [I|I]; [left; exact I|]. rewrite Ep in I. contradiction.
    + pose proof HI as (Fb & Hh & X). rewrite Ep in X. destruct X as (Xb & Xa & Xw & r0 & q0 & X4 & X5 & X6 & ->).
      destruct HP as [P|P]; [congruence|]. eexists. exists q. split; [reflexivity|]. split.
      * apply check_inv; [split; [exact Fb|]; split; [exact Hh|]; cbn [o_pc o_done o_sent]; auto|].
        rewrite (join_placed B Size P lf) by (try apply X4; apply Hh). destruct lf; [exists r0, q0; auto|exists (o_ring s), q; auto].
      * intros _ L N. destruct (L N) as [I|I]; [left; exact I|]. rewrite Ep in I. contradiction.
    + destruct todo as [|a todo].
      * destruct HI as (Fb & Hh & X). rewrite Ep in X. eexists. exists q. split; [reflexivity|]. split.
        -- split; [exact Fb|]. split; [exact Hh|]. cbn [o_pc o_done o_sent]. rewrite accepted_snoc. destruct ok.
           ++ destruct X as (_ & _ & _ & [(Y & _)|(_ & _ & Y)]); [contradiction|exact Y].
           ++ rewrite app_nil_r. apply X.
        -- intros _ L N. destruct (L N) as [I|I]; [left; exact I|]. rewrite Ep in I. contradiction.
      * destruct HI as (Fb & Hh & X). rewrite Ep in X. destruct ok.
        2:{ destruct X as (Xa & [T|T]); [|discriminate]. injection T as -> ->. eexists. exists q. split; [reflexivity|]. split.
            - split; [exact Fb|]. split; [exact Hh|]. cbn [o_pc o_done o_sent]. auto.
            - intros _ _ _. left. reflexivity. }
        destruct X as (Xb & Xw & (pre & Xo) & X). pose proof order_nodup as ND. rewrite Xo in ND.
        assert (Xo' : exists p, order = p ++ todo) by (exists (pre ++ [a]); rewrite <- app_assoc; exact Xo).
        assert (ND' : ~ In a todo). { intros I. apply NoDup_remove_2 in ND. apply ND. apply in_or_app. right. exact I. }
        assert (Ain : In a (wsteps whole)). { apply order_in. rewrite Xo. apply in_or_app. right. left. reflexivity. }
        pose proof (next_range Size HSize w Xw) as Nr.
        assert (KEY : forall r', a = key -> r' = set_wr (o_ring s) (o_next Size w) -> exists s' q',
          Some (mkO r' (o_ien s) (ORun v true w todo) (o_sent s) (o_done s)) = Some s' /\ o_inv s' q' /\ (before key WOn order -> o_live s q -> o_live s' q')).
        { intros r' Ea ->. subst a. destruct X as [(Y1 & Y2 & Y3 & Y4 & Y5)|(Y1 & _)]; [|exfalso; apply Y1; left; reflexivity].
          assert (NI : ~ In WItem todo) by (apply (before_not_after _ WItem key pre todo ND); rewrite <- Xo; exact BO).
          assert (NI' : ~ In WItem (key :: todo)). { intros [E|I]; [|exact (NI I)]. unfold wcur in E. destruct whole; discriminate. }
          specialize (Y5 NI'). eexists. exists (q ++ [v]). split; [reflexivity|]. split.
          - split; [apply Forall_app; auto|]. cbn [o_ring o_pc o_done o_sent]. split; [rewrite <- Y2; apply (holds_next Size HSize); [exact Hh|exact Y4|rewrite Y2; exact Y5]|].
            split; [exact Xb|]. split; [exact Xw|]. split; [exact Xo'|]. right. split; [exact ND'|]. split; [exact NI|]. rewrite Y3, app_assoc. reflexivity.
          - intros BL _ _. right. cbn [o_pc]. apply (before_after _ key WOn pre todo ND). rewrite <- Xo. exact BL. }
        assert (LIVE : forall r', a <> WOn -> before key WOn order -> o_live s q -> o_live (mkO r' (o_ien s) (ORun v true w todo) (o_sent s) (o_done s)) q).
        { intros r' NE _ L N. destruct (L N) as [I|I]; [left; exact I|]. rewrite Ep in I. destruct I as [E|I]; [congruence|]. right. exact I. }
        destruct a.
        -- rewrite (proj2 (inb_true w Size) Xw). eexists. exists q. split; [reflexivity|]. split; [|apply LIVE; discriminate].
           split; [exact Fb|]. destruct X as [(Y1 & Y2 & Y3 & Y4 & Y5)|(_ & Y & _)]; [|exfalso; apply Y; left; reflexivity].
           cbn [o_ring o_pc o_done o_sent]. split; [rewrite <- Y2; apply (holds_store Size HSize); exact Hh|]. split; [exact Xb|]. split; [exact Xw|]. split; [exact Xo'|].
           left. cbn [rb_wr rb_mem]. split; [destruct Y1 as [E|Y1]; [|exact Y1]; unfold wcur in E; destruct whole; discriminate|]. split; [exact Y2|]. split; [exact Y3|]. split; [exact Y4|].
           intros _. apply upd_same.
        -- apply KEY; [|reflexivity]. unfold wsteps, wcur in *. destruct whole; [reflexivity|]. cbn in Ain. intuition discriminate.
        -- assert (W : whole = false). { unfold wsteps in Ain. destruct whole; [|reflexivity]. cbn in Ain. intuition discriminate. }
           destruct HP as [P|P]; [congruence|]. apply KEY; [unfold wcur; rewrite W; reflexivity|].
           rewrite (lo_placed B Size P) by (try exact Nr; apply (holds_wr Size _ _ _ Hh)). reflexivity.
        -- assert (W : whole = false). { unfold wsteps in Ain. destruct whole; [|reflexivity]. cbn in Ain. intuition discriminate. }
           destruct HP as [P|P]; [congruence|]. rewrite (hi_placed B Size P) by (try exact Nr; apply (holds_wr Size _ _ _ Hh)).
           assert (ER : set_wr (o_ring s) (rb_wr (o_ring s)) = o_ring s) by (unfold set_wr; destruct (o_ring s); reflexivity). rewrite ER.
           eexists. exists q. split; [reflexivity|]. split; [|apply LIVE; discriminate]. split; [exact Fb|]. cbn [o_ring o_pc o_done o_sent]. split; [exact Hh|].
           split; [exact Xb|]. split; [exact Xw|]. split; [exact Xo'|]. destruct X as [(Y1 & Y2 & Y3 & Y4 & Y5)|(Y1 & Y2 & Y3)].
           ++ left. split; [destruct Y1 as [E|Y1]; [|exact Y1]; unfold wcur in E; rewrite W in E; discriminate|]. split; [exact Y2|]. split; [exact Y3|]. split; [exact Y4|].
              intros N. apply Y5. intros [E|I]; [discriminate|exact (N I)].
           ++ right. split; [intros I; apply Y1; right; exact I|]. split; [intros I; apply Y2; right; exact I|exact Y3].
        -- eexists. exists q. split; [reflexivity|]. split; [|intros _ _ _; left; reflexivity]. split; [exact Fb|]. cbn [o_ring o_pc o_done o_sent]. split; [exact Hh|].
           split; [exact Xb|]. split; [exact Xw|]. split; [exact Xo'|]. destruct X as [(Y1 & Y2 & Y3 & Y4 & Y5)|(Y1 & Y2 & Y3)].
           ++ left. split; [destruct Y1 as [E|Y1]; [|exact Y1]; unfold wcur in E; destruct whole; discriminate|]. split; [exact Y2|]. split; [exact Y3|]. split; [exact Y4|].
              intros N. apply Y5. intros [E|I]; [discriminate|exact (N I)].
           ++ right. split; [intros I; apply Y1; right; exact I|]. split; [intros I; apply Y2; right; exact I|exact Y3].
  - destruct (o_isr_inv s q HI) as (s' & q' & E & I & L & _). exists s', q'. auto.
Qed.

Lemma o_run_inv : before WItem key order -> forall evs s q, o_inv s q ->
  exists s' q', o_run whole lf order B Size s evs = Some s' /\ o_inv s' q' /\ (before key WOn order -> o_live s q -> o_live s' q').
Proof.
  intros BO. induction evs as [|e evs IH]; intros s q H; [exists s, q; auto|]. destruct (o_step_inv BO s q e H) as (s1 & q1 & E1 & H1 & L1).
  destruct (IH s1 q1 H1) as (s2 & q2 & E2 & H2 & L2). exists s2, q2. cbn [o_run]. rewrite E1. auto.
Qed.
Lemma o_init_inv : forall m, o_inv (o_init m) [].
Proof. intros m. split; [constructor|]. split; [exact (holds_clear Size HSize (mkRing m 0 0))|reflexivity]. Qed.
Lemma o_inv_fifo : forall s q, o_inv s q -> o_fifo whole Size s q.
Proof.
  intros s q (Fb & Hh & X). unfold o_fifo. rewrite (holds_length Size HSize _ _ Hh). split; [|split; [destruct Hh as (_ & L & _); lia|reflexivity]].
  unfold o_pending. destruct (o_pc s) as [|v|v b|v ok w todo].
  - rewrite app_nil_r. exact X.
  - rewrite app_nil_r. apply X.
  - rewrite app_nil_r. apply X.
  - destruct ok; [|rewrite app_nil_r; apply X]. destruct X as (_ & _ & _ & [(K & _ & A & _)|(K & _ & A)]).
    + apply in_wstep in K. rewrite K, app_nil_r. exact A.
    + destruct (existsb (wstep_eqb key) todo) eqn:E; [|exact A]. apply in_wstep in E. contradiction.
Qed.
Lemma o_fifo_l : before WItem key order -> forall m evs, exists s rest, o_run whole lf order B Size (o_init m) evs = Some s /\ o_fifo whole Size s rest /\
  (before key WOn order -> o_pc s = OIdle -> rest <> [] -> o_ien s = true).
Proof.
  intros BO m evs. destruct (o_run_inv BO evs (o_init m) [] (o_init_inv m)) as (s & q & E & H & L). exists s, q. split; [exact E|]. split; [apply o_inv_fifo; exact H|].
  intros BL Ep N. destruct (L BL ltac:(intros C; contradiction) N) as [I|I]; [exact I|]. rewrite Ep in I. contradiction.
Qed.
(** What was refused. *)
Definition o_room (s : otx) (q : list Z) (v : Z) (d0 : list (Z * bool)) : Prop :=
  match o_pc s with
  | OIdle => o_done s = d0 ++ [(v, true)]
  | OLoad v' => v' = v /\ o_done s = d0 /\ Z.of_nat (length q) < Size - 1
  | OLoad2 v' b => v' = v /\ o_done s = d0 /\ Z.of_nat (length q) < Size - 1 /\
      exists (r0 : ring Z) q0, holds Size r0 q0 /\ rb_wr r0 = rb_wr (o_ring s) /\ Z.of_nat (length q0) < Size - 1 /\ (length q <= length q0)%nat /\ b = byte1 lf (B + rb_rd r0)
  | ORun v' ok _ _ => v' = v /\ o_done s = d0 /\ ok = true
  end.
Lemma room_check : forall s q v d0, o_done s = d0 -> forall (r0 : ring Z) q0, holds Size r0 q0 -> rb_wr r0 = rb_wr (o_ring s) -> Z.of_nat (length q0) < Size - 1 ->
  o_room (o_check order Size s v (rb_rd r0)) q v d0.
Proof.
  intros s q v d0 D r0 q0 H0 W L. unfold o_check. cbv zeta. rewrite <- W, (full_l Size _ r0 q0 H0). rewrite (proj2 (Z.ltb_lt _ _) L). cbn [negb]. unfold o_room. cbn [o_pc o_done]. auto.
Qed.
Lemma o_step_room : before WItem key order -> forall s q e v d0, no_start e -> o_inv s q -> o_room s q v d0 ->
  exists s' q', o_step whole lf order B Size s e = Some s' /\ o_inv s' q' /\ o_room s' q' v d0.
Proof.
  intros BO s q e v d0 N HI R. destruct (o_step_inv BO s q e HI) as (s' & q' & E & HI' & _). exists s', q'. split; [exact E|]. split; [exact HI'|].
  pose proof HI as (_ & Hh & _). pose proof HI' as (_ & Hh' & _). destruct e as [x| |]; [contradiction| |].
  - cbn [o_step] in E. unfold o_main in E. cbv zeta in E. unfold o_room in R. destruct (o_pc s) as [|v1|v1 b|v1 ok w todo] eqn:Ep.
    + injection E as <-. unfold o_room. rewrite Ep. exact R.
    + destruct R as (-> & D & L). destruct (Sumbool.sumbool_of_bool whole) as [Ew|Ew]; rewrite Ew in E; injection E as <-.
      * apply (room_check s q' v d0 D (o_ring s) q Hh eq_refl L).
      * unfold o_room. cbn [o_pc o_done o_ring] in *.
        assert (LE : length q' = length q). { pose proof (holds_length Size HSize _ _ Hh). pose proof (holds_length Size HSize _ _ Hh'). lia. }
        rewrite LE. split; [reflexivity|]. split; [exact D|]. split; [exact L|]. exists (o_ring s), q. auto.
    + destruct R as (-> & D & L & r0 & q0 & H0 & W0 & L0 & LL & ->). injection E as <-. destruct HI as (_ & _ & X). rewrite Ep in X. destruct X as (_ & _ & Wf & _).
      destruct HP as [P|P]; [congruence|]. rewrite (join_placed B Size P lf) by (try apply H0; apply Hh).
      destruct lf; [apply (room_check s q' v d0 D r0 q0 H0 W0 L0)|apply (room_check s q' v d0 D (o_ring s) q Hh eq_refl L)].
    + destruct R as (-> & D & ->). destruct todo as [|a todo].
      * injection E as <-. unfold o_room. cbn [o_pc o_done]. rewrite D. reflexivity.
      * destruct a; [destruct (inb w Size); [|discriminate]| | | |]; injection E as <-; unfold o_room; cbn [o_pc o_done]; auto.
  - destruct (o_isr_inv s q HI) as (s2 & q2 & E2 & (_ & Hh2 & _) & _ & Ep & Ed & Lq). cbn [o_step] in E. rewrite E in E2. injection E2 as <-.
    assert (LE : length q' = length q2). { pose proof (holds_length Size HSize _ _ Hh2). pose proof (holds_length Size HSize _ _ Hh'). lia. }
    unfold o_room in *. rewrite Ep, Ed. destruct (o_pc s) as [|v1|v1 b|v1 ok w todo]; [exact R| | |exact R].
    + destruct R as (R1 & R2 & R3). repeat split; auto. lia.
    + destruct R as (R1 & R2 & R3 & r0 & q0 & R4 & R5 & R6 & R7 & R8). split; [exact R1|]. split; [exact R2|]. split; [lia|]. exists r0, q0.
      assert (W : rb_wr (o_ring s') = rb_wr (o_ring s)).
      { unfold o_isr in E. destruct (o_ien s); [|injection E as <-; reflexivity]. destruct (negb (ring_length Size (o_ring s) =? 0)); [|injection E as <-; reflexivity].
        destruct (ring_read Size (o_ring s)) as [[r1 x1]|] eqn:E1; [|discriminate]. injection E as <-. apply (read_mem Size _ _ _ E1). }
      rewrite W. split; [exact R4|]. split; [exact R5|]. split; [exact R6|]. split; [lia|exact R8].
Qed.
Lemma o_refused_l : before WItem key order -> forall m evs s v more s', o_run whole lf order B Size (o_init m) evs = Some s -> o_pc s = OIdle ->
  ring_length Size (o_ring s) < Size - 1 -> Forall no_start more -> o_run whole lf order B Size s (OStart v :: more) = Some s' -> o_pc s' = OIdle ->
  o_done s' = o_done s ++ [(u8 v, true)].
Proof.
  intros BO m evs s v more s' E Ep L F E' Ep'. destruct (o_run_inv BO evs (o_init m) [] (o_init_inv m)) as (s0 & q & E0 & HI & _). rewrite E in E0. injection E0 as <-.
  pose proof HI as (Fb & Hh & X). rewrite (holds_length Size HSize _ _ Hh) in L. cbn [o_run o_step] in E'. rewrite Ep in E', X. cbv iota in E'.
  set (s1 := mkO (o_ring s) (o_ien s) (OLoad (u8 v)) (o_sent s) (o_done s)) in *.
  assert (H1 : o_inv s1 q) by (split; [exact Fb|]; split; [exact Hh|]; cbn [o_pc s1 o_done o_sent]; split; [apply u8_range|exact X]).
  assert (R1 : o_room s1 q (u8 v) (o_done s)) by (unfold o_room; cbn [o_pc s1 o_done]; auto).
  assert (G : forall l t p, Forall no_start l -> o_inv t p -> o_room t p (u8 v) (o_done s) -> o_run whole lf order B Size t l = Some s' -> exists p', o_room s' p' (u8 v) (o_done s)).
  { induction l as [|e l IH]; intros t p Fl Ht Rt El; [injection El as <-; eauto|]. apply Forall_cons_iff in Fl. destruct Fl as [Fe Fl]. cbn [o_run] in El.
    destruct (o_step_room BO t p e (u8 v) (o_done s) Fe Ht Rt) as (t' & p' & Et & Ht' & Rt'). rewrite Et in El. apply (IH t' p' Fl Ht' Rt' El). }
  destruct (G more s1 q F H1 R1 E') as (p' & Rp). unfold o_room in Rp. rewrite Ep' in Rp. exact Rp.
Qed.
(** The handler alone empties the buffer. *)
Lemma o_drain : forall q s, o_inv s q -> o_pc s = OIdle -> (q <> [] -> o_ien s = true) ->
  exists n s', o_run whole lf order B Size s (repeat OIsr n) = Some s' /\ o_sent s' = o_sent s ++ q /\ o_done s' = o_done s /\ o_ien s' = false.
Proof.
  induction q as [|x q IH]; intros s HI Ep L.
  - destruct HI as (Fb & Hh & X). destruct (o_ien s) eqn:Ei.
    + exists 1%nat. eexists. cbn [repeat o_run o_step]. unfold o_isr. rewrite Ei, (holds_length Size HSize _ _ Hh). cbn [length Z.of_nat Z.eqb negb]. split; [reflexivity|]. cbn [o_sent o_done o_ien]. rewrite app_nil_r. auto.
    + exists 0%nat, s. cbn [repeat o_run]. rewrite app_nil_r. auto.
  - pose proof (L ltac:(discriminate)) as Ei. pose proof HI as (Fb & Hh & X). destruct (holds_read Size HSize _ _ _ Hh) as (r' & E & Hh').
    assert (Ex : u8 x = x) by (apply u8_small; apply Forall_cons_iff in Fb; apply Fb).
    assert (E1 : o_isr Size s = Some (mkO r' (o_ien s) (o_pc s) (o_sent s ++ [x]) (o_done s))).
    { unfold o_isr. rewrite Ei at 1. rewrite (holds_length Size HSize _ _ Hh), E, Ex. reflexivity. }
    set (s1 := mkO r' (o_ien s) (o_pc s) (o_sent s ++ [x]) (o_done s)) in *.
    assert (H1 : o_inv s1 q).
    { split; [apply Forall_cons_iff in Fb; apply Fb|]. split; [exact Hh'|]. rewrite Ep in X. cbn [s1 o_pc o_done o_sent]. rewrite Ep, app_snoc_assoc. exact X. }
    destruct (IH s1 H1 Ep (fun _ => Ei)) as (n & s' & En & S1 & S2 & S3). exists (S n), s'. cbn [repeat o_run o_step]. rewrite E1. split; [exact En|].
    rewrite S1, S2. cbn [s1 o_sent o_done]. rewrite app_snoc_assoc. auto.
Qed.
Lemma o_run_app : forall a b s, o_run whole lf order B Size s (a ++ b) = match o_run whole lf order B Size s a with Some s' => o_run whole lf order B Size s' b | None => None end.
Proof. induction a as [|e a IH]; intros b s; [reflexivity|]. cbn [app o_run]. destruct (o_step whole lf order B Size s e); [apply IH|reflexivity]. Qed.
Lemma o_drains_l : before WItem key order -> before key WOn order -> forall m evs s, o_run whole lf order B Size (o_init m) evs = Some s -> o_pc s = OIdle ->
  exists n s', o_run whole lf order B Size (o_init m) (evs ++ repeat OIsr n) = Some s' /\ o_sent s' = accepted (o_done s) /\ o_done s' = o_done s /\ o_ien s' = false.
Proof.
  intros BO BL m evs s E Ep. destruct (o_run_inv BO evs (o_init m) [] (o_init_inv m)) as (s0 & q & E0 & HI & L). rewrite E in E0. injection E0 as <-.
  assert (LI : q <> [] -> o_ien s = true). { intros N. destruct (L BL ltac:(intros C; contradiction) N) as [I|I]; [exact I|]. rewrite Ep in I. contradiction. }
  destruct (o_drain q s HI Ep LI) as (n & s' & En & S1 & S2 & S3). exists n, s'. rewrite o_run_app, E. split; [exact En|]. destruct HI as (_ & _ & X). rewrite Ep in X. rewrite S1, X. auto.
Qed.
End Tx.

(** ** Receive *)
Section Rx.
Variables (whole lf once : bool) (order : list rstep) (B Size : Z).
Hypothesis HSize : 1 <= Size <= 65535.
Hypothesis HP : placed whole B Size.
Hypothesis HO : Permutation order (rsteps whole).
Definition rcur : rstep := if whole then RAll else RLo.
Notation key := rcur.
Lemma rorder_nodup : NoDup order.
Proof. apply (Permutation_NoDup (Permutation_sym HO)). unfold rsteps. destruct whole; repeat constructor; cbn; intuition discriminate. Qed.
Lemma rorder_in : forall a, In a order <-> In a (rsteps whole).
Proof. intros a. split; apply Permutation_in; [exact HO|apply Permutation_sym; exact HO]. Qed.
Lemma rkey_in : In key order.
Proof. apply rorder_in. unfold rsteps, rcur. destruct whole; cbn; auto. Qed.
Lemma ritem_in : In RItem order.
Proof. apply rorder_in. unfold rsteps. destruct whole; cbn; auto. Qed.

Definition ge_ok (ge : option bool) (rd : Z) (n : nat) : Prop := match ge with Some false => Size <= rd + Z.of_nat n | _ => True end.
Definition q_inv (s : orx) (q : list Z) : Prop :=
  Forall is_byte q /\ holds Size (q_ring s) q /\
  match q_pc s with
  | QIdle | QOn => q_acc s = delivered (q_got s) ++ q
  | QLoad ge => q_acc s = delivered (q_got s) ++ q /\ ge_ok ge (rb_rd (q_ring s)) (length q)
  | QLoad2 ge b => q_acc s = delivered (q_got s) ++ q /\ whole = false /\
      exists (r0 : ring Z) q0, holds Size r0 q0 /\ rb_rd r0 = rb_rd (q_ring s) /\ (length q0 <= length q)%nat /\ b = byte1 lf (B + rb_wr r0) /\ ge_ok ge (rb_rd r0) (length q0)
  | QRun d x todo => 0 <= d < Size /\ (exists pre, order = pre ++ todo) /\
      ((In key todo /\ rb_rd (q_ring s) = d /\ q_acc s = delivered (q_got s) ++ q /\ exists y q', q = y :: q' /\ (~ In RItem todo -> x = y)) \/
       (~ In key todo /\ rb_rd (q_ring s) = o_next Size d /\ exists y, is_byte y /\ q_acc s = delivered (q_got s) ++ y :: q /\
          (In RItem todo -> rb_mem (q_ring s) d = y) /\ (~ In RItem todo -> x = y)))
  end.
Lemma delivered_snoc : forall g x, delivered (g ++ [x]) = delivered g ++ (if 0 <=? x then [x] else []).
Proof. intros g x. unfold delivered. rewrite filter_app. cbn [filter]. reflexivity. Qed.
Lemma sub_pos : forall (r0 : ring Z) q0 g, holds Size r0 q0 -> ge_ok (Some g) (rb_rd r0) (length q0) ->
  (sub_len Size g (rb_wr r0) (rb_rd r0) >? 0) = match q0 with [] => false | _ => true end.
Proof.
  intros r0 q0 g H0 G. destruct H0 as (Hrd & Hq & Hw & _). unfold sub_len. rewrite Hw. unfold wrap. assert (L : q0 = [] <-> length q0 = 0%nat) by (destruct q0; cbn; split; intros; try discriminate; reflexivity).
  assert (M : match q0 with [] => false | _ => true end = negb (Z.of_nat (length q0) =? 0)) by (destruct q0; reflexivity). rewrite M. assert (G' : g = false -> Size <= rb_rd r0 + Z.of_nat (length q0)) by (intros ->; exact G). set (n := Z.of_nat (length q0)) in *. assert (N0 : 0 <= n) by (unfold n; lia). clearbody n. clear M L.
  destruct g.
  - destruct (Z.geb_spec (rb_rd r0 + n) Size).
    + assert (E : u16 (rb_rd r0 + n - Size - rb_rd r0) = 65536 + n - Size) by (unfold u16, un || unfold u16; symmetry; apply Z.mod_unique with (q := -1); lia). rewrite E. destruct (Z.gtb_spec (65536 + n - Size) 0), (Z.eqb_spec n 0); cbn [negb]; lia.
    + rewrite u16_small by lia. destruct (Z.gtb_spec (rb_rd r0 + n - rb_rd r0) 0), (Z.eqb_spec n 0); cbn [negb]; lia.
  - specialize (G' eq_refl). destruct (Z.geb_spec (rb_rd r0 + n) Size); [|lia]. rewrite u16_small by lia. destruct (Z.gtb_spec (Size - (rb_rd r0 - (rb_rd r0 + n - Size))) 0), (Z.eqb_spec n 0); cbn [negb]; lia.
Qed.
Lemma cmp_ok : forall (r0 : ring Z) q0, holds Size r0 q0 -> ge_ok (Some (rb_wr r0 >=? rb_rd r0)) (rb_rd r0) (length q0).
Proof.
  intros r0 q0 (Hrd & Hq & Hw & _). rewrite Hw. unfold wrap. destruct (Z.geb_spec (rb_rd r0 + Z.of_nat (length q0)) Size).
  - destruct (Z.geb_spec (rb_rd r0 + Z.of_nat (length q0) - Size) (rb_rd r0)); [lia|]. exact H.
  - destruct (Z.geb_spec (rb_rd r0 + Z.of_nat (length q0)) (rb_rd r0)); [exact Logic.I|lia].
Qed.
Definition dec (ge : option bool) (rd : Z) (n : nat) (pc : qpc) : Prop :=
  match ge with None => once = true | _ => True end /\ pc = (match n with O => QOn | _ => QRun rd 0 order end) \/
  (ge = None /\ once = false /\ exists g, pc = QLoad (Some g) /\ ge_ok (Some g) rd n).
Lemma loaded_l : forall ge (r0 : ring Z) q0, holds Size r0 q0 -> ge_ok ge (rb_rd r0) (length q0) -> dec ge (rb_rd r0) (length q0) (q_loaded once order Size ge (rb_wr r0) (rb_rd r0)).
Proof.
  intros ge r0 q0 H0 G. unfold q_loaded, dec. cbv zeta. destruct ge as [g|].
  - left. split; [exact Logic.I|]. rewrite (sub_pos r0 q0 g H0 G). destruct q0; reflexivity.
  - pose proof (cmp_ok r0 q0 H0) as C. destruct (Sumbool.sumbool_of_bool once) as [E|E]; rewrite E.
    + left. split; [reflexivity|]. rewrite (sub_pos r0 q0 _ H0 C). destruct q0; reflexivity.
    + right. split; [reflexivity|]. split; [reflexivity|]. eexists. split; [reflexivity|exact C].
Qed.
Lemma dec_inv : forall s q ge n pc, Forall is_byte q -> holds Size (q_ring s) q -> q_acc s = delivered (q_got s) ++ q -> (n <= length q)%nat -> dec ge (rb_rd (q_ring s)) n pc ->
  q_inv (mkQ (q_ring s) (q_ien s) pc (q_got s) (q_acc s)) q.
Proof.
  intros s q ge n pc Fb Hh A L D. split; [exact Fb|]. split; [exact Hh|]. cbn [q_pc q_acc q_got q_ring]. destruct D as [(_ & ->)|(_ & _ & g & -> & G)].
  - destruct n; [exact A|]. split; [apply Hh|]. split; [exists []; reflexivity|]. left. split; [apply rkey_in|]. split; [reflexivity|]. split; [exact A|].
    destruct q as [|y q']; [cbn in L; lia|]. exists y, q'. split; [reflexivity|]. intros N. destruct (N ritem_in).
  - split; [exact A|]. destruct g; [exact Logic.I|]. cbn [ge_ok length] in *. lia.
Qed.
Lemma write_mem : forall (r : ring Z) v r' b, ring_write Size r v = Some (r', b) -> rb_rd r' = rb_rd r /\ (forall k, k <> rb_wr r \/ b = false -> rb_mem r' k = rb_mem r k).
Proof.
  intros r v r' b E. unfold ring_write in E. destruct (if rb_wr r + 1 >=? Size then _ else _).
  - injection E as <- <-. auto.
  - destruct (inb (rb_wr r) Size); [|discriminate]. injection E as <- <-. cbn [rb_rd rb_mem]. split; [reflexivity|]. intros k [N|N]; [|discriminate]. apply upd_other. exact N.
Qed.
Lemma spare_l : forall (r : ring Z) q d, holds Size r q -> 0 <= d < Size -> rb_rd r = o_next Size d -> Z.of_nat (length q) < Size - 1 -> d <> rb_wr r.
Proof.
  intros r q d (Hrd & Hq & Hw & _) Hd E L. rewrite Hw, E. unfold wrap, o_next. destruct (Z.geb_spec (d + 1) Size).
  - destruct (Z.geb_spec (0 + Z.of_nat (length q)) Size); lia.
  - destruct (Z.geb_spec (d + 1 + Z.of_nat (length q)) Size); lia.
Qed.
Lemma q_isr_inv : forall s q data ok, q_inv s q -> exists s' q', q_isr Size s data ok = Some s' /\ q_inv s' q' /\ q_pc s' = q_pc s /\ q_got s' = q_got s /\ q_ien s' = q_ien s /\
  q' = (if q_ien s && ok && (Z.of_nat (length q) <? Size - 1) then q ++ [u8 data] else q) /\
  q_acc s' = (if q_ien s && ok && (Z.of_nat (length q) <? Size - 1) then q_acc s ++ [u8 data] else q_acc s).
Proof.
  intros s q data ok (Fb & Hh & X). unfold q_isr. destruct (q_ien s && ok) eqn:Ei; [|exists s, q; split; [reflexivity|]; split; [exact (conj Fb (conj Hh X))|]; auto].
  destruct (holds_write Size HSize _ _ (u8 data) Hh) as (r' & E & Hh'). rewrite E. destruct (write_mem _ _ _ _ E) as [Er Em]. cbn [andb].
  destruct (Z.ltb_spec (Z.of_nat (length q)) (Size - 1)) as [L|L].
  - eexists. exists (q ++ [u8 data]). split; [reflexivity|]. cbn [q_pc q_got q_acc q_ien]. split; [|auto]. split; [apply Forall_app; split; [exact Fb|]; constructor; [apply u8_range|constructor]|].
    cbn [q_ring q_pc q_got q_acc]. split; [exact Hh'|]. rewrite app_length. cbn [length]. destruct (q_pc s) as [|ge|ge b|d x todo|].
    + rewrite X, app_assoc. reflexivity.
    + destruct X as [X G]. split; [rewrite X, app_assoc; reflexivity|]. rewrite Er. destruct ge as [[|]|]; try exact Logic.I. cbn [ge_ok length] in *. lia.
    + destruct X as (X & W & r0 & q0 & H0 & R0 & L0 & B0 & G0). split; [rewrite X, app_assoc; reflexivity|]. split; [exact W|]. exists r0, q0. rewrite Er. split; [exact H0|]. split; [exact R0|]. split; [lia|]. auto.
    + destruct X as (Hd & Xo & X). split; [exact Hd|]. split; [exact Xo|]. rewrite Er. destruct X as [(K & R & A & y & q' & -> & Y)|(K & R & y & Yb & A & Y1 & Y2)].
      * left. split; [exact K|]. split; [exact R|]. split; [rewrite A, app_assoc; reflexivity|]. exists y, (q' ++ [u8 data]). auto.
      * right. split; [exact K|]. split; [exact R|]. exists y. split; [exact Yb|]. split; [rewrite A, <- app_assoc; reflexivity|]. split; [|exact Y2].
        intros I. rewrite Em; [exact (Y1 I)|]. left. apply (spare_l (q_ring s) q); assumption.
    + rewrite X, app_assoc. reflexivity.
  - eexists. exists q. split; [reflexivity|]. cbn [q_pc q_got q_acc q_ien]. split; [|auto]. split; [exact Fb|]. cbn [q_ring q_pc q_got q_acc]. split; [exact Hh'|]. rewrite Er.
    destruct (q_pc s) as [|ge|ge b|d x todo|]; try exact X. destruct X as (Hd & Xo & X). split; [exact Hd|]. split; [exact Xo|]. destruct X as [X|(K & R & y & Yb & A & Y1 & Y2)]; [left; exact X|].
    right. split; [exact K|]. split; [exact R|]. exists y. split; [exact Yb|]. split; [exact A|]. split; [|exact Y2]. intros I. rewrite Em; [exact (Y1 I)|]. right. reflexivity.
Qed.
Lemma holds_taken : forall (r : ring Z) y q, holds Size r (y :: q) -> rb_mem r (rb_rd r) = y /\ holds Size (set_rd r (o_next Size (rb_rd r))) q.
Proof.
  intros r y q H. destruct (holds_read Size HSize _ _ _ H) as (r' & E & H'). unfold ring_read in E. destruct (inb (rb_rd r) Size); [|discriminate]. injection E as <- <-. auto.
Qed.
Lemma q_step_inv : forall s q e, q_inv s q -> exists s' q', q_step whole lf once order B Size s e = Some s' /\ q_inv s' q'.
Proof.
  intros s q e HI. destruct e as [| |data ok].
  - destruct HI as (Fb & Hh & X). cbn [q_step]. destruct (q_pc s) eqn:Ep; try (exists s, q; split; [reflexivity|]; split; [exact Fb|]; split; [exact Hh|]; rewrite Ep; exact X).
    eexists. exists q. split; [reflexivity|]. split; [exact Fb|]. split; [exact Hh|]. cbn [q_pc q_acc q_got]. split; [exact X|exact Logic.I].
  - cbn [q_step]. unfold q_main. cbv zeta. pose proof HI as (Fb & Hh & X). destruct (q_pc s) as [|ge|ge b|d x todo|] eqn:Ep.
    + exists s, q. auto.
    + destruct X as [A G]. destruct (Sumbool.sumbool_of_bool whole) as [Ew|Ew].
      * eexists. exists q. split; [rewrite Ew; reflexivity|]. apply (dec_inv s q ge (length q)); auto. apply loaded_l; assumption.
      * eexists. exists q. split; [rewrite Ew; reflexivity|]. split; [exact Fb|]. split; [exact Hh|]. cbn [q_pc q_acc q_got q_ring]. split; [exact A|]. split; [exact Ew|]. exists (q_ring s), q. auto.
    + destruct X as (A & W & r0 & q0 & H0 & R0 & L0 & -> & G0). destruct HP as [P|P]; [congruence|].
      eexists. exists q. split; [reflexivity|]. rewrite (join_placed B Size P lf) by (eapply holds_wr; eassumption). rewrite R0 in G0. destruct lf.
      * apply (dec_inv s q ge (length q0)); auto. rewrite <- R0 in *. apply loaded_l; assumption.
      * apply (dec_inv s q ge (length q)); auto. apply loaded_l; [assumption|]. destruct ge as [[|]|]; try exact Logic.I. cbn [ge_ok length] in *. lia.
    + destruct X as (Hd & (pre & Xo) & X). destruct todo as [|a todo].
      * destruct X as [(K & _)|(_ & _ & y & Yb & A & _ & Y)]; [contradiction|]. specialize (Y ltac:(intros I; contradiction)). subst x.
        assert (Ey : s16 y = y) by (apply s16_small; unfold is_byte in Yb; lia). eexists. exists q. split; [reflexivity|]. split; [exact Fb|]. split; [exact Hh|]. cbn [q_pc q_acc q_got].
        rewrite Ey, delivered_snoc, (proj2 (Z.leb_le 0 y)) by apply Yb. rewrite A, <- app_assoc. reflexivity.
      * pose proof rorder_nodup as ND. rewrite Xo in ND. assert (Xo' : exists p, order = p ++ todo) by (exists (pre ++ [a]); rewrite <- app_assoc; exact Xo).
        assert (ND' : ~ In a todo) by (intros I; apply NoDup_remove_2 in ND; apply ND; apply in_or_app; right; exact I).
        assert (Ain : In a (rsteps whole)) by (apply rorder_in; rewrite Xo; apply in_or_app; right; left; reflexivity).
        pose proof (next_range Size HSize d Hd) as Nr.
        assert (KEY : forall r', a = key -> r' = set_rd (q_ring s) (o_next Size d) -> exists s' q', Some (mkQ r' (q_ien s) (QRun d x todo) (q_got s) (q_acc s)) = Some s' /\ q_inv s' q').
        { intros r' Ea ->. destruct X as [(K & R & A & y & q' & -> & Y)|(K & _)]; [|exfalso; apply K; left; exact Ea]. destruct (holds_taken _ _ _ Hh) as [M Hh']. rewrite R in M, Hh'.
          eexists. exists q'. split; [reflexivity|]. apply Forall_cons_iff in Fb. destruct Fb as [Fy Fb]. split; [exact Fb|]. cbn [q_ring q_pc q_acc q_got]. split; [exact Hh'|].
          split; [exact Hd|]. split; [exact Xo'|]. right. rewrite Ea in ND'. split; [exact ND'|]. split; [reflexivity|]. exists y. split; [exact Fy|]. split; [exact A|]. split; [intros _; exact M|].
          intros N. apply Y. intros [E|I]; [|exact (N I)]. rewrite Ea in E. unfold rcur in E. destruct whole; discriminate. }
        destruct a.
        -- rewrite (proj2 (inb_true d Size) Hd). eexists. exists q. split; [reflexivity|]. split; [exact Fb|]. split; [exact Hh|]. cbn [q_ring q_pc q_acc q_got].
           split; [exact Hd|]. split; [exact Xo'|]. destruct X as [(K & R & A & y & q' & -> & Y)|(K & R & y & Yb & A & Y1 & Y2)].
           ++ left. split; [destruct K as [E|K]; [unfold rcur in E; destruct whole; discriminate|exact K]|]. split; [exact R|]. split; [exact A|]. exists y, q'. split; [reflexivity|].
              intros _. destruct (holds_taken _ _ _ Hh) as [M _]. rewrite R in M. exact M.
           ++ right. split; [intros I; apply K; right; exact I|]. split; [exact R|]. exists y. split; [exact Yb|]. split; [exact A|]. split; [intros I; destruct (ND' I)|]. intros _. apply Y1. left. reflexivity.
        -- apply KEY; [|reflexivity]. unfold rsteps, rcur in *. destruct whole; [reflexivity|]. cbn in Ain. intuition discriminate.
        -- assert (W : whole = false). { unfold rsteps in Ain. destruct whole; [|reflexivity]. cbn in Ain. intuition discriminate. }
           destruct HP as [P|P]; [congruence|]. apply KEY; [unfold rcur; rewrite W; reflexivity|]. rewrite (lo_placed B Size P) by (try exact Nr; apply Hh). reflexivity.
        -- assert (W : whole = false). { unfold rsteps in Ain. destruct whole; [|reflexivity]. cbn in Ain. intuition discriminate. }
           destruct HP as [P|P]; [congruence|]. rewrite (hi_placed B Size P) by (try exact Nr; apply Hh).
           assert (ER : set_rd (q_ring s) (rb_rd (q_ring s)) = q_ring s) by (unfold set_rd; destruct (q_ring s); reflexivity). rewrite ER.
           eexists. exists q. split; [reflexivity|]. split; [exact Fb|]. split; [exact Hh|]. cbn [q_ring q_pc q_acc q_got]. split; [exact Hd|]. split; [exact Xo'|].
           destruct X as [(K & R & A & y & q' & -> & Y)|(K & R & y & Yb & A & Y1 & Y2)].
           ++ left. split; [destruct K as [E|K]; [unfold rcur in E; rewrite W in E; discriminate|exact K]|]. split; [exact R|]. split; [exact A|]. exists y, q'. split; [reflexivity|].
              intros N. apply Y. intros [E|I]; [discriminate|exact (N I)].
           ++ right. split; [intros I; apply K; right; exact I|]. split; [exact R|]. exists y. split; [exact Yb|]. split; [exact A|]. split; [intros I; apply Y1; right; exact I|].
              intros N. apply Y2. intros [E|I]; [discriminate|exact (N I)].
    + eexists. exists q. split; [reflexivity|]. split; [exact Fb|]. split; [exact Hh|]. cbn [q_pc q_acc q_got]. rewrite delivered_snoc. cbn [Z.leb Z.compare]. rewrite app_nil_r. exact X.
  - destruct (q_isr_inv s q data ok HI) as (s' & q' & E & I & _). exists s', q'. auto.
Qed.

Lemma q_run_inv : forall evs s q, q_inv s q -> exists s' q', q_run whole lf once order B Size s evs = Some s' /\ q_inv s' q'.
Proof.
  induction evs as [|e evs IH]; intros s q H; [exists s, q; auto|]. destruct (q_step_inv s q e H) as (s1 & q1 & E1 & H1). destruct (IH s1 q1 H1) as (s2 & q2 & E2 & H2).
  exists s2, q2. cbn [q_run]. rewrite E1. auto.
Qed.
Lemma q_init_inv : forall m, q_inv (q_init m) [].
Proof. intros m. split; [constructor|]. split; [exact (holds_clear Size HSize (mkRing m 0 0))|reflexivity]. Qed.
Definition answer_ok (v : Z) : Prop := v = -1 \/ 0 <= v < 256.
Lemma q_step_answers : forall s q e s', q_inv s q -> Forall answer_ok (q_got s) -> q_step whole lf once order B Size s e = Some s' -> Forall answer_ok (q_got s').
Proof.
  intros s q e s' (Fb & Hh & X) F E. destruct e as [| |data ok]; cbn [q_step] in E.
  - destruct (q_pc s); injection E as <-; exact F.
  - unfold q_main in E. cbv zeta in E. destruct (q_pc s) as [|ge|ge b|d x todo|].
    + injection E as <-. exact F.
    + destruct whole; injection E as <-; exact F.
    + injection E as <-. exact F.
    + destruct todo as [|a todo].
      * injection E as <-. cbn [q_got]. apply Forall_app. split; [exact F|]. constructor; [|constructor].
        destruct X as (_ & _ & [(K & _)|(_ & _ & y & Yb & _ & _ & Y)]); [contradiction|]. specialize (Y ltac:(intros I; contradiction)). subst x.
        right. rewrite s16_small by (unfold is_byte in Yb; lia). exact Yb.
      * destruct a; [destruct (inb d Size); [|discriminate]| | |]; injection E as <-; exact F.
    + injection E as <-. cbn [q_got]. apply Forall_app. split; [exact F|]. constructor; [left; reflexivity|constructor].
  - unfold q_isr in E. destruct (q_ien s && ok); [|injection E as <-; exact F].
    destruct (ring_write Size (q_ring s) (u8 data)) as [[r b]|]; [|discriminate]. injection E as <-. exact F.
Qed.
Lemma q_run_answers : forall evs s q s', q_inv s q -> Forall answer_ok (q_got s) -> q_run whole lf once order B Size s evs = Some s' -> Forall answer_ok (q_got s').
Proof.
  induction evs as [|e evs IH]; intros s q s' H F E; [injection E as <-; exact F|]. cbn [q_run] in E. destruct (q_step_inv s q e H) as (s1 & q1 & E1 & H1).
  rewrite E1 in E. apply (IH s1 q1 s' H1); [|exact E]. exact (q_step_answers s q e s1 H F E1).
Qed.
Lemma q_inv_fifo : forall s q, q_inv s q -> Forall answer_ok (q_got s) -> q_fifo Size s q.
Proof.
  intros s q (Fb & Hh & X) FA. unfold answer_ok in FA. unfold q_fifo. rewrite (holds_length Size HSize _ _ Hh). assert (L : Z.of_nat (length q) <= Size - 1) by (destruct Hh as (_ & L & _); lia).
  destruct (q_pc s) as [|ge|ge b|d x todo|].
  - exists []. auto 8.
  - exists []. destruct X. auto 8.
  - exists []. destruct X. auto 8.
  - destruct X as (_ & _ & [(_ & _ & A & _)|(_ & _ & y & _ & A & _)]); [exists []; auto 8|]. exists [y]. split; [exact A|]. split; [auto|]. split; [discriminate|]. auto.
  - exists []. auto 8.
Qed.
Lemma q_fifo_l : forall m evs, exists s rest, q_run whole lf once order B Size (q_init m) evs = Some s /\ q_fifo Size s rest /\
  forall data ok, exists s', q_step whole lf once order B Size s (QIsr data ok) = Some s' /\
    q_acc s' = (if q_ien s && ok && (Z.of_nat (length rest) <? Size - 1) then q_acc s ++ [u8 data] else q_acc s).
Proof.
  intros m evs. destruct (q_run_inv evs (q_init m) [] (q_init_inv m)) as (s & q & E & H). exists s, q. split; [exact E|]. split; [apply q_inv_fifo; [exact H|]; apply (q_run_answers evs (q_init m) [] s (q_init_inv m)); [constructor|exact E]|].
  intros data ok. destruct (q_isr_inv s q data ok H) as (s' & q' & E' & _ & _ & _ & _ & _ & A). exists s'. split; [exact E'|exact A].
Qed.
(** A Read that finds something. *)
Definition q_sure (s : orx) (q : list Z) (g0 : list Z) : Prop :=
  match q_pc s with
  | QIdle => exists x, 0 <= x /\ q_got s = g0 ++ [x]
  | QLoad _ => q_got s = g0 /\ q <> []
  | QLoad2 ge b => q_got s = g0 /\ q <> [] /\
      exists (r0 : ring Z) q0, holds Size r0 q0 /\ q0 <> [] /\ rb_rd r0 = rb_rd (q_ring s) /\ b = byte1 lf (B + rb_wr r0) /\ ge_ok ge (rb_rd r0) (length q0)
  | QRun _ _ _ => q_got s = g0
  | QOn => False
  end.
Lemma dec_sure : forall s q ge rd n pc g0, q_got s = g0 -> q <> [] -> n <> O -> dec ge rd n pc -> q_sure (mkQ (q_ring s) (q_ien s) pc (q_got s) (q_acc s)) q g0.
Proof.
  intros s q ge rd n pc g0 G N Z D. unfold q_sure. cbn [q_pc q_got]. destruct D as [(_ & ->)|(_ & _ & g & -> & _)]; [destruct n; [congruence|exact G]|auto].
Qed.
Lemma q_step_sure : forall s q e g0, no_read e -> q_inv s q -> q_sure s q g0 -> exists s' q', q_step whole lf once order B Size s e = Some s' /\ q_inv s' q' /\ q_sure s' q' g0.
Proof.
  intros s q e g0 N HI R. pose proof HI as (Fb & Hh & X). destruct e as [| |data ok]; [contradiction| |].
  - destruct (q_step_inv s q QStep HI) as (s' & q' & E & HI'). exists s', q'. split; [exact E|]. split; [exact HI'|].
    assert (NQ : forall t : list Z, t <> [] -> length t <> O) by (intros [|? ?] C; [contradiction|discriminate]).
    assert (SAME : q_ring s' = q_ring s -> q <> [] -> q' <> []).
    { intros ER NN. destruct HI' as (_ & Hh' & _). rewrite ER in Hh'. pose proof (holds_length Size HSize _ _ Hh). pose proof (holds_length Size HSize _ _ Hh').
      destruct q as [|? ?]; [contradiction|]. destruct q'; [cbn [length] in *; lia|discriminate]. }
    cbn [q_step] in E. unfold q_main in E. cbv zeta in E. unfold q_sure in R. destruct (q_pc s) as [|ge|ge b|d x todo|] eqn:Ep.
    + injection E as <-. unfold q_sure. rewrite Ep. exact R.
    + destruct R as [G NN]. destruct X as [A GE]. destruct (Sumbool.sumbool_of_bool whole) as [Ew|Ew]; rewrite Ew in E; injection E as <-.
      * apply (dec_sure s q' ge (rb_rd (q_ring s)) (length q)); auto. apply loaded_l; assumption.
      * unfold q_sure. cbn [q_pc q_got q_ring]. split; [exact G|]. split; [apply SAME; auto|]. exists (q_ring s), q. auto.
    + destruct R as (G & NN & r0 & q0 & H0 & N0 & R0 & -> & GE). destruct X as (_ & W & r1 & q1 & H1 & R1 & L1 & B1 & G1). destruct HP as [P|P]; [congruence|].
      rewrite (join_placed B Size P lf) in E by (eapply holds_wr; eassumption). injection E as <-. rewrite R0 in GE. destruct lf.
      * apply (dec_sure s q' ge (rb_rd (q_ring s)) (length q0)); auto. rewrite <- R0 in *. apply loaded_l; assumption.
      * apply (dec_sure s q' ge (rb_rd (q_ring s)) (length q)); auto. apply loaded_l; [assumption|]. destruct ge as [[|]|]; try exact Logic.I. rewrite R1 in G1. cbn [ge_ok] in *. lia.
    + destruct todo as [|a todo].
      * injection E as <-. unfold q_sure. cbn [q_pc q_got]. destruct X as (_ & _ & [(K & _)|(_ & _ & y & Yb & A & _ & Y)]); [contradiction|]. specialize (Y ltac:(intros I; contradiction)). subst x.
        exists (s16 y). rewrite s16_small by (unfold is_byte in Yb; lia). split; [apply Yb|]. rewrite R. reflexivity.
      * destruct a; [destruct (inb d Size); [|discriminate]| | |]; injection E as <-; exact R.
    + contradiction.
  - destruct (q_isr_inv s q data ok HI) as (s' & q' & E & HI' & Ep & Eg & _ & Eq & _). exists s', q'. split; [exact E|]. split; [exact HI'|].
    assert (NN : q <> [] -> q' <> []) by (rewrite Eq; intros Nq; destruct (_ && _); [destruct q; discriminate|exact Nq]).
    assert (ER : rb_rd (q_ring s') = rb_rd (q_ring s)).
    { unfold q_isr in E. destruct (q_ien s && ok); [|injection E as <-; reflexivity]. destruct (ring_write Size (q_ring s) (u8 data)) as [[r1 b1]|] eqn:E1; [|discriminate]. injection E as <-. apply (write_mem _ _ _ _ E1). }
    unfold q_sure in *. rewrite Ep, Eg, ER. destruct (q_pc s); try exact R; destruct R as (R1 & R2); [auto|]. destruct R2 as [R2 R3]. auto.
Qed.
Lemma q_answers_l : forall m evs s more s', q_run whole lf once order B Size (q_init m) evs = Some s -> q_pc s = QIdle -> ring_length Size (q_ring s) > 0 ->
  Forall no_read more -> q_run whole lf once order B Size s (QStart :: more) = Some s' -> q_pc s' = QIdle -> exists x, 0 <= x /\ q_got s' = q_got s ++ [x].
Proof.
  intros m evs s more s' E Ep L F E' Ep'. destruct (q_run_inv evs (q_init m) [] (q_init_inv m)) as (s0 & q & E0 & HI). rewrite E in E0. injection E0 as <-.
  pose proof HI as (Fb & Hh & X). rewrite (holds_length Size HSize _ _ Hh) in L. cbn [q_run q_step] in E'. rewrite Ep in E', X. cbv iota in E'.
  set (s1 := mkQ (q_ring s) (q_ien s) (QLoad None) (q_got s) (q_acc s)) in *.
  assert (H1 : q_inv s1 q) by (split; [exact Fb|]; split; [exact Hh|]; cbn [q_pc s1 q_got q_acc]; split; [exact X|exact Logic.I]).
  assert (R1 : q_sure s1 q (q_got s)) by (unfold q_sure; cbn [q_pc s1 q_got]; split; [reflexivity|]; intros ->; cbn in L; lia).
  assert (G : forall l t p, Forall no_read l -> q_inv t p -> q_sure t p (q_got s) -> q_run whole lf once order B Size t l = Some s' -> exists p', q_sure s' p' (q_got s)).
  { induction l as [|e l IH]; intros t p Fl Ht Rt El; [injection El as <-; eauto|]. apply Forall_cons_iff in Fl. destruct Fl as [Fe Fl]. cbn [q_run] in El.
    destruct (q_step_sure t p e (q_got s) Fe Ht Rt) as (t' & p' & Et & Ht' & Rt'). rewrite Et in El. apply (IH t' p' Fl Ht' Rt' El). }
  destruct (G more s1 q F H1 R1 E') as (p' & Rp). unfold q_sure in Rp. rewrite Ep' in Rp. exact Rp.
Qed.
(** An undisturbed Read ends. *)
Definition left_steps (pc : qpc) : nat :=
  match pc with
  | QIdle => 0 | QOn => 1
  | QRun _ _ todo => 1 + length todo
  | QLoad (Some _) => 3 + length order
  | QLoad2 (Some _) _ => 2 + length order
  | QLoad None => 5 + length order
  | QLoad2 None _ => 4 + length order
  end%nat.
Lemma loaded_left : forall ge w rd, (left_steps (q_loaded once order Size ge w rd) < left_steps (QLoad2 ge 0))%nat.
Proof. intros ge w rd. unfold q_loaded. cbv zeta. destruct ge as [g|]; [|destruct once; [|cbn [left_steps]; lia]]; destruct (_ >? 0); cbn [left_steps]; lia. Qed.
Lemma q_ends : forall n s q, q_inv s q -> (left_steps (q_pc s) <= n)%nat -> exists s' q', q_run whole lf once order B Size s (repeat QStep n) = Some s' /\ q_inv s' q' /\ q_pc s' = QIdle.
Proof.
  induction n as [|n IH]; intros s q HI L.
  - exists s, q. split; [reflexivity|]. split; [exact HI|]. destruct (q_pc s) as [|[g|]|[g|] b|d x todo|]; cbn [left_steps] in L; try lia. reflexivity.
  - destruct (q_step_inv s q QStep HI) as (s1 & q1 & E & HI1). cbn [repeat q_run]. rewrite E. apply (IH s1 q1 HI1). 
    cbn [q_step] in E. unfold q_main in E. cbv zeta in E. destruct (q_pc s) as [|ge|ge b|d x todo|] eqn:Ep.
    + injection E as <-. rewrite Ep. cbn. lia.
    + destruct (Sumbool.sumbool_of_bool whole) as [Ew|Ew]; rewrite Ew in E; injection E as <-; cbn [q_pc].
      * pose proof (loaded_left ge (rb_wr (q_ring s)) (rb_rd (q_ring s))). destruct ge; cbn [left_steps] in *; lia.
      * destruct ge; cbn [left_steps] in *; lia.
    + injection E as <-. cbn [q_pc]. match goal with |- (left_steps (q_loaded _ _ _ _ ?w ?r) <= _)%nat => pose proof (loaded_left ge w r) end. destruct ge; cbn [left_steps] in *; lia.
    + destruct todo as [|a todo]; [injection E as <-; cbn; lia|]. destruct a; [destruct (inb d Size); [|discriminate]| | |]; injection E as <-; cbn [q_pc left_steps length] in *; lia.
    + injection E as <-. cbn. lia.
Qed.
Lemma q_run_app : forall a b s, q_run whole lf once order B Size s (a ++ b) = match q_run whole lf once order B Size s a with Some s' => q_run whole lf once order B Size s' b | None => None end.
Proof. induction a as [|e a IH]; intros b s; [reflexivity|]. cbn [app q_run]. destruct (q_step whole lf once order B Size s e); [apply IH|reflexivity]. Qed.
Lemma steps_acc : forall n s s', q_run whole lf once order B Size s (repeat QStep n) = Some s' -> q_acc s' = q_acc s.
Proof.
  induction n as [|n IH]; intros s s' E; [injection E as <-; reflexivity|]. cbn [repeat q_run q_step] in E. destruct (q_main whole lf once order B Size s) as [s1|] eqn:E1; [|discriminate].
  rewrite (IH s1 s' E). unfold q_main in E1. cbv zeta in E1. destruct (q_pc s) as [|ge|ge b|d x [|a todo]|]; try (injection E1 as <-; reflexivity).
  - destruct whole; injection E1 as <-; reflexivity.
  - destruct a; [destruct (inb d Size); [|discriminate]| | |]; injection E1 as <-; reflexivity.
Qed.
Lemma order_len : (length order <= 3)%nat.
Proof. rewrite (Permutation_length HO). unfold rsteps. destruct whole; cbn; lia. Qed.
Lemma q_drain : forall n q s, length q = n -> q_inv s q -> q_pc s = QIdle -> exists s', q_run whole lf once order B Size s (times n q_read) = Some s' /\ q_pc s' = QIdle /\ q_acc s' = q_acc s /\ delivered (q_got s') = q_acc s.
Proof.
  induction n as [|n IH]; intros q s Ln HI Ep.
  - exists s. split; [reflexivity|]. split; [exact Ep|]. split; [reflexivity|]. destruct q; [|discriminate]. destruct HI as (_ & _ & X). rewrite Ep in X. rewrite X, app_nil_r. reflexivity.
  - pose proof HI as (Fb & Hh & X). rewrite Ep in X. cbn [times]. rewrite q_run_app. unfold q_read at 1. cbn [q_run q_step]. rewrite Ep.
    set (s1 := mkQ (q_ring s) (q_ien s) (QLoad None) (q_got s) (q_acc s)) in *.
    assert (H1 : q_inv s1 q) by (split; [exact Fb|]; split; [exact Hh|]; cbn [q_pc s1 q_got q_acc]; split; [exact X|exact Logic.I]).
    assert (R1 : q_sure s1 q (q_got s)) by (unfold q_sure; cbn [q_pc s1 q_got]; split; [reflexivity|]; intros ->; discriminate).
    pose proof order_len as OL. destruct (q_ends 8 s1 q H1) as (s2 & q2 & E2 & H2 & Ep2). { cbn [q_pc s1 left_steps]. lia. }
    rewrite E2. pose proof (steps_acc _ _ _ E2) as A2. cbn [q_acc s1] in A2.
    assert (G : forall k t p, q_inv t p -> q_sure t p (q_got s) -> q_run whole lf once order B Size t (repeat QStep k) = Some s2 -> exists p', q_sure s2 p' (q_got s)).
    { induction k as [|k IHk]; intros t p Ht Rt El; [injection El as <-; eauto|]. cbn [repeat q_run] in El.
      destruct (q_step_sure t p QStep (q_got s) Logic.I Ht Rt) as (t' & p' & Et & Ht' & Rt'). rewrite Et in El. apply (IHk t' p' Ht' Rt' El). }
    destruct (G 8%nat s1 q H1 R1 E2) as (p' & Rp). unfold q_sure in Rp. rewrite Ep2 in Rp. destruct Rp as (x & Px & Gx).
    pose proof H2 as (_ & _ & X2). rewrite Ep2, A2, Gx, delivered_snoc, (proj2 (Z.leb_le 0 x) Px), X, <- app_assoc in X2. apply app_inv_head in X2.
    assert (L2 : length q2 = n) by (rewrite X2 in Ln; cbn [app length] in Ln; lia).
    destruct (IH q2 s2 L2 H2 Ep2) as (s' & E' & P' & A' & D'). exists s'. rewrite A2 in A', D'. auto.
Qed.
Lemma q_drains_l : forall m evs s, q_run whole lf once order B Size (q_init m) evs = Some s -> q_pc s = QIdle ->
  exists n s', q_run whole lf once order B Size (q_init m) (evs ++ times n q_read) = Some s' /\ q_pc s' = QIdle /\ q_acc s' = q_acc s /\ delivered (q_got s') = q_acc s.
Proof.
  intros m evs s E Ep. destruct (q_run_inv evs (q_init m) [] (q_init_inv m)) as (s0 & q & E0 & HI). rewrite E in E0. injection E0 as <-.
  destruct (q_drain (length q) q s eq_refl HI Ep) as (s' & E' & R). exists (length q), s'. rewrite q_run_app, E. auto.
Qed.
End Rx.
