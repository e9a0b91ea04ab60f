(** Lemmas about the ring buffer model. *)
Require Import ZArith List Bool Lia ZifyBool.
Import ListNotations.
From Verif Require Import Base BaseFacts RingModel RingSpec.
Open Scope Z_scope.

Section Proofs.
Context {T : Type}.
Variable Size : Z.
Hypothesis HSize : 1 <= Size <= 65535.

(** Position [i], which lies less than one lap beyond the end, brought back into range. *)
Definition wrap (i : Z) : Z := if i >=? Size then i - Size else i.

Fixpoint items (m : Z -> T) (rd : Z) (n : nat) : list T :=
  match n with
  | O => []
  | S k => m rd :: items m (wrap (rd + 1)) k
  end.

Lemma items_length : forall m n rd, length (items m rd n) = n.
Proof. intros m n. induction n as [|n IH]; intros rd; cbn [items length]; [reflexivity|now rewrite IH]. Qed.

Lemma items_snoc : forall m n rd, 0 <= rd < Size -> Z.of_nat n < Size ->
  items m rd (S n) = items m rd n ++ [m (wrap (rd + Z.of_nat n))].
Proof.
  intros m n. induction n as [|n IH]; intros rd Hrd Hn.
  - cbn [items app]. unfold wrap. destruct (Z.geb_spec (rd + Z.of_nat 0) Size); [lia|].
    do 2 f_equal. lia.
  - change (items m rd (S (S n))) with (m rd :: items m (wrap (rd + 1)) (S n)).
    change (items m rd (S n)) with (m rd :: items m (wrap (rd + 1)) n).
    rewrite IH; [|unfold wrap; destruct (Z.geb_spec (rd + 1) Size); lia|lia].
    cbn [app]. do 3 f_equal. f_equal. unfold wrap.
    destruct (Z.geb_spec (rd + 1) Size);
      destruct (Z.geb_spec (rd + Z.of_nat (S n)) Size);
      destruct (Z.geb_spec (rd + 1 + Z.of_nat n) Size);
      destruct (Z.geb_spec (rd + 1 - Size + Z.of_nat n) Size); lia.
Qed.

Lemma items_ext : forall m m' n rd, 0 <= rd < Size -> Z.of_nat n <= Size ->
  (forall k, 0 <= k < Z.of_nat n -> m (wrap (rd + k)) = m' (wrap (rd + k))) ->
  items m rd n = items m' rd n.
Proof.
  intros m m' n. induction n as [|n IH]; intros rd Hrd Hn H; cbn [items]; [reflexivity|].
  f_equal.
  - specialize (H 0). unfold wrap in H. destruct (Z.geb_spec (rd + 0) Size); [lia|].
    replace (rd + 0) with rd in H by lia. apply H. lia.
  - apply IH.
    + unfold wrap; destruct (Z.geb_spec (rd + 1) Size); lia.
    + lia.
    + intros k Hk. specialize (H (k + 1)).
      assert (E : wrap (wrap (rd + 1) + k) = wrap (rd + (k + 1))).
      { unfold wrap. destruct (Z.geb_spec (rd + 1) Size);
          destruct (Z.geb_spec (rd + (k + 1)) Size);
          destruct (Z.geb_spec (rd + 1 + k) Size);
          destruct (Z.geb_spec (rd + 1 - Size + k) Size); lia. }
      rewrite E. apply H. lia.
Qed.

(** The ring holds queue [q]. *)
Definition holds (r : ring T) (q : list T) : Prop :=
  0 <= rb_rd r < Size /\ Z.of_nat (length q) < Size /\
  rb_wr r = wrap (rb_rd r + Z.of_nat (length q)) /\
  q = items (rb_mem r) (rb_rd r) (length q).

Lemma holds_clear : forall r, holds (ring_clear r) [].
Proof.
  intros r. unfold holds, ring_clear, wrap. cbn. repeat split; try lia.
  destruct (Z.geb_spec 0 Size); lia.
Qed.

Lemma holds_length : forall r q, holds r q -> ring_length Size r = Z.of_nat (length q).
Proof.
  intros r q [Hrd [Hq [Hw _]]]. unfold ring_length. rewrite Hw. unfold wrap.
  destruct (Z.geb_spec (rb_rd r + Z.of_nat (length q)) Size) as [H|H].
  - destruct (Z.geb_spec (rb_rd r + Z.of_nat (length q) - Size) (rb_rd r)); [lia|].
    rewrite u16_small; lia.
  - destruct (Z.geb_spec (rb_rd r + Z.of_nat (length q)) (rb_rd r)); [|lia].
    rewrite u16_small; lia.
Qed.

Lemma holds_write : forall r q v, holds r q ->
  exists r', ring_write Size r v = Some (r', Z.of_nat (length q) <? Size - 1) /\
    holds r' (if Z.of_nat (length q) <? Size - 1 then q ++ [v] else q).
Proof.
  intros r q v H0. pose proof H0 as [Hrd [Hq [Hw Hi]]]. unfold ring_write.
  set (c := if rb_wr r + 1 >=? Size then 0 =? rb_rd r else rb_wr r + 1 =? rb_rd r).
  assert (Hc : c = negb (Z.of_nat (length q) <? Size - 1)).
  { subst c. rewrite Hw. unfold wrap.
    destruct (Z.geb_spec (rb_rd r + Z.of_nat (length q)) Size).
    - destruct (Z.geb_spec (rb_rd r + Z.of_nat (length q) - Size + 1) Size);
        destruct (Z.ltb_spec (Z.of_nat (length q)) (Size - 1)); cbn [negb]; lia.
    - destruct (Z.geb_spec (rb_rd r + Z.of_nat (length q) + 1) Size);
        destruct (Z.ltb_spec (Z.of_nat (length q)) (Size - 1)); cbn [negb]; lia. }
  rewrite Hc. destruct (Z.ltb_spec (Z.of_nat (length q)) (Size - 1)) as [Hl|Hl]; cbn [negb].
  - assert (Hwr : 0 <= rb_wr r < Size).
    { rewrite Hw. unfold wrap. destruct (Z.geb_spec (rb_rd r + Z.of_nat (length q)) Size); lia. }
    assert (Hin : inb (rb_wr r) Size = true) by (apply inb_true; lia).
    rewrite Hin. eexists. split; [reflexivity|]. unfold holds. cbn [rb_rd rb_wr rb_mem].
    rewrite app_length. cbn [length]. repeat split; try lia.
    + rewrite Hw. unfold wrap. clear -Hl Hrd HSize.
      destruct (Z.geb_spec (rb_rd r + Z.of_nat (length q)) Size);
      destruct (Z.geb_spec (rb_rd r + Z.of_nat (length q + 1)) Size).
      all: try (destruct (Z.geb_spec (rb_rd r + Z.of_nat (length q) - Size + 1) Size); lia).
      all: destruct (Z.geb_spec (rb_rd r + Z.of_nat (length q) + 1) Size); lia.
    + replace (length q + 1)%nat with (S (length q)) by lia.
      rewrite items_snoc by lia. rewrite <- Hw, upd_same. f_equal.
      rewrite Hi at 1. apply items_ext; try lia.
      intros k Hk. rewrite upd_other; [reflexivity|].
      rewrite Hw. unfold wrap.
      destruct (Z.geb_spec (rb_rd r + k) Size);
        destruct (Z.geb_spec (rb_rd r + Z.of_nat (length q)) Size); lia.
  - eexists. split; [reflexivity|]. exact H0.
Qed.

Lemma holds_read : forall r x q, holds r (x :: q) ->
  exists r', ring_read Size r = Some (r', x) /\ holds r' q.
Proof.
  intros r x q [Hrd [Hq [Hw Hi]]]. unfold ring_read.
  assert (Hin : inb (rb_rd r) Size = true) by (apply inb_true; lia).
  rewrite Hin. cbn [length items] in Hi. injection Hi as Hx Hi.
  eexists. split; [rewrite Hx; reflexivity|].
  assert (Er : (if rb_rd r + 1 >=? Size then 0 else rb_rd r + 1) = wrap (rb_rd r + 1)).
  { unfold wrap. destruct (Z.geb_spec (rb_rd r + 1) Size); lia. }
  unfold holds. cbn [rb_rd rb_wr rb_mem length] in *. rewrite Er. repeat split.
  - unfold wrap. destruct (Z.geb_spec (rb_rd r + 1) Size); lia.
  - unfold wrap. destruct (Z.geb_spec (rb_rd r + 1) Size); lia.
  - lia.
  - rewrite Hw. unfold wrap.
    destruct (Z.geb_spec (rb_rd r + Z.of_nat (S (length q))) Size);
    destruct (Z.geb_spec (rb_rd r + 1) Size).
    all: try (destruct (Z.geb_spec (rb_rd r + 1 - Size + Z.of_nat (length q)) Size); lia).
    all: destruct (Z.geb_spec (rb_rd r + 1 + Z.of_nat (length q)) Size); lia.
  - exact Hi.
Qed.

Lemma ring_call_refines : forall r q o q' x, holds r q -> q_call (Size - 1) q o = Some (q', x) ->
  exists r', ring_call Size r o = Some (r', x) /\ holds r' q'.
Proof.
  intros r q o q' x H Hc. destruct o as [v| |]; cbn [q_call ring_call] in *.
  - destruct (holds_write r q v H) as [r' [E H']]. rewrite E.
    destruct (Z.of_nat (length q) <? Size - 1); injection Hc as <- <-; eauto.
  - destruct q as [|y q]; [discriminate|]. injection Hc as <- <-.
    destruct (holds_read r y q H) as [r' [E H']]. rewrite E. eauto.
  - injection Hc as <- <-. eexists. split; [reflexivity|]. apply holds_clear.
Qed.

Lemma ring_run_refines : forall ops r q q' xs, holds r q ->
  q_run (Size - 1) q ops = Some (q', xs) ->
  exists r', ring_run Size r ops = Some (r', xs) /\ holds r' q'.
Proof.
  intros ops. induction ops as [|o ops IH]; intros r q q' xs H Hr; cbn [q_run ring_run] in *.
  - injection Hr as <- <-. eauto.
  - destruct (q_call (Size - 1) q o) as [[q1 x]|] eqn:E; [|discriminate].
    destruct (q_run (Size - 1) q1 ops) as [[q2 ys]|] eqn:E2; [|discriminate].
    injection Hr as <- <-.
    destruct (ring_call_refines r q o q1 x H E) as [r1 [E1 H1]]. rewrite E1.
    destruct (IH r1 q1 q2 ys H1 E2) as [r2 [E3 H2]]. rewrite E3.
    exists r2. split; [|assumption]. now rewrite (holds_length r1 q1 H1).
Qed.

(** Underrun: reading while the queue is empty. *)
Lemma underrun_full : forall r, holds r [] ->
  exists r' v, ring_read Size r = Some (r', v) /\
    holds r' (items (rb_mem r') (rb_rd r') (Z.to_nat (Size - 1))) .
Proof.
  intros r [Hrd [Hq [Hw _]]]. cbn [length] in *. unfold ring_read.
  assert (Hin : inb (rb_rd r) Size = true) by (apply inb_true; lia).
  rewrite Hin. do 2 eexists. split; [reflexivity|].
  unfold holds. cbn [rb_rd rb_wr rb_mem]. rewrite items_length.
  assert (Er : (if rb_rd r + 1 >=? Size then 0 else rb_rd r + 1) = wrap (rb_rd r + 1)).
  { unfold wrap. destruct (Z.geb_spec (rb_rd r + 1) Size); lia. }
  rewrite Er, Z2Nat.id by lia. rewrite Hw. repeat split; try reflexivity.
  - unfold wrap. destruct (Z.geb_spec (rb_rd r + 1) Size); lia.
  - unfold wrap. destruct (Z.geb_spec (rb_rd r + 1) Size); lia.
  - lia.
  - unfold wrap.
    destruct (Z.geb_spec (rb_rd r + 1) Size);
    destruct (Z.geb_spec (rb_rd r + Z.of_nat 0) Size).
    all: try lia.
    all: try (destruct (Z.geb_spec (rb_rd r + 1 - Size + (Size - 1)) Size); lia).
    all: destruct (Z.geb_spec (rb_rd r + 1 + (Size - 1)) Size); lia.
Qed.

(** BufferedInputStream. *)
Lemma bis_call_refines : forall (toZ : T -> Z) r q o, (forall v, -32768 <= toZ v < 32768) ->
  holds r q ->
  exists r', bis_call Size toZ r o = Some (r', snd (stream_call (Size - 1) toZ q o)) /\
    holds r' (fst (stream_call (Size - 1) toZ q o)).
Proof.
  intros toZ r q o HZ H. destruct o as [v| |]; cbn [bis_call ring_call stream_call].
  - destruct (holds_write r q v H) as [r' [E H']]. rewrite E.
    exists r'. destruct (Z.of_nat (length q) <? Size - 1); cbn [fst snd]; auto.
  - unfold bis_read. rewrite (holds_length r q H).
    destruct q as [|y q]; cbn [length].
    + cbn [Z.of_nat Z.eqb fst snd]. eauto.
    + destruct (Z.eqb_spec (Z.of_nat (S (length q))) 0); [lia|].
      destruct (holds_read r y q H) as [r' [E H']]. rewrite E.
      exists r'. cbn [fst snd]. rewrite s16_small by apply HZ. auto.
  - exists (ring_clear r). cbn [fst snd]. split; [reflexivity|apply holds_clear].
Qed.

Lemma bis_run_refines : forall (toZ : T -> Z), (forall v, -32768 <= toZ v < 32768) ->
  forall ops r q, holds r q ->
  exists r', bis_run Size toZ r ops = Some (r', snd (stream_run (Size - 1) toZ q ops)) /\
    holds r' (fst (stream_run (Size - 1) toZ q ops)).
Proof.
  intros toZ HZ ops. induction ops as [|o ops IH]; intros r q H; cbn [bis_run stream_run fst snd].
  - eauto.
  - destruct (bis_call_refines toZ r q o HZ H) as [r1 [E1 H1]]. rewrite E1.
    destruct (stream_call (Size - 1) toZ q o) as [q1 x] eqn:Eq. cbn [fst snd] in *.
    destruct (IH r1 q1 H1) as [r2 [E2 H2]]. rewrite E2.
    destruct (stream_run (Size - 1) toZ q1 ops) as [q2 xs] eqn:Eq2. cbn [fst snd] in *. eauto.
Qed.
End Proofs.

Section Final.
Context {T : Type}.
Variable Size : Z.
Hypothesis HSize : 1 <= Size <= 65535.

Lemma ring_fifo_l : forall (r0 : ring T) ops q outs,
  q_run (Size - 1) [] ops = Some (q, outs) ->
  exists r, ring_run Size (ring_clear r0) ops = Some (r, outs).
Proof.
  intros r0 ops q outs H.
  destruct (ring_run_refines Size HSize ops (ring_clear r0) [] q outs (holds_clear Size HSize r0) H)
    as [r [E _]]. eauto.
Qed.

Lemma read_many : forall n (r : ring T) q, holds Size r q -> (n <= length q)%nat ->
  exists r' vs, ring_run Size r (repeat RRead n) = Some (r', vs) /\ length vs = n.
Proof.
  intros n r q H Hn.
  assert (G : forall k (q0 : list T), (k <= length q0)%nat -> exists q' vs,
    q_run (Size - 1) q0 (repeat RRead k) = Some (q', vs) /\ length vs = k).
  { clear. intros k. induction k as [|k IH]; intros q0 H; cbn [repeat q_run].
    - exists q0, []. auto.
    - destruct q0 as [|x q0]; cbn [length q_call] in *; [lia|].
      destruct (IH q0 ltac:(lia)) as [q' [vs [E L]]]. rewrite E.
      eexists. eexists. split; [reflexivity|]. cbn [length]. lia. }
  destruct (G n q Hn) as [q' [vs [E L]]].
  destruct (ring_run_refines Size HSize _ _ _ _ _ H E) as [r' [E' _]]. eauto.
Qed.

Lemma ring_underrun_l : forall (r0 : ring T) ops outs,
  q_run (Size - 1) [] ops = Some ([], outs) ->
  exists r r' v, ring_run Size (ring_clear r0) ops = Some (r, outs) /\
    ring_length Size r = 0 /\
    ring_read Size r = Some (r', v) /\
    ring_length Size r' = Size - 1 /\
    (forall w, ring_write Size r' w = Some (r', false)) /\
    exists r'' vs, ring_run Size r' (repeat RRead (Z.to_nat (Size - 1))) = Some (r'', vs) /\
      length vs = Z.to_nat (Size - 1).
Proof.
  intros r0 ops outs H.
  destruct (ring_run_refines Size HSize ops (ring_clear r0) [] [] outs (holds_clear Size HSize r0) H)
    as [r [E Hr]].
  destruct (underrun_full Size HSize r Hr) as [r' [v [E' H']]].
  exists r, r', v. split; [exact E|].
  split; [now rewrite (holds_length Size HSize _ _ Hr)|]. split; [exact E'|].
  split; [rewrite (holds_length Size HSize _ _ H'), items_length; lia|].
  split.
  - intros w. destruct (holds_write Size HSize _ _ w H') as [r2 [E2 _]].
    rewrite E2. rewrite items_length, Z2Nat.id in * by lia.
    destruct (Z.ltb_spec (Size - 1) (Size - 1)); [lia|].
    unfold ring_write in E2.
    destruct (if rb_wr r' + 1 >=? Size then 0 =? rb_rd r' else rb_wr r' + 1 =? rb_rd r').
    + now injection E2 as <-.
    + destruct (inb (rb_wr r') Size); discriminate.
  - destruct (read_many (Z.to_nat (Size - 1)) _ _ H') as [r2 [vs [E2 L]]].
    + rewrite items_length. lia.
    + eauto.
Qed.

(** What an underrun hands out: the cells, the one written longest ago first. *)
Notation tape r := (items Size (rb_mem r) (rb_wr r) (Z.to_nat Size)).
Lemma read_any : forall n (r : ring T), 0 <= rb_rd r < Size ->
  exists r' vs, ring_run Size r (repeat RRead n) = Some (r', vs) /\ map fst vs = map ResRead (items Size (rb_mem r) (rb_rd r) n).
Proof.
  induction n as [|n IH]; intros r Hr; cbn [repeat ring_run items map].
  - exists r, []. split; reflexivity.
  - cbn [ring_call]. unfold ring_read. assert (inb (rb_rd r) Size = true) as -> by (apply inb_true; lia).
    assert (Er : (if rb_rd r + 1 >=? Size then 0 else rb_rd r + 1) = wrap Size (rb_rd r + 1)).
    { unfold wrap. destruct (Z.geb_spec (rb_rd r + 1) Size); lia. }
    rewrite Er. destruct (IH (mkRing (rb_mem r) (rb_wr r) (wrap Size (rb_rd r + 1)))) as (r' & vs & E & V).
    { cbn [rb_rd]. unfold wrap. destruct (Z.geb_spec (rb_rd r + 1) Size); lia. }
    rewrite E. eexists. eexists. split; [reflexivity|]. cbn [map fst rb_mem rb_rd] in *. rewrite V. reflexivity.
Qed.
Lemma tape_write : forall (r : ring T) q v (r' : ring T), holds Size r q -> ring_write Size r v = Some (r', true) -> tape r' = tl (tape r) ++ [v].
Proof.
  intros r q v r' [Hrd [Hq [Hw _]]] E. unfold ring_write in E.
  destruct (if rb_wr r + 1 >=? Size then 0 =? rb_rd r else rb_wr r + 1 =? rb_rd r); [discriminate|].
  assert (WR : 0 <= rb_wr r < Size) by (rewrite Hw; unfold wrap; destruct (Z.geb_spec (rb_rd r + Z.of_nat (length q)) Size); lia).
  assert (inb (rb_wr r) Size = true) as X by (apply inb_true; lia). rewrite X in E. injection E as <-. cbn [rb_mem rb_wr].
  assert (Er : (if rb_wr r + 1 >=? Size then 0 else rb_wr r + 1) = wrap Size (rb_wr r + 1)).
  { unfold wrap. destruct (Z.geb_spec (rb_wr r + 1) Size); lia. }
  rewrite Er. assert (W1 : 0 <= wrap Size (rb_wr r + 1) < Size) by (unfold wrap; destruct (Z.geb_spec (rb_wr r + 1) Size); lia).
  replace (Z.to_nat Size) with (S (Z.to_nat (Size - 1))) by lia. rewrite items_snoc by (try exact HSize; lia).
  cbn [items tl]. f_equal.
  - apply (items_ext Size HSize); [exact W1|lia|]. intros k Hk. apply upd_other. unfold wrap.
    destruct (Z.geb_spec (rb_wr r + 1) Size) as [G|G];
      match goal with |- context [?a >=? Size] => destruct (Z.geb_spec a Size) end; lia.
  - f_equal. assert (K : wrap Size (wrap Size (rb_wr r + 1) + Z.of_nat (Z.to_nat (Size - 1))) = rb_wr r).
    { unfold wrap. destruct (Z.geb_spec (rb_wr r + 1) Size) as [G|G];
      match goal with |- context [?a >=? Size] => destruct (Z.geb_spec a Size) end; lia. }
    rewrite K. apply upd_same.
Qed.
Lemma tape_run : forall ops (r : ring T) q q' outs, holds Size r q -> q_run (Size - 1) q ops = Some (q', outs) -> Forall (fun o => o <> RClear) ops ->
  exists r' : ring T, ring_run Size r ops = Some (r', outs) /\ holds Size r' q' /\
    tape r' = skipn (length (stored ops outs)) (tape r ++ stored ops outs).
Proof.
  induction ops as [|o ops IH]; intros r q q' outs H E N; cbn [q_run ring_run] in *.
  - injection E as <- <-. exists r. cbn [stored length skipn]. rewrite app_nil_r. auto.
  - inversion N as [|? ? N1 N2]; subst.
    destruct (q_call (Size - 1) q o) as [[q1 x]|] eqn:C; [|discriminate].
    destruct (q_run (Size - 1) q1 ops) as [[q2 xs]|] eqn:R; [|discriminate]. injection E as <- <-.
    destruct (ring_call_refines Size HSize r q o q1 x H C) as (r1 & E1 & H1). rewrite E1.
    destruct (IH r1 q1 q2 xs H1 R N2) as (r2 & E2 & H2 & T2). rewrite E2, (holds_length Size HSize _ _ H1).
    exists r2. split; [reflexivity|]. split; [exact H2|]. rewrite T2. clear IH E2 H2 T2 R N2 N.
    destruct o as [v| |]; [|
      cbn [ring_call] in E1; destruct (ring_read Size r) as [[r3 y]|] eqn:RR; [|discriminate]; injection E1 as <- <-; cbn [stored];
      unfold ring_read in RR; destruct (inb (rb_rd r) Size); [|discriminate]; injection RR as <- <-; reflexivity
      |congruence].
    cbn [ring_call] in E1. destruct (ring_write Size r v) as [[r3 b]|] eqn:W; [|discriminate]. injection E1 as <- <-.
    destruct b; cbn [stored].
    + rewrite (tape_write r q v r3 H W). cbn [length].
      assert (TL : exists c t, tape r = c :: t).
      { replace (Z.to_nat Size) with (S (Z.to_nat (Size - 1))) by lia. cbn [items]. eauto. }
      destruct TL as (c & t & TL). rewrite TL. cbn [tl app skipn]. rewrite <- app_assoc. reflexivity.
    + unfold ring_write in W. destruct (if rb_wr r + 1 >=? Size then 0 =? rb_rd r else rb_wr r + 1 =? rb_rd r).
      * injection W as <-. reflexivity.
      * destruct (inb (rb_wr r) Size); discriminate.
Qed.
Lemma items_cells : forall (m : Z -> T) n i, 0 <= i -> i + Z.of_nat n <= Size -> items Size m i n = map (fun k => m (Z.of_nat k)) (seq (Z.to_nat i) n).
Proof.
  intros m. induction n as [|n IH]; intros i Hi Hn; cbn [items seq map]; [reflexivity|].
  rewrite Z2Nat.id by lia. f_equal. destruct n as [|n]; [reflexivity|].
  assert (wrap Size (i + 1) = i + 1) as -> by (unfold wrap; destruct (Z.geb_spec (i + 1) Size); lia).
  rewrite IH by lia. replace (Z.to_nat (i + 1)) with (S (Z.to_nat i)) by lia. reflexivity.
Qed.
Lemma ring_stale_l : forall (r0 : ring T) ops outs, Forall (fun o => o <> RClear) ops ->
  q_run (Size - 1) [] ops = Some ([], outs) ->
  exists r r' vs, ring_run Size (ring_clear r0) ops = Some (r, outs) /\
    ring_run Size r (repeat RRead (Z.to_nat Size)) = Some (r', vs) /\
    map fst vs = map ResRead (skipn (length (stored ops outs)) (cells_of Size (rb_mem r0) ++ stored ops outs)).
Proof.
  intros r0 ops outs N H.
  destruct (tape_run ops (ring_clear r0) [] [] outs (holds_clear Size HSize r0) H N) as (r & E & Hr & T1).
  pose proof Hr as [Hrd [_ [Hw _]]]. cbn [length] in Hw.
  assert (RW : rb_wr r = rb_rd r) by (rewrite Hw; unfold wrap; destruct (Z.geb_spec (rb_rd r + Z.of_nat 0) Size); lia).
  destruct (read_any (Z.to_nat Size) r Hrd) as (r' & vs & E' & V). exists r, r', vs.
  split; [exact E|]. split; [exact E'|]. rewrite V, <- RW, T1. unfold ring_clear. cbn [rb_mem rb_wr].
  rewrite items_cells by lia. reflexivity.
Qed.

Lemma bis_stream_l : forall (toZ : T -> Z) (r0 : ring T) ops,
  (forall v, 0 <= toZ v < 256) ->
  exists r, bis_run Size toZ (ring_clear r0) ops = Some (r, snd (stream_run (Size - 1) toZ [] ops)).
Proof.
  intros toZ r0 ops HZ.
  destruct (bis_run_refines Size HSize toZ) with (ops := ops) (r := ring_clear r0) (q := @nil T)
    as [r [E _]].
  - intros v. specialize (HZ v). lia.
  - apply holds_clear; exact HSize.
  - eauto.
Qed.
End Final.

Lemma ring_read_empty_l :
  exists (Size : Z) (r r' : ring Z) v,
    ring_length Size r = 0 /\ ring_read Size r = Some (r', v) /\ ring_length Size r' <> 0.
Proof.
  exists 4, (ring_clear (mkRing (fun _ => 7) 0 0)), (mkRing (fun _ => 7) 0 1), 7.
  split; [reflexivity|]. split; [reflexivity|]. vm_compute. discriminate.
Qed.
