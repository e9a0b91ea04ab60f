Require Import ZArith List Bool Lia ZifyBool.
Import ListNotations.
From Verif Require Import Base BaseFacts ArrayModel ArraySpec ArrayProofs ShareModel ShareSpec.
Open Scope Z_scope.
Local Ltac Zify.zify_post_hook ::= idtac.

Section S.
Context {T : Type}.
Variables (dflt zero : T) (N : Z) (vw : nat -> view).
Hypothesis HV : forall k, view_ok N (vw k).

(** Memory [m] holds list [L k] at each array's start. *)
Definition holds_all (m : Z -> T) (L : nat -> list T) : Prop := forall k, L k = cells m (v_off (vw k)) (length (L k)).
Definition share_rel (s : share T) (L : nat -> list T) : Prop :=
  holds_all (h_mem s) L /\ forall k, h_count s k = Z.of_nat (length (L k)) /\ Z.of_nat (length (L k)) <= v_cap (vw k).

Lemma write_len : forall (L : nat -> list T) a v k, length (l_write vw L a v k) = length (L k).
Proof. intros L a v k. unfold l_write. destruct (a <? v_off (vw k)); [reflexivity|apply set_nth_length]. Qed.
Lemma write_holds : forall m (L : nat -> list T) a v, holds_all m L -> holds_all (upd m a v) (l_write vw L a v).
Proof.
  intros m L a v H k. rewrite write_len. unfold l_write. destruct (Z.ltb_spec a (v_off (vw k))).
  - rewrite (H k) at 1. apply cells_ext. intros q Hq. rewrite upd_other; [reflexivity|lia].
  - rewrite (H k) at 1. rewrite (set_nth_cells (fun _ _ => true)). f_equal. f_equal. lia.
Qed.
Lemma set_ok : forall k (m : Z -> T) i v, h_set N vw k m i v = Some (if inb i (v_items (vw k)) then upd m (v_off (vw k) + i) v else m).
Proof.
  intros k m i v. destruct (HV k) as (A & B & C & D). unfold h_set, arr_valid. rewrite s16_small by lia.
  assert ((i >=? 0) && (i <? v_items (vw k)) = inb i (v_items (vw k))) as -> by (unfold inb; lia).
  destruct (inb i (v_items (vw k))) eqn:E; [|reflexivity]. apply inb_true in E. cbn [negb].
  assert (inb (v_off (vw k) + i) N = true) as -> by (apply inb_true; lia). reflexivity.
Qed.
Lemma wipe_ok : forall k n p m (L : nat -> list T), holds_all m L -> (p + n <= Z.to_nat (v_items (vw k)))%nat -> exists m', h_wipe zero N m (v_off (vw k) + Z.of_nat p) n = Some m' /\
  holds_all m' (fold_left (fun L i => l_write vw L (v_off (vw k) + i) zero) (map Z.of_nat (seq p n)) L).
Proof.
  intros k n. induction n as [|n IH]; intros p m L H Hp; cbn [h_wipe seq map fold_left]; [eauto|].
  destruct (HV k) as (A & B & C & D). assert (inb (v_off (vw k) + Z.of_nat p) N = true) as -> by (apply inb_true; lia).
  destruct (IH (S p) _ _ (write_holds _ _ (v_off (vw k) + Z.of_nat p) zero H) ltac:(lia)) as (m' & E & X).
  exists m'. split; [|exact X]. rewrite <- E. f_equal. lia.
Qed.
Lemma fold_len : forall k l (L : nat -> list T) j, length (fold_left (fun L i => l_write vw L (v_off (vw k) + i) zero) l L j) = length (L j).
Proof. intros k l. induction l as [|i l IH]; intros L j; cbn [fold_left]; [reflexivity|]. rewrite IH. apply write_len. Qed.

Lemma cells_snoc : forall (m : Z -> T) n i, cells m i (S n) = cells m i n ++ [m (i + Z.of_nat n)].
Proof.
  intros m n. induction n as [|n IH]; intros i; [cbn; do 2 f_equal; lia|]. change (cells m i (S (S n))) with (m i :: cells m (i + 1) (S n)).
  rewrite IH. cbn [cells app]. do 4 f_equal. lia.
Qed.
Lemma share_step_l : forall s (L : nat -> list T) o, share_rel s L -> exists s', h_step zero N vw s o = Some s' /\ share_rel s' (l_step zero vw L o).
Proof.
  intros s L o [H C]. destruct o as [k v|k i v|k|k i v|k]; cbn [h_step l_step].
  - destruct (C k) as [Ck Lk]. destruct (HV k) as (A & B & D & E). rewrite Ck. destruct (Z.ltb_spec (Z.of_nat (length (L k))) (v_cap (vw k))); [|eexists; split; [reflexivity|split; assumption]].
    rewrite s16_small by lia. rewrite set_ok. assert (inb (Z.of_nat (length (L k))) (v_items (vw k)) = true) as -> by (apply inb_true; lia).
    eexists. split; [reflexivity|]. split; cbn [h_mem h_count].
    + intros j. unfold l_put. destruct (Nat.eqb_spec j k) as [->|Nj].
      * rewrite app_length. cbn [length]. rewrite Nat.add_1_r, cells_snoc. rewrite upd_same. f_equal. rewrite (H k) at 1.
        apply cells_ext. intros q Hq. rewrite upd_other; [reflexivity|lia].
      * apply write_holds. exact H.
    + intros j. unfold l_put, set_count. destruct (Nat.eqb_spec j k) as [->|Nj].
      * rewrite app_length. cbn [length]. rewrite u16_small by lia. lia.
      * rewrite write_len. apply C.
  - destruct (C k) as [Ck Lk]. destruct (HV k) as (A & B & D & E). unfold h_valid. rewrite Ck.
    assert ((i >=? 0) && (i <? Z.of_nat (length (L k))) = (0 <=? i) && (i <? Z.of_nat (length (L k)))) as -> by lia.
    destruct ((0 <=? i) && (i <? Z.of_nat (length (L k)))) eqn:Ei; cbn [negb]; [|eexists; split; [reflexivity|split; assumption]].
    rewrite set_ok. assert (inb i (v_items (vw k)) = true) as -> by (apply inb_true; lia).
    eexists. split; [reflexivity|]. split; cbn [h_mem h_count]; [apply write_holds; exact H|]. intros j. rewrite write_len. apply C.
  - eexists. split; [reflexivity|]. split; cbn [h_mem h_count].
    + intros j. unfold l_put. destruct (Nat.eqb j k); [reflexivity|apply H].
    + intros j. unfold l_put, set_count. destruct (Nat.eqb_spec j k) as [->|Nj]; [|apply C]. destruct (HV k) as (A & B & D & E). cbn [length]. lia.
  - rewrite set_ok. eexists. split; [reflexivity|]. destruct (inb i (v_items (vw k))); split; cbn [h_mem h_count]; auto.
    + apply write_holds. exact H.
    + intros j. rewrite write_len. apply C.
  - destruct (wipe_ok k (Z.to_nat (v_items (vw k))) 0 (h_mem s) L H ltac:(lia)) as (m' & Em & X). rewrite Z.add_0_r in Em. rewrite Em.
    eexists. split; [reflexivity|]. split; cbn [h_mem h_count]; [exact X|]. intros j. unfold positions. rewrite fold_len. apply C.
Qed.
Lemma share_run_l : forall ops s (L : nat -> list T), share_rel s L -> exists s', h_run zero N vw s ops = Some s' /\ share_rel s' (l_run zero vw L ops).
Proof.
  intros ops. induction ops as [|o ops IH]; intros s L H; cbn [h_run]; [eexists; split; [reflexivity|exact H]|].
  destruct (share_step_l s L o H) as (s1 & E & H1). rewrite E. apply IH. exact H1.
Qed.
Lemma get_l : forall s (L : nat -> list T) k i, share_rel s L -> h_get dflt N vw s k i = Some (lookup dflt (L k) i).
Proof.
  intros s L k i [H C]. destruct (C k) as [Ck Lk]. destruct (HV k) as (A & B & D & E). unfold h_get, h_valid. rewrite Ck.
  unfold lookup. destruct (Z.ltb_spec i 0).
  - assert ((i >=? 0) && (i <? Z.of_nat (length (L k))) = false) as -> by lia. reflexivity.
  - destruct (Z.ltb_spec i (Z.of_nat (length (L k)))).
    + assert ((i >=? 0) && true = true) as -> by lia. unfold arr_valid. rewrite s16_small by lia.
      assert ((i >=? 0) && (i <? v_items (vw k)) = true) as -> by lia. cbn [negb].
      assert (inb (v_off (vw k) + i) N = true) as -> by (apply inb_true; lia). rewrite (H k), (nth_cells (fun _ _ => true)) by lia. do 2 f_equal. lia.
    + rewrite andb_false_r. cbn [negb]. rewrite nth_overflow by lia. reflexivity.
Qed.
Lemma new_l : forall m, share_rel (h_new m) (fun _ => []).
Proof. intros m. split; [intros k; reflexivity|]. intros k. destruct (HV k) as (A & B & D & E). cbn [h_new h_count length]. lia. Qed.
Lemma share_lists_l : forall m ops, exists s, h_run zero N vw (h_new m) ops = Some s /\
  forall k, h_count s k = Z.of_nat (length (l_run zero vw (fun _ => []) ops k)) /\ h_count s k <= v_cap (vw k) /\
  forall i, h_get dflt N vw s k i = Some (lookup dflt (l_run zero vw (fun _ => []) ops k) i).
Proof.
  intros m ops. destruct (share_run_l ops (h_new m) (fun _ => []) (new_l m)) as (s & E & X). exists s. split; [exact E|].
  intros k. pose proof X as [_ C]. destruct (C k) as [Ck Lk]. split; [exact Ck|]. split; [lia|]. intros i. apply get_l. exact X.
Qed.

(** ** Arrays apart *)
Lemma set_nth_far : forall (l : list T) i v, (length l <= i)%nat -> set_nth l i v = l.
Proof. intros. apply (set_nth_beyond (fun _ _ => true)). assumption. Qed.
Definition fits (L : nat -> list T) : Prop := forall k, Z.of_nat (length (L k)) <= v_cap (vw k).
Lemma write_apart : forall (L : nat -> list T) j i v k, apart vw -> fits L -> 0 <= i < v_items (vw j) -> j <> k -> l_write vw L (v_off (vw j) + i) v k = L k.
Proof.
  intros L j i v k A F Hi Nk. unfold l_write. destruct (Z.ltb_spec (v_off (vw j) + i) (v_off (vw k))); [reflexivity|].
  apply set_nth_far. pose proof (F k). destruct (HV k) as (_ & _ & D & _). destruct (A j k Nk); lia.
Qed.
Lemma write_own : forall (L : nat -> list T) k i v, 0 <= i -> l_write vw L (v_off (vw k) + i) v k = set_nth (L k) (Z.to_nat i) v.
Proof. intros L k i v Hi. unfold l_write. destruct (Z.ltb_spec (v_off (vw k) + i) (v_off (vw k))); [lia|]. do 2 f_equal. lia. Qed.
Lemma write_fits : forall (L : nat -> list T) a v, fits L -> fits (l_write vw L a v).
Proof. intros L a v F k. rewrite write_len. apply F. Qed.
Lemma fold_apart : forall j k l (L : nat -> list T), apart vw -> fits L -> (forall i, In i l -> 0 <= i < v_items (vw j)) -> j <> k ->
  fold_left (fun L i => l_write vw L (v_off (vw j) + i) zero) l L k = L k.
Proof.
  intros j k l. induction l as [|i l IH]; intros L A F Hl Nk; cbn [fold_left]; [reflexivity|].
  rewrite IH; [|exact A|apply write_fits; exact F|intros q Hq; apply Hl; right; exact Hq|exact Nk]. apply write_apart; auto. apply Hl. left. reflexivity.
Qed.
Lemma fold_own : forall k l (L : nat -> list T), (forall i, In i l -> 0 <= i) ->
  fold_left (fun L i => l_write vw L (v_off (vw k) + i) zero) l L k = list_run (v_cap (vw k)) (L k) (map (fun i => CSet i zero) l).
Proof.
  intros k l. induction l as [|i l IH]; intros L Hl; [reflexivity|]. cbn [fold_left map]. rewrite IH by (intros q Hq; apply Hl; right; exact Hq).
  unfold list_run. cbn [fold_left list_step]. f_equal. assert (0 <= i) by (apply Hl; left; reflexivity). destruct (Z.ltb_spec i 0); [lia|]. apply write_own. lia.
Qed.
Lemma in_positions : forall w i, In i (positions w) -> 0 <= i < v_items w.
Proof. intros w i H. unfold positions in H. apply in_map_iff in H. destruct H as (n & <- & Hn). apply in_seq in Hn. lia. Qed.
Lemma step_apart : forall (L : nat -> list T) o k, apart vw -> fits L -> l_step zero vw L o k = list_run (v_cap (vw k)) (L k) (own zero vw k o) /\ fits (l_step zero vw L o).
Proof.
  intros L o k A F. split.
  - destruct o as [j v|j i v|j|j i v|j]; cbn [l_step own]; destruct (Nat.eqb_spec j k) as [->|Nj]; unfold list_run; cbn [fold_left list_step].
    + destruct (Z.of_nat (length (L k)) <? v_cap (vw k)); [|reflexivity]. unfold l_put. rewrite Nat.eqb_refl. reflexivity.
    + destruct (Z.ltb_spec (Z.of_nat (length (L j))) (v_cap (vw j))); [|reflexivity]. unfold l_put. destruct (Nat.eqb_spec k j); [congruence|].
      destruct (HV j) as (_ & _ & D & _). apply write_apart; auto. lia.
    + destruct (Z.ltb_spec i 0).
      * assert ((0 <=? i) && (i <? Z.of_nat (length (L k))) = false) as -> by lia. reflexivity.
      * destruct (Z.ltb_spec i (Z.of_nat (length (L k)))); [assert ((0 <=? i) && true = true) as -> by lia; apply write_own; lia|].
        rewrite andb_false_r. rewrite set_nth_far by lia. reflexivity.
    + destruct ((0 <=? i) && (i <? Z.of_nat (length (L j)))) eqn:E; [|reflexivity]. pose proof (F j). destruct (HV j) as (_ & _ & D & _). apply write_apart; auto. lia.
    + unfold l_put. rewrite Nat.eqb_refl. reflexivity.
    + unfold l_put. destruct (Nat.eqb_spec k j); [congruence|reflexivity].
    + destruct (inb i (v_items (vw k))) eqn:E.
      * apply inb_true in E. destruct (Z.ltb_spec i 0); [lia|]. apply write_own. lia.
      * apply inb_false in E. destruct (Z.ltb_spec i 0); [reflexivity|]. rewrite set_nth_far; [reflexivity|]. pose proof (F k). destruct (HV k) as (_ & _ & D & _). lia.
    + destruct (inb i (v_items (vw j))) eqn:E; [|reflexivity]. apply inb_true in E. apply write_apart; auto.
    + apply fold_own. intros i Hi. apply in_positions in Hi. lia.
    + apply fold_apart; auto. apply in_positions.
  - intros q. destruct o as [j v|j i v|j|j i v|j]; cbn [l_step].
    + destruct (Z.ltb_spec (Z.of_nat (length (L j))) (v_cap (vw j))); [|apply F]. unfold l_put. destruct (Nat.eqb_spec q j) as [->|]; [|rewrite write_len; apply F]. rewrite app_length. cbn [length]. lia.
    + destruct ((0 <=? i) && _); [rewrite write_len|]; apply F.
    + unfold l_put. destruct (Nat.eqb_spec q j) as [->|]; [|apply F]. destruct (HV j) as (_ & _ & D & _). cbn [length]. lia.
    + destruct (inb i (v_items (vw j))); [rewrite write_len|]; apply F.
    + rewrite fold_len. apply F.
Qed.
Lemma run_apart : forall ops (L : nat -> list T) k, apart vw -> fits L -> l_run zero vw L ops k = list_run (v_cap (vw k)) (L k) (flat_map (own zero vw k) ops).
Proof.
  intros ops. induction ops as [|o ops IH]; intros L k A F; [reflexivity|]. destruct (step_apart L o k A F) as [E F']. unfold l_run. cbn [fold_left flat_map].
  change (l_run zero vw (l_step zero vw L o) ops k = list_run (v_cap (vw k)) (L k) (own zero vw k o ++ flat_map (own zero vw k) ops)).
  rewrite IH by assumption. rewrite E. unfold list_run. rewrite fold_left_app. reflexivity.
Qed.
Lemma share_apart_l : forall m ops, apart vw -> exists s, h_run zero N vw (h_new m) ops = Some s /\
  forall k, let l := list_run (v_cap (vw k)) [] (flat_map (own zero vw k) ops) in
  h_count s k = Z.of_nat (length l) /\ forall i, h_get dflt N vw s k i = Some (lookup dflt l i).
Proof.
  intros m ops A. destruct (share_lists_l m ops) as (s & E & X). exists s. split; [exact E|]. intros k. destruct (X k) as (X1 & _ & X2). cbv zeta.
  rewrite <- (run_apart ops (fun _ => []) k A). { split; assumption. }
  intros q. destruct (HV q) as (_ & _ & D & _). cbn [length]. lia.
Qed.

(** ** The number of items is nobody else's business *)
Lemma list_len : forall cap ops (l l' : list T), length l = length l' -> length (list_run cap l ops) = length (list_run cap l' ops).
Proof.
  intros cap ops. induction ops as [|o ops IH]; intros l l' H; [exact H|]. unfold list_run. cbn [fold_left]. apply IH. destruct o as [v|i v|]; cbn [list_step].
  - rewrite H. destruct (Z.of_nat (length l') <? cap); [|exact H]. rewrite !app_length, H. reflexivity.
  - destruct (i <? 0); [exact H|]. rewrite !set_nth_length. exact H.
  - reflexivity.
Qed.
Lemma sets_len : forall cap l (x : list T), length (list_run cap x (map (fun i => CSet i zero) l)) = length x.
Proof.
  intros cap l. induction l as [|i l IH]; intros x; [reflexivity|]. unfold list_run in *. cbn [map fold_left list_step]. rewrite IH. destruct (i <? 0); [reflexivity|apply set_nth_length].
Qed.
Lemma step_len : forall (L : nat -> list T) o k, length (l_step zero vw L o k) = length (list_run (v_cap (vw k)) (L k) (own zero vw k o)).
Proof.
  intros L o k. destruct o as [j v|j i v|j|j i v|j]; cbn [l_step own].
  - destruct (Nat.eqb_spec j k) as [->|Nj]; unfold list_run; cbn [fold_left list_step].
    + destruct (Z.of_nat (length (L k)) <? v_cap (vw k)); [|reflexivity]. unfold l_put. rewrite Nat.eqb_refl. reflexivity.
    + destruct (Z.of_nat (length (L j)) <? v_cap (vw j)); [|reflexivity]. unfold l_put. destruct (Nat.eqb_spec k j); [congruence|]. apply write_len.
  - transitivity (length (L k)); [destruct ((0 <=? i) && _); [apply write_len|reflexivity]|]. destruct (Nat.eqb j k); [|reflexivity].
    unfold list_run. cbn [fold_left list_step]. destruct (i <? 0); [reflexivity|]. symmetry. apply set_nth_length.
  - unfold l_put. rewrite Nat.eqb_sym. destruct (Nat.eqb j k); reflexivity.
  - transitivity (length (L k)); [destruct (inb i _); [apply write_len|reflexivity]|]. destruct (Nat.eqb j k); [|reflexivity].
    unfold list_run. cbn [fold_left list_step]. destruct (i <? 0); [reflexivity|]. symmetry. apply set_nth_length.
  - rewrite fold_len. destruct (Nat.eqb j k); [|reflexivity]. symmetry. apply sets_len.
Qed.
Lemma run_len : forall ops (L : nat -> list T) k, length (l_run zero vw L ops k) = length (list_run (v_cap (vw k)) (L k) (flat_map (own zero vw k) ops)).
Proof.
  intros ops. induction ops as [|o ops IH]; intros L k; [reflexivity|]. unfold l_run. cbn [fold_left flat_map].
  change (length (l_run zero vw (l_step zero vw L o) ops k) = length (list_run (v_cap (vw k)) (L k) (own zero vw k o ++ flat_map (own zero vw k) ops))).
  rewrite IH. unfold list_run at 2. rewrite fold_left_app. apply list_len. apply step_len.
Qed.
End S.

(** ** Strings *)
Lemma string_ok : forall n (k : nat), 0 <= n <= 32766 -> view_ok (n + 1) (string_view n).
Proof. intros n _ H. pose proof (u8_range n). unfold view_ok, string_view, fs_capacity. cbn [v_off v_items v_cap]. unfold u8 in *. pose proof (Z.mod_le n 256 ltac:(lia) ltac:(lia)). lia. Qed.
Lemma wipe_spec : forall N n (m : Z -> Z) i, 0 <= i -> i + Z.of_nat n <= N ->
  exists m', h_wipe 0 N m i n = Some m' /\ forall j, m' j = if (i <=? j) && (j <? i + Z.of_nat n) then 0 else m j.
Proof.
  intros N n. induction n as [|n IH]; intros m i Hi Hn; cbn [h_wipe].
  - exists m. split; [reflexivity|]. intros j. destruct ((i <=? j) && _) eqn:E; [lia|reflexivity].
  - assert (inb i N = true) as -> by (apply inb_true; lia). destruct (IH (upd m i 0) (i + 1) ltac:(lia) ltac:(lia)) as (m' & E & X). exists m'. split; [exact E|]. intros j. rewrite X.
    destruct (Z.eq_dec j i) as [->|Nj].
    + rewrite upd_same. destruct ((i + 1 <=? i) && _); destruct ((i <=? i) && (i <? i + Z.of_nat (S n))) eqn:Q; try reflexivity; exfalso; lia.
    + rewrite upd_other by lia. replace ((i <=? j) && (j <? i + Z.of_nat (S n))) with ((i + 1 <=? j) && (j <? i + 1 + Z.of_nat n)) by lia. reflexivity.
Qed.
Lemma adds_l : forall n cs s l, 0 <= n <= 32766 -> let vw := fun _ : nat => string_view n in
  h_count s 0%nat = Z.of_nat (length l) -> Z.of_nat (length l) <= fs_capacity n -> cells (h_mem s) 0 (length l) = l -> (forall j, Z.of_nat (length l) <= j <= n -> h_mem s j = 0) ->
  exists s', h_run 0 (n + 1) vw s (map (HAdd 0%nat) cs) = Some s' /\
    let l' := l ++ firstn (Z.to_nat (fs_capacity n) - length l) cs in
    cells (h_mem s') 0 (length l') = l' /\ Z.of_nat (length l') <= fs_capacity n /\ (forall j, Z.of_nat (length l') <= j <= n -> h_mem s' j = 0).
Proof.
  intros n cs. induction cs as [|c cs IH]; intros s l Hn vw Hc Hl Hm Hz; cbv zeta.
  - exists s. split; [reflexivity|]. rewrite firstn_nil, app_nil_r. auto.
  - assert (V : forall k, view_ok (n + 1) (vw k)) by (intros k; apply (string_ok n k Hn)). cbn [map h_run h_step]. rewrite Hc. change (v_cap (vw 0%nat)) with (fs_capacity n).
    destruct (V 0%nat) as (_ & _ & D & _). change (v_cap (vw 0%nat)) with (fs_capacity n) in D. change (v_items (vw 0%nat)) with (n + 1) in D.
    destruct (Z.ltb_spec (Z.of_nat (length l)) (fs_capacity n)) as [Hlt|Hge].
    + rewrite s16_small by lia. rewrite (set_ok _ _ V). change (v_items (vw 0%nat)) with (n + 1). assert (inb (Z.of_nat (length l)) (n + 1) = true) as -> by (apply inb_true; lia).
      change (v_off (vw 0%nat)) with 0. rewrite Z.add_0_l. cbn match.
      destruct (IH (mkShare (upd (h_mem s) (Z.of_nat (length l)) c) (set_count (h_count s) 0 (u16 (Z.of_nat (length l) + 1)))) (l ++ [c]) Hn) as (s' & E & X).
      * cbn [h_count]. unfold set_count. rewrite Nat.eqb_refl, app_length. cbn [length]. rewrite u16_small by lia. lia.
      * rewrite app_length. cbn [length]. lia.
      * cbn [h_mem]. rewrite app_length. cbn [length]. rewrite Nat.add_1_r, cells_snoc, Z.add_0_l, upd_same. f_equal. transitivity (cells (h_mem s) 0 (length l)); [|exact Hm]. apply cells_ext. intros q Hq. rewrite upd_other; [reflexivity|lia].
      * cbn [h_mem]. intros j. rewrite app_length. cbn [length]. intros Hj. rewrite upd_other by lia. apply Hz. lia.
      * exists s'. split; [exact E|]. cbv zeta in X. replace (length (l ++ [c])) with (length l + 1)%nat in X by (rewrite app_length; reflexivity).
        replace (l ++ firstn (Z.to_nat (fs_capacity n) - length l) (c :: cs)) with ((l ++ [c]) ++ firstn (Z.to_nat (fs_capacity n) - (length l + 1)) cs); [exact X|].
        rewrite <- app_assoc. f_equal. replace (Z.to_nat (fs_capacity n) - length l)%nat with (S (Z.to_nat (fs_capacity n) - (length l + 1))) by lia. reflexivity.
    + destruct (IH s l Hn Hc Hl Hm Hz) as (s' & E & X). exists s'. split; [exact E|]. cbv zeta in X.
      replace (Z.to_nat (fs_capacity n) - length l)%nat with 0%nat in * by lia. exact X.
Qed.
Lemma c_string_cells : forall l b i k, Forall (fun c => c <> 0) l -> cells b i (length l) = l -> b (i + Z.of_nat (length l)) = 0 -> (length l < k)%nat -> c_string b i k = Some l.
Proof.
  intros l. induction l as [|c l IH]; intros b i k F H Z0 Hk; (destruct k as [|k]; [cbn [length] in Hk; lia|]); cbn [c_string].
  - cbn [length] in Z0. rewrite Z.add_0_r in Z0. rewrite Z0. reflexivity.
  - cbn [length cells] in H. inversion H as [[H1 H2]]. inversion F as [|? ? Hc Hf]; subst. rewrite !H2 in *. cbn [length] in Hk, Z0.
    destruct (Z.eqb_spec (b i) 0); [congruence|]. rewrite (IH b (i + 1) k Hf H2); [reflexivity| |lia]. rewrite <- Z0. f_equal. lia.
Qed.
Lemma share_string_l : forall n m ops cs, 0 <= n <= 32766 -> Forall (fun c => c <> 0) cs ->
  exists s, h_run 0 (n + 1) (fun _ => string_view n) (h_new m) (ops ++ HClear 0%nat :: HReset 0%nat :: map (HAdd 0%nat) cs) = Some s /\
  c_string (h_mem s) 0 (S (Z.to_nat n)) = Some (firstn (Z.to_nat (fs_capacity n)) cs).
Proof.
  intros n m ops cs Hn F. set (vw := fun _ : nat => string_view n). assert (V : forall k, view_ok (n + 1) (vw k)) by (intros k; apply (string_ok n k Hn)).
  assert (R : forall a s, h_run 0 (n + 1) vw s (ops ++ a) = match h_run 0 (n + 1) vw s ops with Some s' => h_run 0 (n + 1) vw s' a | None => None end).
  { clear. intros a. induction ops as [|o ops IH]; intros s; cbn [app h_run]; [reflexivity|]. destruct (h_step 0 (n + 1) vw s o); [apply IH|reflexivity]. }
  rewrite R. destruct (share_run_l 0 (n + 1) vw V ops (h_new m) (fun _ => []) (new_l (n + 1) vw V m)) as (s1 & E1 & _). rewrite E1. cbn [h_run h_step].
  change (v_off (vw 0%nat)) with 0. change (v_items (vw 0%nat)) with (n + 1).
  destruct (wipe_spec (n + 1) (Z.to_nat (n + 1)) (h_mem s1) 0 ltac:(lia) ltac:(lia)) as (m' & Em & Xm). rewrite Em. cbn [with_mem h_mem h_count].
  destruct (adds_l n cs (mkShare m' (set_count (h_count s1) 0 0)) [] Hn) as (s' & E & X).
  - reflexivity.
  - cbn [length]. unfold fs_capacity. pose proof (u8_range n). lia.
  - reflexivity.
  - cbn [length h_mem]. intros j Hj. rewrite Xm. destruct ((0 <=? j) && (j <? 0 + Z.of_nat (Z.to_nat (n + 1)))) eqn:Q; [reflexivity|lia].
  - exists s'. split; [exact E|]. cbv zeta in X. cbn [app length] in X. rewrite Nat.sub_0_r in X. destruct X as (X1 & X2 & X3). 
    destruct (V 0%nat) as (_ & _ & D & _). change (v_cap (vw 0%nat)) with (fs_capacity n) in D. change (v_items (vw 0%nat)) with (n + 1) in D.
    assert (fs_capacity n <= n) by (unfold fs_capacity, u8; apply Z.mod_le; lia).
    apply c_string_cells; [|exact X1|apply X3; lia|lia]. apply Forall_forall. intros x Hx. rewrite Forall_forall in F. apply F. rewrite <- (firstn_skipn (Z.to_nat (fs_capacity n)) cs). apply in_or_app. left. exact Hx.
Qed.
