(** Final forms of the array lemmas. *)
Require Import ZArith List Bool Lia ZifyBool.
Import ListNotations.
From Verif Require Import Base BaseFacts ArrayModel IteratorModel ArraySpec ArrayProofs.
Open Scope Z_scope.

Lemma array_total_l : forall (T : Type) (teq : T -> T -> bool) (dflt : T) n m,
  0 <= n <= 32767 ->
  let l := cells m 0 (Z.to_nat n) in
  (forall i, arr_get dflt n m i = Some (lookup dflt l i) /\
             (arr_valid n i = true <-> 0 <= i < n)) /\
  (forall x, exists p, arr_index_of teq n m x = Some p /\
     ((0 <= p < n /\ teq (m p) x = true /\ forall q, 0 <= q < p -> teq (m q) x = false) \/
      (p = -1 /\ forall q, 0 <= q < n -> teq (m q) x = false))).
Proof.
  intros T teq dflt n m Hn l. split.
  - intros i. apply (arr_get_small teq dflt n m i Hn).
  - intros x. eexists. split; [apply (arr_index_of_small teq dflt n m x Hn)|].
    pose proof (first_pos_spec teq dflt l x) as H. subst l.
    destruct (first_pos teq (cells m 0 (Z.to_nat n)) x) as [p|].
    + destruct H as [H1 [H2 H3]]. rewrite cells_length in H1. left. split; [lia|].
      rewrite (lookup_cells teq) in H2. assert (inb p n = true) as E by (apply inb_true; lia).
      rewrite E in H2. split; [exact H2|]. intros q Hq. specialize (H3 q Hq).
      rewrite (lookup_cells teq) in H3. assert (inb q n = true) as E2 by (apply inb_true; lia).
      now rewrite E2 in H3.
    + right. split; [reflexivity|]. intros q Hq. apply H.
      replace (m q) with (nth (Z.to_nat q) (cells m 0 (Z.to_nat n)) dflt).
      * apply nth_In. rewrite cells_length. lia.
      * rewrite (nth_cells teq) by lia. f_equal. lia.
Qed.

Lemma array_large_l : forall (T : Type) (teq : T -> T -> bool) (dflt : T) n m i x,
  32768 <= n <= 65535 ->
  arr_valid n i = false /\ arr_get dflt n m i = Some dflt /\ arr_index_of teq n m x = Some (-1).
Proof.
  intros T teq dflt n m i x H. destruct (arr_get_large teq dflt n m i H) as [H1 H2].
  split; [exact H2|]. split; [exact H1|]. now apply (arr_index_of_large teq dflt).
Qed.

Lemma fixed_array_last_write_l : forall (T : Type) n ops (s : arrays T),
  0 <= n <= 32767 ->
  exists s', arr_steps n s ops = Some s' /\
    forall a i, a_mem s' a i = last_write n a i ops (a_mem s a i) /\
      (0 <= i < n -> forall dflt, arr_get dflt n (a_mem s' a) i = Some (a_mem s' a i)) /\
      arr_index_read n s' a i = Some (if inb i n then a_mem s' a i else last_out n ops (a_dummy s)).
Proof.
  intros T n ops s Hn. destruct (arr_steps_last (fun _ _ => true) (a_dummy s) n ops s Hn) as (s' & E & A & D).
  exists s'. split; [exact E|]. intros a i. split; [apply A|].
  assert (V : arr_valid n i = inb i n).
  { apply eq_true_iff_eq. rewrite inb_true. exact (proj2 (arr_get_small (fun _ _ => true) (a_dummy s) n (a_mem s a) i Hn)). }
  split.
  - intros Hi dflt. unfold arr_get. rewrite V. assert (inb i n = true) as -> by (apply inb_true; lia). reflexivity.
  - unfold arr_index_read. rewrite V, <- D. destruct (inb i n); reflexivity.
Qed.

Lemma operator_index_l :
  exists s s', arr_steps 3 s [OpIndexAssign 0%nat 7 42] = Some s' /\
    arr_index_read 3 s' 1%nat (-1) = Some 42.
Proof. exists (mkArrays (fun _ _ => 0) 0). eexists. split; [reflexivity|]. reflexivity. Qed.

Lemma clear_bytes_l : forall n b i, 0 <= i < n -> fix_clear n b i = 0.
Proof.
  intros n b i H. rewrite fix_clear_spec by lia.
  assert (inb i n = true) as -> by (apply inb_true; lia). reflexivity.
Qed.

Lemma clear_all_refuted_l :
  exists n s k b, 0 <= k < n /\ 1 < s /\
    cells (fix_clear n b) (k * s) (Z.to_nat s) <> repeat 0 (Z.to_nat s).
Proof. exists 4, 2, 2, (fun _ => 17). split; [lia|]. split; [lia|]. vm_compute. discriminate. Qed.

Lemma fixed_string_setat_l :
  exists b', fs_run 3 (fs_new 3 (fun _ => 7)) [FsCopy [65; 66; 67]; FsSet 3 68] = Some b' /\
    c_string b' 0 4 = None.
Proof. eexists. split; [reflexivity|]. vm_compute. reflexivity. Qed.

Lemma fs_capacity_l : forall n, 0 <= n <= 65535 -> (fs_capacity n = n <-> n <= 255).
Proof.
  intros n Hn. unfold fs_capacity, u8. split; intros H.
  - pose proof (Z.mod_pos_bound n 256). lia.
  - apply Z.mod_small. lia.
Qed.

Lemma coll_init_rel : forall T n (m : Z -> T), 0 <= n -> coll_rel n (mkColl m 0) [].
Proof. intros T n m Hn. unfold coll_rel. cbn. repeat split; lia. Qed.

Lemma collection_list_l : forall (T : Type) (dflt : T) n m ops, 0 <= n <= 32767 ->
  let l := list_run n [] ops in
  exists c, coll_run n (mkColl m 0) ops = Some c /\
    c_count c = Z.of_nat (length l) /\ Z.of_nat (length l) <= n /\
    forall i, coll_get dflt n c i = Some (lookup dflt l i).
Proof.
  intros T dflt n m ops Hn l.
  destruct (coll_run_refines (fun _ _ => true) dflt n ops _ _ Hn (coll_init_rel T n m (proj1 Hn)))
    as [c [E H]].
  exists c. split; [exact E|]. pose proof H as [H1 [H2 _]]. split; [exact H1|]. split; [exact H2|].
  intros i. now apply (coll_get_rel (fun _ _ => true) dflt n c).
Qed.

Lemma collection_index_l : forall (T : Type) (teq : T -> T -> bool) (dflt : T) n m ops x,
  0 <= n <= 32767 ->
  exists c, coll_run n (mkColl m 0) ops = Some c /\
    coll_index_of teq dflt n c x =
      Some (match first_pos teq (list_run n [] ops) x with Some p => s8 p | None => -1 end) /\
    (forall p, first_pos teq (list_run n [] ops) x = Some p -> p < 128 ->
       coll_index_of teq dflt n c x = Some p) /\
    (forall p, first_pos teq (list_run n [] ops) x = Some p -> 128 <= p < 256 ->
       exists r, coll_index_of teq dflt n c x = Some r /\ r < 0).
Proof.
  intros T teq dflt n m ops x Hn.
  destruct (coll_run_refines teq dflt n ops _ _ Hn (coll_init_rel T n m (proj1 Hn))) as [c [E H]].
  exists c. split; [exact E|].
  pose proof (coll_index_rel teq dflt n c _ x Hn H) as HI.
  pose proof (first_pos_spec teq dflt (list_run n [] ops) x) as HF.
  split; [exact HI|]. split; intros p Ep Hp; rewrite Ep in HI, HF; destruct HF as [HF _].
  - rewrite HI. now rewrite s8_small by lia.
  - exists (s8 p). split; [exact HI|]. unfold s8. cbv zeta.
    rewrite Z.mod_small by lia. destruct (Z.ltb_spec p 128); lia.
Qed.

Lemma collection_index_refuted_l :
  exists c : coll Z, coll_run 300 (mkColl (fun _ => 0) 0) (map CAdd (map Z.of_nat (seq 0 300))) = Some c /\
    coll_get 0 300 c 255 = Some 255 /\ coll_index_of Z.eqb 0 300 c 255 = Some (-1).
Proof.
  destruct (collection_list_l Z 0 300 (fun _ => 0) (map CAdd (map Z.of_nat (seq 0 300)))) as [c [E [_ [_ H]]]];
    [lia|].
  destruct (collection_index_l Z Z.eqb 0 300 (fun _ => 0) (map CAdd (map Z.of_nat (seq 0 300))) 255)
    as [c' [E' [H' _]]]; [lia|].
  assert (c' = c) by congruence. subst c'. exists c. split; [exact E|]. split.
  - rewrite H. vm_compute. reflexivity.
  - rewrite H'. vm_compute. reflexivity.
Qed.

Lemma static_index_l : forall (T : Type) (teq : T -> T -> bool) (dflt : T) n m x fuel,
  0 <= n <= 255 -> (Z.to_nat n < fuel)%nat ->
  st_index_of teq dflt n m x fuel =
    Some (match first_pos teq (cells m 0 (Z.to_nat n)) x with
          | Some p => if p <? 128 then p else p - 256
          | None => -1 end).
Proof.
  intros T teq dflt n m x fuel Hn Hf. unfold st_index_of.
  rewrite (st_loop_first teq dflt n m x (Z.to_nat n) 0) by lia.
  pose proof (first_pos_spec teq dflt (cells m 0 (Z.to_nat n)) x) as H.
  destruct (first_pos teq (cells m 0 (Z.to_nat n)) x) as [p|]; [|reflexivity].
  destruct H as [H _]. rewrite cells_length in H. f_equal. unfold s8. cbv zeta.
  rewrite Z.mod_small by lia. rewrite Z.add_0_l. reflexivity.
Qed.

Lemma static_diverges_l : forall (T : Type) (teq : T -> T -> bool) (dflt : T) n m x,
  256 <= n -> (forall j, 0 <= j < 256 -> teq (m j) x = false) ->
  forall fuel, st_index_of teq dflt n m x fuel = None.
Proof. intros T teq dflt n m x Hn H fuel. apply st_loop_diverges; auto. lia. Qed.

Lemma move_to_l : forall (T : Type) (teq : T -> T -> bool) (dflt : T) n m x i, 0 <= n <= 32767 ->
  exists p, arr_index_of teq n m x = Some p /\
    ((exists j, it_move_to p i = (j, true) /\ 0 <= j < n /\ teq (m j) x = true /\ forall q, 0 <= q < j -> teq (m q) x = false) \/
     (it_move_to p i = (i, false) /\ forall q, 0 <= q < n -> teq (m q) x = false)).
Proof.
  intros T teq dflt n m x i Hn. destruct (array_total_l T teq dflt n m Hn) as [_ H]. destruct (H x) as [p [E C]].
  exists p. split; [exact E|]. unfold it_move_to. destruct C as [(Hp & Hx & Hq)|[-> Hq]].
  - left. exists p. destruct (Z.geb_spec p 0); [auto|lia].
  - right. split; [reflexivity|exact Hq].
Qed.

Lemma static_reads_l : forall (T : Type) (dflt : T) n m i,
  (0 <= i < n -> st_valid n i = true /\ st_get dflt n m i = m i) /\
  (i < 0 \/ n <= i -> st_valid n i = false /\ st_get dflt n m i = dflt).
Proof.
  intros T dflt n m i. unfold st_get. split; intros H.
  - replace (st_valid n i) with true by (unfold st_valid; lia). split; reflexivity.
  - replace (st_valid n i) with false by (unfold st_valid; lia). split; reflexivity.
Qed.

Lemma strncpy_nth : forall n b i s j, i <= j < i + Z.of_nat n -> strncpy b i s n j = nth (Z.to_nat (j - i)) s 0.
Proof.
  induction n as [|n IH]; intros b i s j H; [lia|]. cbn [strncpy].
  destruct (Z.eq_dec j i) as [->|N].
  - replace (Z.to_nat (i - i)) with 0%nat by lia. destruct s as [|c s]; rewrite strncpy_frame by lia; rewrite upd_same; reflexivity.
  - replace (Z.to_nat (j - i)) with (S (Z.to_nat (j - (i + 1)))) by lia. destruct s as [|c s]; rewrite IH by lia; [|reflexivity].
    destruct (Z.to_nat (j - (i + 1))); reflexivity.
Qed.
Lemma fs_bytes_run : forall n ops b, 0 <= n <= 32766 -> exists b', fs_run n b ops = Some b' /\ forall j, b' j = fs_byte n j ops (b j).
Proof.
  intros n ops. induction ops as [|o ops IH]; intros b Hn; cbn [fs_run fs_byte]; [exists b; auto|].
  destruct o as [s| |i c]; cbn [fs_step].
  - destruct (IH (strncpy b 0 s (Z.to_nat n)) Hn) as [b' [E H]]. exists b'. split; [exact E|]. intros j. rewrite H. f_equal.
    destruct ((0 <=? j) && (j <? n)) eqn:J; [rewrite strncpy_nth by lia; f_equal; lia|]. apply strncpy_frame. lia.
  - destruct (IH (fix_clear (n + 1) b) Hn) as [b' [E H]]. exists b'. split; [exact E|]. intros j. rewrite H. f_equal.
    unfold fix_clear. rewrite memset0_spec. replace (0 + Z.of_nat (Z.to_nat (n + 1))) with (n + 1) by lia.
    destruct (Z.leb_spec 0 j), (Z.ltb_spec j (n + 1)), (Z.leb_spec j n); cbn [andb]; (reflexivity || lia).
  - rewrite (fix_set_small Z.eqb 0) by lia.
    destruct (IH (if inb i (n + 1) then upd b i c else b) Hn) as [b' [E H]]. exists b'. split; [exact E|]. intros j. rewrite H. f_equal.
    unfold inb, upd. destruct (Z.eqb_spec i j) as [->|N].
    + destruct (Z.leb_spec 0 j), (Z.ltb_spec j (n + 1)), (Z.leb_spec j n); cbn [andb]; rewrite ?Z.eqb_refl; (reflexivity || lia).
    + cbn [andb]. destruct ((0 <=? i) && (i <? n + 1)); [|reflexivity]. destruct (Z.eqb_spec j i); [congruence|reflexivity].
Qed.
Lemma fs_bytes_l : forall n b ops, 0 <= n <= 32766 ->
  exists b', fs_run n (fs_new n b) ops = Some b' /\ forall j, b' j = fs_byte n j ops (if (0 <=? j) && (j <=? n) then 0 else b j).
Proof.
  intros n b ops Hn. destruct (fs_bytes_run n ops (fs_new n b) Hn) as [b' [E H]]. exists b'. split; [exact E|]. intros j. rewrite H. f_equal.
  unfold fs_new, fix_clear. rewrite memset0_spec. replace (0 + Z.of_nat (Z.to_nat (n + 1))) with (n + 1) by lia.
  destruct (Z.leb_spec 0 j), (Z.ltb_spec j (n + 1)), (Z.leb_spec j n); cbn [andb]; (reflexivity || lia).
Qed.
Lemma fs_cap_l : forall n, 0 <= n <= 65535 -> fs_capacity n = n mod 256 /\ (fs_capacity n = n <-> n <= 255).
Proof. intros n H. split; [reflexivity|]. now apply fs_capacity_l. Qed.
