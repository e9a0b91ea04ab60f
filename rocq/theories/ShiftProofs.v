Require Import ZArith List Bool Lia ZifyBool.
Import ListNotations.
From Verif Require Import Base BaseFacts BitModel BitSpec BitProofs ShiftModel ShiftSpec.
Open Scope Z_scope.

Lemma ba_true_ok : forall iw w b i, 1 <= w <= iw -> 0 <= b < 2 ^ w -> 0 <= i < w ->
  ba_true iw w b i = Some (Z.testbit b i).
Proof.
  intros iw w b i Hw Hb Hi. unfold ba_true, ba_valid. replace (i + 1 <=? w) with true by lia. cbn [negb].
  destruct (one_bits iw w i) as (s & E & Hs); [unfold mask_ok; lia|]. rewrite E.
  rewrite (land_one w b i s) by (auto; lia). pose proof (pow_pos i ltac:(lia)).
  destruct (Z.testbit b i); f_equal; lia.
Qed.
Lemma ba_true_far : forall iw w b i, w <= i -> ba_true iw w b i = Some false.
Proof. intros iw w b i H. unfold ba_true, ba_valid. replace (i + 1 <=? w) with false by lia. reflexivity. Qed.

Definition bit_events (v : bool) : list event := [(PData, v); (PClock, true); (PClock, false)].

Lemma rev_loop_ok : forall iw w b n i, 1 <= w <= iw -> 0 <= b < 2 ^ w -> 0 <= i -> i + Z.of_nat n <= w ->
  rev_loop iw w b i n = Some (flat_map bit_events (low_bits b i n)).
Proof.
  intros iw w b n. induction n as [|n IH]; intros i Hw Hb Hi H; [reflexivity|].
  cbn [rev_loop low_bits flat_map]. unfold shift_bit. rewrite ba_true_ok by lia. rewrite IH by lia. reflexivity.
Qed.

Lemma chip_run_app : forall a b c, chip_run c (a ++ b) = chip_run (chip_run c a) b.
Proof. intros a b c. apply fold_left_app. Qed.

Lemma firstn_app_len : forall A (l1 l2 : list A) n, 
  firstn (n + length l1) (l1 ++ l2) = l1 ++ firstn n l2.
Proof.
  intros A l1 l2 n. replace (n + length l1)%nat with (length l1 + n)%nat by lia. apply firstn_app_2.
Qed.

(** Shifting in [vs] from any state with the clock low. *)
Lemma shift_in : forall vs c, clock c = false ->
  let c' := chip_run c (flat_map bit_events vs) in
  clock c' = false /\ latch c' = latch c /\ outs c' = outs c /\
  reg c' = firstn (length (reg c)) (rev vs ++ reg c).
Proof.
  induction vs as [|v vs IH]; intros c H; cbv zeta.
  - cbn. repeat split; auto. symmetry. apply firstn_all.
  - cbn [flat_map]. rewrite chip_run_app. set (c1 := chip_run c (bit_events v)).
    assert (E : clock c1 = false /\ latch c1 = latch c /\ outs c1 = outs c /\
                reg c1 = firstn (length (reg c)) (v :: reg c)).
    { unfold c1, bit_events, chip_run. cbn. rewrite H. cbn. auto. }
    destruct E as (E1 & E2 & E3 & E4). destruct (IH c1 E1) as (A1 & A2 & A3 & A4).
    split; [exact A1|]. split; [now rewrite A2|]. split; [now rewrite A3|].
    rewrite A4, E4. rewrite firstn_length. cbn [length]. replace (Nat.min (length (reg c)) (S (length (reg c)))) with (length (reg c)) by lia.
    cbn [rev]. rewrite <- app_assoc. cbn [app].
    rewrite (firstn_app (length (reg c)) (rev vs) (firstn _ _)), (firstn_app (length (reg c)) (rev vs) (v :: reg c)).
    f_equal. rewrite firstn_firstn. f_equal. lia.
Qed.

Lemma write_reverse_l : forall iw w b c, 1 <= w <= iw -> 0 <= b < 2 ^ w ->
  clock c = false -> latch c = false -> (Z.to_nat w <= length (reg c))%nat ->
  exists es pre, write_reverse iw w b = Some es /\ es = pre ++ pulse PLatch /\
    Forall (fun e => fst e <> PLatch) pre /\
    clock (chip_run c es) = false /\ latch (chip_run c es) = false /\
    reg (chip_run c es) = outs (chip_run c es) /\
    outs (chip_run c es) = rev (low_bits b 0 (Z.to_nat w)) ++ firstn (length (reg c) - Z.to_nat w) (reg c).
Proof.
  intros iw w b c Hw Hb Hc Hl Hr. unfold write_reverse. rewrite rev_loop_ok by lia.
  eexists. exists (flat_map bit_events (low_bits b 0 (Z.to_nat w))). split; [reflexivity|]. split; [reflexivity|].
  assert (L : forall n i, length (low_bits b i n) = n) by (induction n; cbn; auto).
  split.
  { apply Forall_forall. intros e He. apply in_flat_map in He. destruct He as (v & _ & He). cbn in He.
    destruct He as [<-|[<-|[<-|[]]]]; discriminate. }
  rewrite chip_run_app. destruct (shift_in (low_bits b 0 (Z.to_nat w)) c Hc) as (A1 & A2 & A3 & A4).
  set (c1 := chip_run c _) in *. cbn. rewrite A1, A2, Hl. cbn.
  repeat split; auto. rewrite A4. rewrite firstn_app. rewrite rev_length, L.
  rewrite firstn_all2 by (rewrite rev_length, L; lia). reflexivity.
Qed.

(** Outputs never show a partly shifted value. *)
Lemma no_latch_outs : forall es c, Forall (fun e => fst e <> PLatch) es -> outs (chip_run c es) = outs c.
Proof.
  induction es as [|[p v] es IH]; intros c F; [reflexivity|]. inversion F; subst. cbn [chip_run fold_left].
  change (fold_left chip_step es (chip_step c (p, v))) with (chip_run (chip_step c (p, v)) es).
  rewrite IH by assumption. destruct p; [reflexivity|reflexivity|]. cbn in H1. congruence.
Qed.

Lemma fwd_loop_l : forall iw w b n i, 1 <= w <= iw -> w <= 255 -> 0 <= b < 2 ^ w -> 0 <= i < 256 ->
  exists es, fwd_loop iw w b i n = Some (es, false) /\ Forall (fun e => fst e <> PLatch) es.
Proof.
  intros iw w b n. induction n as [|n IH]; intros i Hw Hw2 Hb Hi; cbn [fwd_loop]; replace (i >=? 0) with true by lia.
  - eexists. split; [reflexivity|constructor].
  - assert (T : exists v, ba_true iw w b i = Some v).
    { destruct (Z.ltb_spec i w); [rewrite ba_true_ok by lia|rewrite ba_true_far by lia]; eauto. }
    destruct T as [v T]. unfold shift_bit. rewrite T.
    destruct (IH (u8 (i - 1)) Hw Hw2 Hb (u8_range _)) as (es & E & F). rewrite E.
    eexists. split; [reflexivity|]. repeat (constructor; [discriminate|]). exact F.
Qed.

Lemma write_forward_l : forall iw w b n c, 1 <= w <= iw -> w <= 255 -> 0 <= b < 2 ^ w ->
  exists es, write_forward iw w b n = Some (es, false) /\ outs (chip_run c es) = outs c.
Proof.
  intros iw w b n c Hw Hw2 Hb. destruct (fwd_loop_l iw w b n (u8 (w - 1)) Hw Hw2 Hb (u8_range _)) as (es & E & F).
  exists es. split; [exact E|]. now apply no_latch_outs.
Qed.
