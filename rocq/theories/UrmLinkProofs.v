(** Proofs for the distance sensor over serial ports. *)
Require Import ZArith List Bool Lia ZifyBool.
Import ListNotations.
From Verif Require Import Base BaseFacts ArduinoModel UrmModel UrmSpec UrmProofs UrmLinkModel UrmLinkSpec.
Open Scope Z_scope.
Ltac Zify.zify_post_hook ::= idtac.

Definition with_in (s : serial) (q : list Z) : serial := mkSerial q (s_out s) (s_lost s).
Lemma port_read_l : forall s b q, s_in s = b :: q -> byte b -> port_read s = (with_in s q, b).
Proof.
  intros s b q E B. unfold port_read, read. rewrite E. unfold byte in B.
  assert (S0 : s16 b = b) by (apply s16_small; lia). rewrite S0. rewrite u8_small by lia. reflexivity.
Qed.
(** Over the port the driver does what it does on the bytes waiting. *)
Lemma port_receive_l : forall s, Forall byte (s_in s) -> Z.of_nat (length (s_in s)) < 65536 ->
  port_receive s = let '(q, res, data) := UrmModel.receive (s_in s) in (with_in s q, res, data).
Proof.
  intros s F L. unfold port_receive, available. rewrite u16_small by lia.
  destruct s as [q out lost]. cbn [s_in] in *.
  destruct q as [|c [|d1 [|d2 [|sum q]]]]; try reflexivity.
  destruct (Z.gtb_spec (Z.of_nat (length (c :: d1 :: d2 :: sum :: q))) 3) as [G|G]; [|cbn [length] in G; lia].
  inversion F as [|? ? F1 G1]; subst. inversion G1 as [|? ? F2 G2]; subst. inversion G2 as [|? ? F3 G3]; subst. inversion G3 as [|? ? F4 G4]; subst.
  rewrite (port_read_l (mkSerial (c :: d1 :: d2 :: sum :: q) out lost) c (d1 :: d2 :: sum :: q) eq_refl F1). unfold with_in at 1. cbn [s_out s_lost].
  rewrite (port_read_l (mkSerial (d1 :: d2 :: sum :: q) out lost) d1 (d2 :: sum :: q) eq_refl F2). unfold with_in at 1. cbn [s_out s_lost].
  rewrite (port_read_l (mkSerial (d2 :: sum :: q) out lost) d2 (sum :: q) eq_refl F3). unfold with_in at 1. cbn [s_out s_lost].
  rewrite (port_read_l (mkSerial (sum :: q) out lost) sum q eq_refl F4). reflexivity.
Qed.
Lemma port_end_l : forall s, Forall byte (s_in s) -> Z.of_nat (length (s_in s)) < 65536 ->
  port_end_distance s = let '(q, res, d) := end_distance (s_in s) in (with_in s q, res, d).
Proof.
  intros s F L. unfold port_end_distance, end_distance. rewrite (port_receive_l s F L).
  destruct (UrmModel.receive (s_in s)) as [[q res] [[[c d1] d2]|]]; destruct res; try reflexivity.
  destruct ((c =? 34) && negb (d1 =? 255) && negb (d2 =? 255)); reflexivity.
Qed.

Section Link.
Variables (cap : nat) (t : Z * Z) (m : nat -> Z * Z).
Hypothesis Hcap : Z.of_nat cap < 65536.
Hypothesis Hm : forall n, byte (fst (m n)) /\ byte (snd (m n)).

Definition replies (a n : nat) : list Z := flat_map (fun i => reply (m i)) (seq a n).
Lemma replies_length : forall n a, length (replies a n) = (4 * n)%nat.
Proof. induction n as [|n IH]; intro a; [reflexivity|]. cbn [replies seq flat_map]. rewrite app_length. fold (replies (S a) n). rewrite IH. cbn [reply length]. lia. Qed.
Lemma replies_snoc : forall n a, replies a (S n) = replies a n ++ reply (m (a + n)).
Proof. intros n a. unfold replies. rewrite seq_S, flat_map_app. cbn [flat_map]. rewrite app_nil_r. reflexivity. Qed.
Lemma replies_bytes : forall n a, Forall byte (replies a n).
Proof.
  induction n as [|n IH]; intro a; [constructor|]. cbn [replies seq flat_map]. apply Forall_app. split; [|exact (IH (S a))].
  destruct (Hm a) as [A B]. assert (R : byte ((34 + fst (m a) + snd (m a)) mod 256)) by (apply Z.mod_pos_bound; lia).
  unfold reply. apply Forall_cons; [unfold byte; lia|]. apply Forall_cons; [exact A|]. apply Forall_cons; [exact B|]. apply Forall_cons; [exact R|constructor].
Qed.

(** The sensor finds a distance command in every frame. *)
Definition good_out (out : list Z) (n : nat) : Prop :=
  length out = (4 * n)%nat /\ forall i, (i < n)%nat -> exists k, 0 <= k < 256 /\ firstn 4 (skipn (4 * i) out) = [34; k; 0; (34 + k) mod 256].
Lemma good_snoc : forall out n k, good_out out n -> 0 <= k < 256 -> good_out (out ++ [34; k; 0; (34 + k) mod 256]) (S n).
Proof.
  intros out n k [L H] K. split; [rewrite app_length, L; cbn [length]; lia|]. intros i I.
  destruct (Nat.eq_dec i n) as [->|N].
  - exists k. split; [exact K|]. rewrite skipn_app, L, Nat.sub_diag, skipn_all2 by lia. reflexivity.
  - destruct (H i ltac:(lia)) as (k' & K' & E). exists k'. split; [exact K'|].
    rewrite skipn_app, firstn_app, E. replace (4 - length (skipn (4 * i) out))%nat with 0%nat by (rewrite skipn_length, L; lia).
    cbn [firstn]. apply app_nil_r.
Qed.
Lemma command_l : forall o, uop_ok o -> match o with
  | UBegin => exists k, 0 <= k < 256 /\ map u8 begin_distance = [34; k; 0; (34 + k) mod 256]
  | UBeginDeg deg => exists k, 0 <= k < 256 /\ map u8 (begin_distance_deg deg) = [34; k; 0; (34 + k) mod 256]
  | _ => True end.
Proof.
  intros [|deg| | |] O; try exact Logic.I.
  - exists 0. split; [lia|reflexivity].
  - cbn [uop_ok] in O. destruct (degrees_l deg O) as (k & E & K & _). exists k. split; [lia|]. rewrite E. cbn [map].
    rewrite !u8_small by lia. rewrite Z.mod_small by lia. reflexivity.
Qed.

Definition inv (s : urm_sys) (n j : nat) : Prop :=
  good_out (u_out s) n /\ (j <= u_taken s <= n)%nat /\ s_in (u_rx s) ++ u_line s = replies j (u_taken s - j) /\
  (length (s_in (u_rx s)) <= cap)%nat /\ distances s = measured m j.

Lemma measured_S : forall j, measured m (S j) = measured m j ++ if deliverable (m j) then [centimetres (m j)] else [].
Proof.
  intro j. unfold measured. rewrite seq_S, map_app, filter_app, map_app. cbn [plus map filter]. destruct (deliverable (m j)); reflexivity.
Qed.
Lemma distances_snoc : forall out tk ln rx reps r, distances (mkUrm out tk ln rx (reps ++ [r])) =
  distances (mkUrm out tk ln rx reps) ++ match snd r with Some d => [d] | None => [] end.
Proof. intros. unfold distances. cbn [u_reports]. rewrite flat_map_app. cbn [flat_map]. rewrite app_nil_r. reflexivity. Qed.

Lemma receive_lost : forall q b, s_lost (ArduinoModel.receive cap q b) = s_lost q \/ s_lost (ArduinoModel.receive cap q b) = s_lost q ++ [b].
Proof. intros q b. unfold ArduinoModel.receive. destruct (length (s_in q) <? cap)%nat; [left|right]; reflexivity. Qed.
Lemma port_end_lost : forall q, s_lost (fst (fst (port_end_distance q))) = s_lost q.
Proof.
  intro q. assert (R : forall q, s_lost (fst (port_read q)) = s_lost q).
  { intros [[|b w] out lost]; reflexivity. }
  assert (P : s_lost (fst (fst (port_receive q))) = s_lost q).
  { unfold port_receive. destruct (u16 (available q) >? 3); [|reflexivity].
    pose proof (R q) as R1. destruct (port_read q) as [q1 v1]. cbn [fst] in R1.
    pose proof (R q1) as R2. destruct (port_read q1) as [q2 v2]. cbn [fst] in R2.
    pose proof (R q2) as R3. destruct (port_read q2) as [q3 v3]. cbn [fst] in R3.
    pose proof (R q3) as R4. destruct (port_read q3) as [q4 v4]. cbn [fst] in R4 |- *. congruence. }
  unfold port_end_distance. destruct (port_receive q) as [[q' res] [[[c d1] d2]|]]; cbn [fst] in P; destruct res; cbn [fst]; try exact P.
  destruct ((c =? 34) && negb (d1 =? 255) && negb (d2 =? 255)); exact P.
Qed.
Lemma step_lost : forall s o, s_lost (u_rx (u_step cap t m s o)) = [] -> s_lost (u_rx s) = [].
Proof.
  intros s o H. destruct o as [|deg| | |]; cbn [u_step u_rx] in H; try exact H.
  - destruct (4 * S (u_taken s) <=? length (u_out s))%nat; exact H.
  - destruct (u_line s) as [|b rest]; [exact H|]. cbn [u_rx] in H. destruct (receive_lost (u_rx s) b) as [E|E]; rewrite E in H; [exact H|].
    apply app_eq_nil in H. destruct H as [_ H]. discriminate.
  - pose proof (port_end_lost (u_rx s)) as P. destruct (port_end_distance (u_rx s)) as [[rx res] d]. cbn [fst] in P. cbn [u_rx] in H. congruence.
Qed.

Lemma step_inv : forall s o n j, uop_ok o -> inv s n j -> s_lost (u_rx (u_step cap t m s o)) = [] ->
  exists j', inv (u_step cap t m s o) (n + begun [o]) j' /\
    (j' = j \/ (o = UEnd /\ j' = S j /\ (deliverable (m j) = true -> exists r, u_reports (u_step cap t m s o) = u_reports s ++ [(r, Some (centimetres (m j)))]))).
Proof.
  intros s o n j O (G & T & Q & C & D) L. destruct o as [|deg| | |].
  - exists j. split; [|left; reflexivity]. destruct (command_l UBegin O) as (k & K & E). unfold inv. cbn [u_step u_out u_taken u_rx u_line].
    rewrite E. change (begun [UBegin]) with 1%nat. rewrite Nat.add_1_r. split; [exact (good_snoc _ _ _ G K)|]. split; [lia|]. split; [exact Q|]. split; [exact C|exact D].
  - exists j. split; [|left; reflexivity]. destruct (command_l (UBeginDeg deg) O) as (k & K & E). unfold inv. cbn [u_step u_out u_taken u_rx u_line].
    rewrite E. change (begun [UBeginDeg deg]) with 1%nat. rewrite Nat.add_1_r. split; [exact (good_snoc _ _ _ G K)|]. split; [lia|]. split; [exact Q|]. split; [exact C|exact D].
  - exists j. change (begun [USense]) with 0%nat. rewrite Nat.add_0_r. split; [|left; reflexivity]. unfold inv. cbn [u_step] in *.
    destruct (Nat.leb_spec (4 * S (u_taken s)) (length (u_out s))) as [B|B]; [|split; [exact G|]; split; [exact T|]; split; [exact Q|]; split; [exact C|exact D]].
    cbn [u_out u_taken u_line u_rx]. destruct G as [GL GF]. split; [split; assumption|]. split; [rewrite GL in B; lia|].
    split; [|split; [exact C|exact D]].
    destruct (GF (u_taken s) ltac:(rewrite GL in B; lia)) as (k & K & E). rewrite E. cbn [sensor].
    replace ((34 + k) mod 256 =? (34 + k + 0) mod 256) with true by (rewrite Z.add_0_r, Z.eqb_refl; reflexivity).
    cbn [negb Z.eqb Pos.eqb]. rewrite app_assoc, Q. replace (S (u_taken s) - j)%nat with (S (u_taken s - j)) by lia.
    rewrite replies_snoc. replace (j + (u_taken s - j))%nat with (u_taken s) by lia. reflexivity.
  - exists j. change (begun [UArrive]) with 0%nat. rewrite Nat.add_0_r. split; [|left; reflexivity]. unfold inv. cbn [u_step] in *.
    destruct (u_line s) as [|b rest] eqn:EL; [rewrite EL; split; [exact G|]; split; [exact T|]; split; [exact Q|]; split; [exact C|exact D]|].
    cbn [u_out u_taken u_line u_rx] in *. split; [exact G|]. split; [exact T|].
    unfold ArduinoModel.receive in *. destruct (Nat.ltb_spec (length (s_in (u_rx s))) cap) as [B|B].
    + cbn [s_in]. split; [rewrite <- app_assoc; exact Q|]. split; [rewrite app_length; cbn [length]; lia|exact D].
    + cbn [s_lost] in L. apply app_eq_nil in L. destruct L as [_ L]. discriminate.
  - change (begun [UEnd]) with 0%nat. rewrite Nat.add_0_r. cbn [u_step].
    assert (F : Forall byte (s_in (u_rx s))). { pose proof (replies_bytes (u_taken s - j) j) as F. rewrite <- Q in F. apply Forall_app in F. exact (proj1 F). }
    rewrite (port_end_l (u_rx s) F ltac:(lia)).
    destruct (Nat.lt_ge_cases (length (s_in (u_rx s))) 4) as [S4|S4].
    + rewrite (end_distance_short _ S4). exists j. split; [|left; reflexivity]. unfold inv. cbn [u_out u_taken u_line u_rx with_in s_in].
      split; [exact G|]. split; [exact T|]. split; [exact Q|]. split; [exact C|]. rewrite distances_snoc. cbn [snd]. rewrite app_nil_r. exact D.
    + assert (P : (j < u_taken s)%nat). { apply (f_equal (@length Z)) in Q. rewrite app_length, replies_length in Q. lia. }
      replace (u_taken s - j)%nat with (S (u_taken s - S j)) in Q by lia. unfold replies in Q. cbn [seq flat_map] in Q. fold (replies (S j) (u_taken s - S j)) in Q.
      destruct (s_in (u_rx s)) as [|x1 [|x2 [|x3 [|x4 q]]]] eqn:EQ; try (cbn [length] in S4; lia).
      unfold reply in Q. cbn [app] in Q. remember ((34 + fst (m j) + snd (m j)) mod 256) as sm eqn:SM. injection Q as -> -> -> -> Q. subst sm. destruct (Hm j) as [M1 M2].
      assert (R : byte ((34 + fst (m j) + snd (m j)) mod 256)) by (apply Z.mod_pos_bound; lia).
      rewrite (end_distance_l 34 (fst (m j)) (snd (m j)) ((34 + fst (m j) + snd (m j)) mod 256) q ltac:(unfold byte; lia) M1 M2 R).
      rewrite Z.eqb_refl. cbn [Z.eqb Pos.eqb andb].
      exists (S j). split.
      * unfold inv. destruct (negb (fst (m j) =? 255) && negb (snd (m j) =? 255)) eqn:DV; cbn [u_out u_taken u_line u_rx with_in s_in].
        all: split; [exact G|]; split; [lia|]; split; [exact Q|]; split; [cbn [length] in C; lia|]; rewrite distances_snoc; cbn [snd];
             rewrite measured_S; unfold deliverable; rewrite DV; f_equal; exact D.
      * right. split; [reflexivity|]. split; [reflexivity|]. unfold deliverable. intros ->. cbn [u_reports]. exists RSuccess. reflexivity.
Qed.

Lemma run_snoc : forall ops o, u_run cap t m (ops ++ [o]) = u_step cap t m (u_run cap t m ops) o.
Proof. intros. unfold u_run. rewrite fold_left_app. reflexivity. Qed.
Lemma begun_app : forall a b, begun (a ++ b) = (begun a + begun b)%nat.
Proof. intros. unfold begun. rewrite filter_app, app_length. reflexivity. Qed.
Lemma start_inv : inv (u_start) 0 0.
Proof.
  unfold inv. cbn [u_start u_out u_taken u_line u_rx s_in]. split; [split; [reflexivity|intros i I; lia]|]. split; [lia|]. split; [reflexivity|].
  split; [cbn [length]; lia|reflexivity].
Qed.
Lemma run_inv : forall ops, Forall uop_ok ops -> s_lost (u_rx (u_run cap t m ops)) = [] -> exists j, inv (u_run cap t m ops) (begun ops) j.
Proof.
  induction ops as [|o ops IH] using rev_ind; intros F L.
  - exists 0%nat. exact start_inv.
  - apply Forall_app in F. destruct F as [F1 F2]. inversion F2; subst. rewrite run_snoc in *. destruct (IH F1 (step_lost _ _ L)) as [j I].
    destruct (step_inv _ o _ j ltac:(assumption) I L) as (j' & I' & _). exists j'. rewrite begun_app. exact I'.
Qed.
Lemma link_l : forall ops, Forall uop_ok ops -> let s := u_run cap t m ops in s_lost (u_rx s) = [] ->
  exists j, (j <= u_taken s <= begun ops)%nat /\ distances s = measured m j /\
    (s_in (u_rx s) = [] -> u_line s = [] -> j = u_taken s).
Proof.
  intros ops F s L. destruct (run_inv ops F L) as (j & G & T & Q & C & D). exists j. split; [exact T|]. split; [exact D|].
  intros E1 E2. fold s in Q, T. rewrite E1, E2 in Q. apply (f_equal (@length Z)) in Q. rewrite replies_length in Q. cbn [app length] in Q. lia.
Qed.

Hypothesis Hd : forall n, deliverable (m n) = true.
Lemma measured_all : forall j, measured m j = map (fun i => centimetres (m i)) (seq 0 j).
Proof.
  intro j. unfold measured. rewrite <- (map_map m centimetres). f_equal. generalize 0%nat. induction j as [|j IH]; intro a; [reflexivity|].
  cbn [seq map filter]. rewrite Hd. f_equal. apply IH.
Qed.
Lemma measured_length : forall j, length (measured m j) = j.
Proof. intro j. rewrite measured_all, map_length, seq_length. reflexivity. Qed.
Lemma open_prefix : forall k a b, open_at_most cap t m k (a ++ b) -> open_at_most cap t m k a.
Proof. intros k a b H before o after E B. apply (H before o (after ++ b)); [rewrite E, <- app_assoc; reflexivity|exact B]. Qed.
Lemma no_loss_l : forall k ops, (4 * k <= cap)%nat -> Forall uop_ok ops -> open_at_most cap t m k ops ->
  s_lost (u_rx (u_run cap t m ops)) = [] /\ (begun ops <= k + length (distances (u_run cap t m ops)))%nat.
Proof.
  intros k ops K. induction ops as [|o ops IH] using rev_ind; intros F OM; [split; [reflexivity|cbn; lia]|].
  apply Forall_app in F. destruct F as [F1 F2]. inversion F2; subst. destruct (IH F1 (open_prefix _ _ _ OM)) as [L B].
  destruct (run_inv ops F1 L) as (j & I). pose proof I as (G & T & Q & C & D).
  assert (L' : s_lost (u_rx (u_run cap t m (ops ++ [o]))) = []).
  { rewrite run_snoc. destruct o as [|deg| | |]; cbn [u_step]; try exact L.
    - destruct (4 * S (u_taken (u_run cap t m ops)) <=? length (u_out (u_run cap t m ops)))%nat; exact L.
    - destruct (u_line (u_run cap t m ops)) as [|b rest] eqn:EL; [exact L|]. cbn [u_rx]. unfold ArduinoModel.receive.
      destruct (Nat.ltb_spec (length (s_in (u_rx (u_run cap t m ops)))) cap) as [X|X]; [exact L|]. exfalso.
      apply (f_equal (@length Z)) in Q. rewrite app_length, replies_length in Q. cbn [length] in Q. rewrite D, measured_length in B. lia.
    - pose proof (port_end_lost (u_rx (u_run cap t m ops))) as P. destruct (port_end_distance (u_rx (u_run cap t m ops))) as [[rx res] d].
      cbn [fst] in P. cbn [u_rx]. congruence. }
  split; [exact L'|]. rewrite run_snoc in *. destruct (step_inv _ o _ j ltac:(assumption) I L') as (j' & (_ & _ & _ & _ & D') & J').
  rewrite begun_app, D', measured_length. rewrite D, measured_length in B. assert (j <= j')%nat by (destruct J' as [->|(_ & -> & _)]; lia).
  destruct (Nat.eq_dec (begun [o]) 0) as [Z0|Z0]; [lia|].
  assert (B1 : begun [o] = 1%nat) by (destruct o; cbn in Z0 |- *; lia).
  specialize (OM ops o [] eq_refl B1). rewrite D, measured_length in OM. lia.
Qed.
Lemma fresh_l : forall ops, (4 <= cap)%nat -> Forall uop_ok ops -> open_at_most cap t m 1 ops ->
  forall d r, u_reports (u_run cap t m (ops ++ [UEnd])) = u_reports (u_run cap t m ops) ++ [(r, Some d)] ->
  (1 <= begun ops)%nat /\ d = centimetres (m (begun ops - 1)).
Proof.
  intros ops C4 F OM d r R. destruct (no_loss_l 1 ops ltac:(lia) F OM) as [L B]. destruct (run_inv ops F L) as (j & I).
  assert (L' : s_lost (u_rx (u_step cap t m (u_run cap t m ops) UEnd)) = []).
  { pose proof (port_end_lost (u_rx (u_run cap t m ops))) as P. cbn [u_step]. destruct (port_end_distance (u_rx (u_run cap t m ops))) as [[rx res] e].
    cbn [fst] in P. cbn [u_rx]. congruence. }
  destruct (step_inv _ UEnd _ j Logic.I I L') as (j' & I' & J'). rewrite run_snoc in R.
  pose proof I as (_ & T & _ & _ & D). pose proof I' as (_ & T' & _ & _ & D').
  assert (DD : distances (u_step cap t m (u_run cap t m ops) UEnd) = distances (u_run cap t m ops) ++ [d]).
  { unfold distances. rewrite R, flat_map_app. reflexivity. }
  rewrite D', D in DD. rewrite D, measured_length in B. change (begun [UEnd]) with 0%nat in T'.
  destruct J' as [->|(_ & -> & X)].
  - apply (f_equal (@length Z)) in DD. rewrite app_length, !measured_length in DD. cbn [length] in DD. lia.
  - rewrite !measured_all, seq_S, map_app in DD. apply app_inv_head in DD. cbn [plus map] in DD. injection DD as <-.
    cbn [u_step] in T'. split; [|f_equal; f_equal]; destruct (port_end_distance (u_rx (u_run cap t m ops))) as [[rx res] e]; cbn [u_taken] in T'; lia.
Qed.
End Link.
