(** C88: collections and arrays over the same memory. *)
Require Import ZArith List Bool Lia.
Import ListNotations.
From Verif Require Import Base ArrayModel ArraySpec ShareModel ShareSpec ShareProofs.
Open Scope Z_scope.

(** Any number of collections over arrays anywhere in a buffer, overlapping or not: after any history each holds the
    list [l_run] tells, and no write leaves the buffer. *)
Theorem share_lists : forall (T : Type) (dflt zero : T) N vw, (forall k, view_ok N (vw k)) -> forall m ops,
  exists s, h_run zero N vw (h_new m) ops = Some s /\
  forall k, let l := l_run zero vw (fun _ => []) ops k in
  h_count s k = Z.of_nat (length l) /\ h_count s k <= v_cap (vw k) /\ forall i, h_get dflt N vw s k i = Some (lookup dflt l i).
Proof. intros T dflt zero N vw H m ops. apply share_lists_l. exact H. Qed.
Print Assumptions share_lists.
(** How many items a collection has depends on its own calls only. *)
Theorem share_count : forall (T : Type) (zero : T) N vw, (forall k, view_ok N (vw k)) -> forall m ops,
  exists s, h_run zero N vw (h_new m) ops = Some s /\
  forall k, h_count s k = Z.of_nat (length (list_run (v_cap (vw k)) [] (flat_map (own zero vw k) ops))).
Proof.
  intros T zero N vw H m ops. destruct (share_lists_l zero zero N vw H m ops) as (s & E & X). exists s. split; [exact E|].
  intros k. destruct (X k) as [C _]. rewrite C, run_len. reflexivity.
Qed.
Print Assumptions share_count.
(** Over arrays that do not overlap a collection is a list of its own. *)
Theorem share_apart : forall (T : Type) (dflt zero : T) N vw, (forall k, view_ok N (vw k)) -> apart vw -> forall m ops,
  exists s, h_run zero N vw (h_new m) ops = Some s /\
  forall k, let l := list_run (v_cap (vw k)) [] (flat_map (own zero vw k) ops) in
  h_count s k = Z.of_nat (length l) /\ forall i, h_get dflt N vw s k i = Some (lookup dflt l i).
Proof. intros T dflt zero N vw H A m ops. apply share_apart_l; assumption. Qed.
Print Assumptions share_apart.
(** Finding: two collections over one array overwrite each other's items. *)
Theorem share_refuted : exists N vw ops s, (forall k, view_ok N (vw k)) /\ h_run 0 N vw (h_new (fun _ => 0)) ops = Some s /\
  flat_map (own 0 vw 0%nat) ops = [CAdd 1] /\ h_get 0 N vw s 0%nat 0 = Some 2.
Proof.
  exists 4, (fun _ => mkView 0 4 4), [HAdd 0%nat 1; HAdd 1%nat 2]. eexists. split; [intros k; unfold view_ok; cbn; lia|].
  split; [reflexivity|]. split; reflexivity.
Qed.
Print Assumptions share_refuted.
(** A text put together by Add in a cleared FixedString<n> is the first (uint8_t)n characters, whatever was in it. *)
Theorem share_string : forall n m ops cs, 0 <= n <= 32766 -> Forall (fun c => c <> 0) cs ->
  exists s, h_run 0 (n + 1) (fun _ => string_view n) (h_new m) (ops ++ HClear 0%nat :: HReset 0%nat :: map (HAdd 0%nat) cs) = Some s /\
  c_string (h_mem s) 0 (S (Z.to_nat n)) = Some (firstn (Z.to_nat (u8 n)) cs).
Proof. exact share_string_l. Qed.
Print Assumptions share_string.
(** Finding: Clear of the collection leaves the old text behind the new one; a string of 256 characters takes none. *)
Theorem share_string_refuted :
  (exists s, h_run 0 9 (fun _ => string_view 8) (h_new (fun _ => 0)) (map (HAdd 0%nat) [72; 101; 108; 112] ++ HReset 0%nat :: map (HAdd 0%nat) [78; 111]) = Some s /\
     c_string (h_mem s) 0 9 = Some [78; 111; 108; 112]) /\
  (exists s, h_run 0 257 (fun _ => string_view 256) (h_new (fun _ => 0)) [HAdd 0%nat 65] = Some s /\ c_string (h_mem s) 0 257 = Some [] /\ h_count s 0%nat = 0).
Proof.
  split; [eexists; split; [reflexivity|lazy; reflexivity]|]. eexists. split; [reflexivity|]. split; [lazy; reflexivity|reflexivity].
Qed.
Print Assumptions share_string_refuted.

(** Two collections over overlapping parts of ten items. *)
Example share_example :
  let vw k := if Nat.eqb k 0 then mkView 0 6 6 else mkView 4 6 6 in
  option_map (fun s => map (h_get 0 10 vw s 0%nat) [0; 3; 4; 5]) (h_run 0 10 vw (h_new (fun _ => 0))
    (map (HAdd 0%nat) [1; 2; 3; 4; 5] ++ [HAdd 1%nat 7; HPut 1%nat 3 9; HSet 1%nat 1 8])) = Some [Some 1; Some 4; Some 7; Some 0].
Proof. lazy. reflexivity. Qed.
