(** Collections over shared memory as lists that see each other's writes. *)
Require Import ZArith List Bool.
Import ListNotations.
From Verif Require Import Base ArrayModel ArraySpec ShareModel.
Open Scope Z_scope.

(** Where an array is, and its sizes. *)
Definition view_ok (N : Z) (w : view) : Prop :=
  0 <= v_off w /\ v_off w + v_items w <= N /\ 0 <= v_cap w <= v_items w /\ v_items w <= 32767.
(** No two arrays have an item in common. *)
Definition apart (vw : nat -> view) : Prop :=
  forall j k, j <> k -> v_off (vw j) + v_items (vw j) <= v_off (vw k) \/ v_off (vw k) + v_items (vw k) <= v_off (vw j).
Definition positions (w : view) : list Z := map Z.of_nat (seq 0 (Z.to_nat (v_items w))).

Section L.
Context {T : Type}.
Variables (zero : T) (vw : nat -> view).
(** A write at address [a], as every list sees it. *)
Definition l_write (L : nat -> list T) (a : Z) (v : T) : nat -> list T :=
  fun k => if a <? v_off (vw k) then L k else set_nth (L k) (Z.to_nat (a - v_off (vw k))) v.
Definition l_put (L : nat -> list T) (k : nat) (l : list T) : nat -> list T := fun j => if Nat.eqb j k then l else L j.
Definition l_step (L : nat -> list T) (o : share_op T) : nat -> list T :=
  match o with
  | HAdd k v => if Z.of_nat (length (L k)) <? v_cap (vw k)
                then l_put (l_write L (v_off (vw k) + Z.of_nat (length (L k))) v) k (L k ++ [v]) else L
  | HPut k i v => if (0 <=? i) && (i <? Z.of_nat (length (L k))) then l_write L (v_off (vw k) + i) v else L
  | HReset k => l_put L k []
  | HSet k i v => if inb i (v_items (vw k)) then l_write L (v_off (vw k) + i) v else L
  | HClear k => fold_left (fun L i => l_write L (v_off (vw k) + i) zero) (positions (vw k)) L
  end.
Definition l_run (L : nat -> list T) (ops : list (share_op T)) : nat -> list T := fold_left l_step ops L.

(** What a history does to object [k] by name: writes to its array are writes to its items. *)
Definition own (k : nat) (o : share_op T) : list (coll_op T) :=
  match o with
  | HAdd j v => if Nat.eqb j k then [CAdd v] else []
  | HPut j i v | HSet j i v => if Nat.eqb j k then [CSet i v] else []
  | HReset j => if Nat.eqb j k then [CClear] else []
  | HClear j => if Nat.eqb j k then map (fun i => CSet i zero) (positions (vw k)) else []
  end.
End L.
