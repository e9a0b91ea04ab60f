(** What a program sees of a distance sensor. *)
Require Import ZArith List Bool.
Import ListNotations.
From Verif Require Import UrmModel UrmSpec UrmLinkModel ArduinoModel.
Open Scope Z_scope.

Definition uop_ok (o : uop) : Prop := match o with UBeginDeg deg => 0 <= deg <= 270 | _ => True end.
(** How many measurements have been started. *)
Definition begun (ops : list uop) : nat := length (filter (fun o => match o with UBegin | UBeginDeg _ => true | _ => false end) ops).
(** The distances delivered. *)
Definition distances (s : urm_sys) : list Z := flat_map (fun r => match snd r with Some d => [d] | None => [] end) (u_reports s).
(** The distances the controller can deliver: those without a byte of 255 (C40). *)
Definition deliverable (d : Z * Z) : bool := negb (fst d =? 255) && negb (snd d =? 255).
Definition centimetres (d : Z * Z) : Z := 256 * fst d + snd d.
Definition measured (m : nat -> Z * Z) (n : nat) : list Z := map centimetres (filter deliverable (map m (seq 0 n))).
(** A program that never has more than [k] measurements open. *)
Definition open_at_most (cap : nat) (t : Z * Z) (m : nat -> Z * Z) (k : nat) (ops : list uop) : Prop :=
  forall before o after, ops = before ++ o :: after -> begun [o] = 1%nat ->
    (begun before < k + length (distances (u_run cap t m before)))%nat.
