(** Specifications for arrays, strings and collections: plain lists. *)
Require Import ZArith List Bool.
Import ListNotations.
From Verif Require Import Base ArrayModel.
Open Scope Z_scope.

Section L.
Context {T : Type}.

(** Element [i] of a list, or the default value for any index that is not a position. *)
Definition lookup (dflt : T) (l : list T) (i : Z) : T :=
  if i <? 0 then dflt else nth (Z.to_nat i) l dflt.

(** Position of the first element equal to [x]. *)
Fixpoint first_pos (teq : T -> T -> bool) (l : list T) (x : T) : option Z :=
  match l with
  | [] => None
  | y :: rest => if teq y x then Some 0
                 else match first_pos teq rest x with Some p => Some (p + 1) | None => None end
  end.

(** Replace element [i]; no effect when [i] is not a position. *)
Fixpoint set_nth (l : list T) (i : nat) (v : T) : list T :=
  match l, i with
  | [], _ => []
  | _ :: r, O => v :: r
  | x :: r, S k => x :: set_nth r k v
  end.

(** A list of at most [cap] items. *)
Definition list_step (cap : Z) (l : list T) (o : coll_op T) : list T :=
  match o with
  | CAdd v => if Z.of_nat (length l) <? cap then l ++ [v] else l
  | CSet i v => if i <? 0 then l else set_nth l (Z.to_nat i) v
  | CClear => []
  end.
Definition list_run (cap : Z) (l : list T) (ops : list (coll_op T)) : list T :=
  fold_left (list_step cap) ops l.

(** The last value a history wrote to element [i] of array [a], if any. *)
Fixpoint last_write (n : Z) (a : nat) (i : Z) (ops : list (arr_op T)) (acc : T) : T :=
  match ops with
  | [] => acc
  | OpSetAt b j v :: rest | OpIndexAssign b j v :: rest =>
      last_write n a i rest (if Nat.eqb b a && (j =? i) && inb j n then v else acc)
  end.
(** The last value assigned through operator[] at an invalid index, of any array. *)
Fixpoint last_out (n : Z) (ops : list (arr_op T)) (acc : T) : T :=
  match ops with
  | [] => acc
  | OpSetAt _ _ _ :: rest => last_out n rest acc
  | OpIndexAssign _ j v :: rest => last_out n rest (if inb j n then acc else v)
  end.
End L.

(** The characters of a C string before its NUL, looking at no more than [n] bytes from [i];
    [None] when there is no NUL among them. *)
Fixpoint c_string (b : Z -> Z) (i : Z) (n : nat) : option (list Z) :=
  match n with
  | O => None
  | S k => if b i =? 0 then Some []
           else match c_string b (i + 1) k with Some s => Some (b i :: s) | None => None end
  end.
(** Byte [j] of a FixedString<n> after a history, if it held [d] before: CopyFrom writes the first n bytes, filling up
    with NULs; Clear and SetAt reach byte n too. *)
Fixpoint fs_byte (n j : Z) (ops : list fs_op) (d : Z) : Z :=
  match ops with
  | [] => d
  | FsCopy src :: r => fs_byte n j r (if (0 <=? j) && (j <? n) then nth (Z.to_nat j) src 0 else d)
  | FsClear :: r => fs_byte n j r (if (0 <=? j) && (j <=? n) then 0 else d)
  | FsSet i c :: r => fs_byte n j r (if (i =? j) && (0 <=? j) && (j <=? n) then c else d)
  end.
