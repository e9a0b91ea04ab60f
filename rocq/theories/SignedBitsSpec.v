(** Bits of a signed word, for SignedBitsModel.v. *)
Require Import ZArith List Bool.
Import ListNotations.
From Verif Require Import BitModel BitSpec.
Open Scope Z_scope.

(** The value a field reads as: unsigned, but a field that ends at the sign bit is signed. *)
Definition field_value (w b i c : Z) : Z :=
  if (i + c =? w) && (0 <? c) then sn c (b / 2 ^ i) else (b / 2 ^ i) mod 2 ^ c.
(** A vector of bits again, except that IsTrue of the sign bit of a type as wide as int answers false. *)
Definition sv_step (iw w : Z) (f : bits) (o : ba_op) : bits * bool :=
  match o with
  | BIsTrue i => (f, (i <? w) && f i && negb ((i =? w - 1) && (w =? iw)))
  | _ => bv_step w f o
  end.
Fixpoint sv_run (iw w : Z) (f : bits) (ops : list ba_op) : bits * list bool :=
  match ops with
  | [] => (f, [])
  | o :: rest => let '(f1, r) := sv_step iw w f o in
                 let '(f2, rs) := sv_run iw w f1 rest in (f2, r :: rs)
  end.
Definition sb_op_ok (w : Z) (o : ba_op) : Prop :=
  match o with
  | BPut i _ | BSet i | BReset i | BIsTrue i | BIsFalse i => 0 <= i <= 255
  | BSetAll x => in_type true w x
  | BResetAll => True
  end.
