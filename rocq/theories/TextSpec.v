(** Numerals: what a number looks like in a base. *)
Require Import ZArith List Bool.
Import ListNotations.
Open Scope Z_scope.

Definition digit_char (d : Z) : Z := if d <? 10 then 48 + d else 65 + (d - 10).
(** The value of a character as a digit. *)
Definition digit_value (c : Z) : Z := if c <? 65 then c - 48 else c - 65 + 10.
Definition is_digit (base c : Z) : Prop := exists d, 0 <= d < base /\ c = digit_char d.
(** Reading a numeral: Horner. *)
Definition value (base : Z) (s : list Z) : Z := fold_left (fun a c => a * base + digit_value c) s 0.
(** [s] is the numeral of [v]: digits of the base, no leading zero, and it reads back as [v]. *)
Definition numeral (base v : Z) (s : list Z) : Prop :=
  s <> [] /\ Forall (is_digit base) s /\ (hd 0 s = 48 -> s = [48]) /\ value base s = v.
(** Signed decimal. *)
Definition signed_numeral (neg v : Z) (s : list Z) : Prop :=
  if v <? 0 then exists t, s = neg :: t /\ numeral 10 (- v) t else numeral 10 v s.
(** Bases below two act as ten. *)
Definition eff_base (b : Z) : Z := if b <? 2 then 10 else b.

(** [k] digits (leading zeros kept) with value [v]. *)
Definition fixed_digits (k : Z) (v : Z) (s : list Z) : Prop :=
  Z.of_nat (length s) = k /\ Forall (is_digit 10) s /\ value 10 s = v.
(** [s] is the number n/d in decimal with [k] decimals, rounded to nearest, halves away from zero. *)
Definition decimal_numeral (neg sep k n d : Z) (s : list Z) : Prop :=
  let scaled := (2 * Z.abs n * 10 ^ k + d) / (2 * d) in      (* |n/d| * 10^k + 1/2, rounded down *)
  exists ip fp, numeral 10 (scaled / 10 ^ k) ip /\ fixed_digits k (scaled mod 10 ^ k) fp /\
    s = (if n <? 0 then [neg] else []) ++ ip ++ (if k =? 0 then [] else sep :: fp).
