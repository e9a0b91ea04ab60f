(** Floating point numbers and their decimal notation. *)
Require Import ZArith List Bool.
Import ListNotations.
From Verif Require Import TextSpec.
Open Scope Z_scope.

(** x * 2^-s is a number of a format with [p] bits and smallest positive number 2^-s. *)
Definition is_float (p x : Z) : Prop := exists m e, 0 <= e /\ Z.abs m < 2 ^ p /\ x = m * 2 ^ e.
(** [t] is the notation of the number v / 10^k, of the sign [minus], with [k] decimals. *)
Definition decimal_form (neg sep k : Z) (minus : bool) (v : Z) (t : list Z) : Prop :=
  exists ip fp, numeral 10 (v / 10 ^ k) ip /\ fixed_digits k (v mod 10 ^ k) fp /\
    t = (if minus then [neg] else []) ++ ip ++ (if k =? 0 then [] else sep :: fp).
(** v / 10^k differs from |x| * 2^-s by at most half a unit of the last decimal and
    (|x| * 2^-s + 2) * 2^-p. *)
Definition close (p s k x v : Z) : Prop :=
  2 ^ (p + 1) * Z.abs (v * 2 ^ s - Z.abs x * 10 ^ k) <= 2 ^ p * 2 ^ s + 2 * 10 ^ k * (Z.abs x + 2 * 2 ^ s).
