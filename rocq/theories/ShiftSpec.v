(** A chain of 74HC595 shift registers: the bit on the data pin is shifted in at the rising edge of
    the shift clock, the outputs take the register at the rising edge of the latch clock. *)
Require Import ZArith List Bool.
Import ListNotations.
From Verif Require Import ShiftModel.
Open Scope Z_scope.

Record chip := { data : bool; clock : bool; latch : bool; reg : list bool; outs : list bool }.

(** The register has a fixed length: the bit at the far end falls off. *)
Definition chip_step (c : chip) (e : event) : chip :=
  match e with
  | (PData, v) => {| data := v; clock := clock c; latch := latch c; reg := reg c; outs := outs c |}
  | (PClock, v) =>
      {| data := data c; clock := v; latch := latch c;
         reg := if negb (clock c) && v then firstn (length (reg c)) (data c :: reg c) else reg c;
         outs := outs c |}
  | (PLatch, v) =>
      {| data := data c; clock := clock c; latch := v; reg := reg c;
         outs := if negb (latch c) && v then reg c else outs c |}
  end.
Definition chip_run (c : chip) (es : list event) : chip := fold_left chip_step es c.

(** The low [n] bits of [b] starting at bit [i], the lowest first. *)
Fixpoint low_bits (b i : Z) (n : nat) : list bool :=
  match n with O => [] | S k => Z.testbit b i :: low_bits b (i + 1) k end.
