(** C41: Serial3WireOutput and a chain of shift registers. *)
Require Import ZArith List Bool Lia.
Import ListNotations.
From Verif Require Import Base BitModel ShiftModel ShiftSpec ShiftProofs.
Open Scope Z_scope.

(** C41: for every value and every chain at least as long as the value is wide, WriteReverse puts
    the bits on the outputs, the highest bit at the first output, and pushes the older bits down the
    chain.  The latch is touched only once, after the last bit. *)
Theorem shift_write_reverse : forall iw w b c, 1 <= w <= iw -> 0 <= b < 2 ^ w ->
  clock c = false -> latch c = false -> (Z.to_nat w <= length (reg c))%nat ->
  exists es pre, write_reverse iw w b = Some es /\ es = pre ++ pulse PLatch /\
    Forall (fun e => fst e <> PLatch) pre /\
    clock (chip_run c es) = false /\ latch (chip_run c es) = false /\
    reg (chip_run c es) = outs (chip_run c es) /\
    outs (chip_run c es) = rev (low_bits b 0 (Z.to_nat w)) ++ firstn (length (reg c) - Z.to_nat w) (reg c).
Proof. exact write_reverse_l. Qed.

(** C41: while bits are shifted the outputs do not change. *)
Theorem shift_outputs_stable : forall es c, Forall (fun e => fst e <> PLatch) es -> outs (chip_run c es) = outs c.
Proof. exact no_latch_outs. Qed.

(** C41, finding: Write never returns and never latches, for every value and however long it runs. *)
Theorem shift_write_refuted : forall iw w b n c, 1 <= w <= iw -> w <= 255 -> 0 <= b < 2 ^ w ->
  exists es, write_forward iw w b n = Some (es, false) /\ outs (chip_run c es) = outs c.
Proof. exact write_forward_l. Qed.

Definition chip8 : chip := {| data := false; clock := false; latch := false;
  reg := repeat true 8; outs := repeat true 8 |}.
Example shift_ex_reverse : match write_reverse 16 8 11 with
  | Some es => outs (chip_run chip8 es) = [false; false; false; false; true; false; true; true]
  | None => False end.
Proof. reflexivity. Qed.
Example shift_ex_forward : match write_forward 16 8 11 8 with
  | Some (es, d) => reg (chip_run chip8 es) = [true; true; false; true; false; false; false; false] /\
                    outs (chip_run chip8 es) = repeat true 8 /\ d = false
  | None => False end.
Proof. repeat split. Qed.

Print Assumptions shift_write_reverse.
Print Assumptions shift_outputs_stable.
Print Assumptions shift_write_refuted.
