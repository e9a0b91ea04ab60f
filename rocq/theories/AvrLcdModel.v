(** HD44780_Driver.h over six pins of the AVR ports (AVR/DigitalOutputPin.h, AVR/Port.h), used by the main
    program or by interrupt handlers; the processor is that of RegIsrModel.v.
    Simplification: the delays of the driver are left out here (HdTimeModel.v has them). *)
Require Import ZArith List Bool.
Import ListNotations.
From Verif Require Import Base AvrModel RegIsrModel HdModel.
Open Scope Z_scope.

(** The port and the bit of each pin; HD44780_Driver.h 41-43. *)
Record alcd := mkAlcd { x_rs : Z * Z; x_en : Z * Z; x_d4 : Z * Z; x_d5 : Z * Z; x_d6 : Z * Z; x_d7 : Z * Z }.
(** DigitalOutputPin.h 60-63. *)
Definition al_pin (q : Z * Z) (v : bool) : rop := PortWrite (fst q) (snd q) v.
Definition al_out (q : Z * Z) (v : option bool) : list rop := output_pin (fst q) (snd q) v.
(** HD44780_Driver.h 49-51; the members in the order of 106-111. *)
Definition al_new (x : alcd) : list rop :=
  al_out (x_rs x) None ++ al_out (x_en x) (Some true) ++ al_out (x_d4 x) None ++ al_out (x_d5 x) None ++
  al_out (x_d6 x) None ++ al_out (x_d7 x) None.
(** HD44780_Driver.h 95-103 and 126-131, 85-89, 65-79. *)
Definition al_write4 (x : alcd) (data : Z) : list rop :=
  [al_pin (x_d4 x) (nz (Z.land data 1)); al_pin (x_d5 x) (nz (Z.land data 2)); al_pin (x_d6 x) (nz (Z.land data 4));
   al_pin (x_d7 x) (nz (Z.land data 8)); al_pin (x_en x) false; al_pin (x_en x) true].
Definition al_write8 (x : alcd) (data : Z) : list rop := al_write4 x (Z.shiftr data 4) ++ al_write4 x data.
Definition al_op (x : alcd) (o : dop) : list rop :=
  match o with
  | DCmd b => al_pin (x_rs x) false :: al_write8 x b
  | DData b => al_pin (x_rs x) true :: al_write8 x b
  | DNib n => al_write4 x n
  end.

(** A call to the driver, or any other call of RegIsrModel.v. *)
Inductive acall := ADisp (o : dop) | AElse (o : rop).
Definition al_call (x : alcd) (c : acall) : list rop := match c with ADisp o => al_op x o | AElse o => [o] end.
Definition al_prog (x : alcd) (cs : list acall) : list rop := flat_map (al_call x) cs.

(** The registers after each call of a handler. *)
Fixpoint r_moments (m : regs) (os : list rop) : list regs :=
  match os with [] => [] | o :: r => fst (rstep m o) :: r_moments (fst (rstep m o)) r end.
(** The registers after each instruction of the main program and each call of a handler. *)
Fixpoint k_moments (one : Z -> bool) (k : kst) (evs : list kev) : list regs :=
  match evs with
  | [] => []
  | e :: r => match e with KStep => [k_regs (kstep one k KStep)] | KIsr os => r_moments (k_regs k) os end ++
              k_moments one (kstep one k e) r
  end.
(** Handlers that use a display. *)
Inductive aev := AStep | AIsr (cs : list acall).
Definition al_ev (y : alcd) (e : aev) : kev := match e with AStep => KStep | AIsr cs => KIsr (al_prog y cs) end.
