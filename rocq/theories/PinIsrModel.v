(** Output pins of the AVR ports written by the main program or by interrupt handlers, on the processor of
    RegIsrModel.v; Serial3WireOutput.h over three such pins. *)
Require Import ZArith List Bool.
Import ListNotations.
From Verif Require Import Base AvrModel RegIsrModel ShiftModel AvrLcdModel.
Open Scope Z_scope.

(** A write to a pin of the device, or any other call of RegIsrModel.v. *)
Inductive pcall := POwn (q : Z * Z) (v : bool) | POther (o : rop).
Definition p_code (c : pcall) : rop := match c with POwn q v => al_pin q v | POther o => o end.
(** Handlers that write the pins. *)
Inductive pev := PStep | PIsr (cs : list pcall).
Definition p_ev (e : pev) : kev := match e with PStep => KStep | PIsr cs => KIsr (map p_code cs) end.

(** Serial3WireOutput.h 36, 93-96: port and bit of the three pins. *)
Record s3 := mkS3 { s_data : Z * Z; s_clock : Z * Z; s_latch : Z * Z }.
Definition s3_at (x : s3) (p : pin) : Z * Z := match p with PData => s_data x | PClock => s_clock x | PLatch => s_latch x end.
(** The pin writes of ShiftModel.v as calls. *)
Definition s3_call (x : s3) (e : event) : pcall := POwn (s3_at x (fst e)) (snd e).
(** DigitalOutputPin.h 43-56: the constructors, with or without a level. *)
Definition p_new (l : list ((Z * Z) * option bool)) : list rop := flat_map (fun e => al_out (fst e) (snd e)) l.
