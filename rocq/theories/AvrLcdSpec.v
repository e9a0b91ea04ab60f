(** Specification for displays at AVR pins; the display's side is [watch] and [delivers] of HdSpec.v. *)
Require Import ZArith List Bool.
Import ListNotations.
From Verif Require Import Base AvrModel AvrSpec RegIsrModel RegIsrSpec HdModel HdSpec AvrLcdModel.
Open Scope Z_scope.

Definition al_pins (x : alcd) : list (Z * Z) := [x_rs x; x_en x; x_d4 x; x_d5 x; x_d6 x; x_d7 x].
(** Six different pins of the ports A to D. *)
Definition al_real (x : alcd) : Prop := NoDup (al_pins x) /\ Forall (fun q => 0 <= fst q < 4 /\ 0 <= snd q < 8) (al_pins x).
(** The lines as the display sees them; [None] when some pin is not an output. *)
Definition al_lines (x : alcd) (m : regs) : option lines :=
  let at_ q := drives m (fst q) (snd q) in
  match at_ (x_rs x), at_ (x_en x), at_ (x_d4 x), at_ (x_d5 x), at_ (x_d6 x), at_ (x_d7 x) with
  | Some r, Some e, Some a, Some b, Some c, Some d => Some {| rs := r; en := e; d4 := a; d5 := b; d6 := c; d7 := d |}
  | _, _, _, _, _, _ => None
  end.
(** The call changes neither level nor direction of a pin of the display. *)
Definition spares (x : alcd) (o : rop) : Prop :=
  forall q, In q (al_pins x) -> ~ names o (a_out (fst q)) (snd q) /\ ~ names o (a_dir (fst q)) (snd q).
Definition other_ok (x : alcd) (o : rop) : Prop := rop_ok o /\ spares x o.
Definition acall_ok (x : alcd) (c : acall) : Prop := match c with ADisp o => dop_ok o | AElse o => other_ok x o end.
(** The calls to the driver among the calls. *)
Fixpoint al_ops (cs : list acall) : list dop :=
  match cs with [] => [] | ADisp o :: r => o :: al_ops r | AElse _ :: r => al_ops r end.
Fixpoint aisr_ops (evs : list aev) : list dop :=
  match evs with [] => [] | AStep :: r => aisr_ops r | AIsr cs :: r => al_ops cs ++ aisr_ops r end.
Definition aev_ok (y : alcd) (e : aev) : Prop := match e with AStep => True | AIsr cs => Forall (acall_ok y) cs end.
(** [a] is [b] with repeats: it goes through the values of [b] one after the other, starting at [x]. *)
Inductive lingers {A} : A -> list A -> list A -> Prop :=
| li_nil : forall x, lingers x [] []
| li_same : forall x a b, lingers x a b -> lingers x (x :: a) b
| li_new : forall x y a b, lingers y a b -> lingers x (y :: a) (y :: b).
(** WriteCommand and WriteData: calls that set RS. *)
Definition full_call (o : dop) : Prop := match o with DNib _ => False | _ => True end.
Definition al_apart (x y : alcd) : Prop := forall q, In q (al_pins x) -> ~ In q (al_pins y).
(** The calls other than those to the program's own display leave display [y] alone. *)
Definition rest_spares (y : alcd) (cs : list acall) : Prop :=
  Forall (fun c => match c with ADisp _ => True | AElse o => spares y o end) cs.
Definition aev_spares (x : alcd) (e : aev) : Prop := match e with AStep => True | AIsr cs => rest_spares x cs end.
(** Two displays: one at port A, the other at ports A and B. *)
Definition lcd_a : alcd := mkAlcd (0, 0) (0, 1) (0, 2) (0, 3) (0, 4) (0, 5).
Definition lcd_ab : alcd := mkAlcd (0, 6) (0, 7) (1, 0) (1, 1) (1, 2) (1, 3).
(** Every pin of ports A and B an output, both enable lines high, RS of the second display high or low. *)
Definition lcd_regs (r : bool) : regs := fun a => if (a =? 33) || (a =? 36) then 255 else if a =? 34 then (if r then 194 else 130) else 0.
(** The bytes taken by a display that sees the registers [ms]. *)
Fixpoint seen (x : alcd) (ms : list regs) : list lines :=
  match ms with [] => [] | m :: r => match al_lines x m with Some l => l :: seen x r | None => seen x r end end.
