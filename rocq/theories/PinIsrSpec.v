(** Specification for pins shared with interrupt handlers. *)
Require Import ZArith List Bool.
Import ListNotations.
From Verif Require Import Base AvrModel AvrSpec RegIsrModel RegIsrSpec ShiftModel ShiftSpec HdModel HdSpec ChainModel ChainSpec AvrLcdModel AvrLcdSpec PinIsrModel.
Open Scope Z_scope.

Definition pin_real (q : Z * Z) : Prop := 0 <= fst q < 4 /\ 0 <= snd q < 8.
(** What the pins drive. *)
Definition look (qs : list (Z * Z)) (m : regs) : list (option bool) := map (fun q => drives m (fst q) (snd q)) qs.
Definition same_pin (p q : Z * Z) : bool := (fst p =? fst q) && (snd p =? snd q).
(** A write to a pin that is an output changes its level and no other. *)
Fixpoint put_level (qs : list (Z * Z)) (q : Z * Z) (v : bool) (ls : list (option bool)) : list (option bool) :=
  match qs, ls with
  | p :: qs, l :: ls => (if same_pin p q then match l with Some _ => Some v | None => None end else l) :: put_level qs q v ls
  | _, _ => []
  end.
Fixpoint levels (qs : list (Z * Z)) (ls : list (option bool)) (ws : list ((Z * Z) * bool)) : list (list (option bool)) :=
  match ws with [] => [] | (q, v) :: r => put_level qs q v ls :: levels qs (put_level qs q v ls) r end.
(** The writes to the pins among the calls. *)
Fixpoint p_own (cs : list pcall) : list ((Z * Z) * bool) :=
  match cs with [] => [] | POwn q v :: r => (q, v) :: p_own r | POther _ :: r => p_own r end.
(** The call changes neither level nor direction of the pins. *)
Definition leaves (qs : list (Z * Z)) (o : rop) : Prop :=
  rop_ok o /\ forall q, In q qs -> ~ names o (a_out (fst q)) (snd q) /\ ~ names o (a_dir (fst q)) (snd q).
Definition pcall_ok (qs : list (Z * Z)) (c : pcall) : Prop := match c with POwn q _ => In q qs | POther o => leaves qs o end.
Definition pev_ok (qs : list (Z * Z)) (e : pev) : Prop := match e with PStep => True | PIsr cs => Forall (pcall_ok qs) cs end.

(** The pins of [st] are outputs at their levels of rest. *)
Fixpoint level_of (q : Z * Z) (qs : list (Z * Z)) (ls : list (option bool)) : option bool :=
  match qs, ls with p :: qs, l :: ls => if same_pin p q then l else level_of q qs ls | _, _ => None end.
Definition rests_at (qs : list (Z * Z)) (st : list ((Z * Z) * bool)) (ls : list (option bool)) : Prop :=
  forall q v, In (q, v) st -> level_of q qs ls = Some v.
(** A handler leaves the pins of [st] at their levels of rest, if it finds them there. *)
Definition returns (qs : list (Z * Z)) (st : list ((Z * Z) * bool)) (e : pev) : Prop :=
  match e with
  | PStep => True
  | PIsr cs => forall ls, rests_at qs st ls -> rests_at qs st (last (levels qs ls (p_own cs)) ls)
  end.
Definition is_out (l : option bool) : bool := match l with Some _ => true | None => false end.
(** What a device of the handlers sees: a handler's writes one after the other; in between the pins of [st]
    rest, the others may change their level, not their direction. *)
Inductive drift (qs : list (Z * Z)) (st : list ((Z * Z) * bool)) : list (option bool) -> list pev -> list (list (option bool)) -> Prop :=
| dr_nil : forall ls, drift qs st ls [] []
| dr_step : forall ls ls' evs t, map is_out ls' = map is_out ls -> rests_at qs st ls' -> drift qs st ls' evs t -> drift qs st ls (PStep :: evs) (ls' :: t)
| dr_isr : forall ls cs a evs t, lingers ls a (levels qs ls (p_own cs)) -> drift qs st (last a ls) evs t ->
    drift qs st ls (PIsr cs :: evs) (a ++ t).

(** ** The shift registers at three pins: [chip_step] for the pins that have moved. *)
Definition s3_pins (x : s3) : list (Z * Z) := [s_data x; s_clock x; s_latch x].
Definition s3_real (x : s3) : Prop := NoDup (s3_pins x) /\ Forall pin_real (s3_pins x).
Definition chip_look (c : chip) (ls : list (option bool)) : chip :=
  match ls with
  | [Some d; Some k; Some l] => chip_step (chip_step (chip_step c (PData, d)) (PClock, k)) (PLatch, l)
  | _ => c
  end.
Fixpoint chips (c : chip) (t : list (list (option bool))) : list chip :=
  match t with [] => [] | ls :: r => chip_look c ls :: chips (chip_look c ls) r end.
Definition chip_levels (c : chip) : list (option bool) := [Some (data c); Some (clock c); Some (latch c)].
(** The chips after each pin write. *)
Fixpoint chip_moments (c : chip) (es : list event) : list chip :=
  match es with [] => [] | e :: r => chip_step c e :: chip_moments (chip_step c e) r end.
(** Calls whose pin writes are those of [es], among other calls. *)
Definition s3_writes (x : s3) (cs : list pcall) (es : list event) : Prop := p_own cs = p_own (map (s3_call x) es).
(** WriteReverse of one value after the other, of arrays of [w] bits. *)
Fixpoint reverses (iw w : Z) (bs : list Z) : option (list event) :=
  match bs with
  | [] => Some []
  | b :: r => match write_reverse iw w b, reverses iw w r with Some e, Some es => Some (e ++ es) | _, _ => None end
  end.
(** The handlers call WriteReverse with the values [bs], each handler some of them. *)
Fixpoint sends (iw w : Z) (x : s3) (evs : list pev) (bs : list Z) : Prop :=
  match evs with
  | [] => bs = []
  | PStep :: r => sends iw w x r bs
  | PIsr cs :: r => exists b1 b2 es, bs = b1 ++ b2 /\ reverses iw w b1 = Some es /\ s3_writes x cs es /\ sends iw w x r b2
  end.
(** The outputs of a chain after the values [bs]. *)
Definition chain_outs (w : Z) (old : list bool) (bs : list Z) : list bool :=
  fold_left (fun o b => rev (low_bits b 0 (Z.to_nat w)) ++ firstn (length o - Z.to_nat w) o) bs old.
(** Between calls clock and latch are low. *)
Definition s3_rest (x : s3) : list ((Z * Z) * bool) := [(s_clock x, false); (s_latch x, false)].
(** Three pins of port A; all outputs, all low. *)
Definition s3_a : s3 := mkS3 (0, 0) (0, 1) (0, 2).
Definition s3_regs : regs := fun a => if a =? 33 then 255 else 0.
Definition chip_zero : chip := {| data := false; clock := false; latch := false; reg := repeat false 8; outs := repeat false 8 |}.
(** The pin writes among what the devices of a chain do, and the display's lines at the chips. *)
Fixpoint pin_events (es : list cev) : list event := match es with [] => [] | CPin e :: r => e :: pin_events r | CPwm _ _ :: r => pin_events r end.
Definition chip_lines (w : Z) (ix : indices) (c : chip) : lines := lines_at w ix (mkWires c (fun _ => 0)).
(** The program's calls for one value and for a handler's value. *)
Definition rev_calls (x : s3) (w b : Z) : list pcall := match write_reverse w w b with Some es => map (s3_call x) es | None => [] end.
(** The calls other than those to the device's own pins leave the pins [qs] alone. *)
Definition else_leaves (qs : list (Z * Z)) (cs : list pcall) : Prop :=
  Forall (fun c => match c with POwn _ _ => True | POther o => leaves qs o end) cs.
Definition pev_leaves (qs : list (Z * Z)) (e : pev) : Prop := match e with PStep => True | PIsr cs => else_leaves qs cs end.
Definition no_common (qs qs' : list (Z * Z)) : Prop := forall q, In q qs -> ~ In q qs'.
