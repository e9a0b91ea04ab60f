(** The display and time: an HD44780 does not listen while it is busy. *)
Require Import ZArith List Bool.
Import ListNotations.
From Verif Require Import Base HdModel HdSpec HdTimeModel.
Open Scope Z_scope.

(** ** A display with its execution times, in microseconds: after half a byte, for clear and home, for
    the other commands, for a character; after power-on; and for the first two bytes it takes. *)
Record device := { d_half : Z; d_slow : Z; d_fast : Z; d_data : Z; d_power : Z; d_first : Z; d_second : Z }.
(** Hitachi data sheet, at 270 kHz and 4.5 V or more. *)
Definition datasheet : device :=
  {| d_half := 1; d_slow := 1520; d_fast := 37; d_data := 41; d_power := 15000; d_first := 4100; d_second := 100 |}.

(** State: interface mode, time it is still busy, times of the first bytes after power-on. *)
Record dstate := { dm : mode; busy : Z; boot : list Z }.
Definition exec_time (dv : device) (t : taken) : Z :=
  let (r, b) := t in if (r : bool) then d_data dv else if b <? 4 then d_slow dv else d_fast dv.
Definition passes (s : dstate) (d : Z) : dstate := {| dm := dm s; busy := Z.max 0 (busy s - d); boot := boot s |}.
(** An edge with the display not busy. *)
Definition takes (dv : device) (lo : Z) (s : dstate) (r : bool) (n : Z) : dstate * list taken :=
  let (m, ts) := edge lo (dm s) r n in
  match ts, boot s with
  | [], bs => ({| dm := m; busy := d_half dv; boot := bs |}, ts)
  | _ :: _, b :: bs => ({| dm := m; busy := b; boot := bs |}, ts)
  | t :: _, [] => ({| dm := m; busy := exec_time dv t; boot := [] |}, ts)
  end.
(** The display over steps with their durations; [None] if an edge comes while it is busy.  What is
    put on the lines is there at the end of the step. *)
Fixpoint hears (dv : device) (lo : Z) (l : lines) (s : dstate) (tr : list (act lines * Z)) : option (dstate * list taken) :=
  match tr with
  | [] => Some (s, [])
  | (Wait _, d) :: rest => hears dv lo l (passes s d) rest
  | (Put l', d) :: rest =>
      let s := passes s d in
      if en l && negb (en l') then
        if busy s >? 0 then None
        else
          let (s, t) := takes dv lo s (rs l') (nibble l') in
          match hears dv lo l' s rest with Some (s, ts) => Some (s, t ++ ts) | None => None end
      else hears dv lo l' s rest
  end.
(** Steps may take longer than asked for; [c] is the least time of a write to the pins or the bus. *)
Definition lasts (c : Z) (x : act lines * Z) : Prop :=
  match fst x with Put _ => c <= snd x | Wait t => t <= snd x end.
Definition takes_at_least (c : Z) (acts : list (act lines)) (tr : list (act lines * Z)) : Prop :=
  map fst tr = acts /\ Forall (lasts c) tr.
Definition on_lines {A : Type} (f : A -> lines) (a : act A) : act lines :=
  match a with Put x => Put (f x) | Wait t => Wait t end.

(** ** When a profile is enough.  Writes between two edges: [nib] for a nibble up to its falling edge,
    [pre] more in front of a command or character; and one for the rising edge. *)
Definition covers (nib pre : Z) (p : profile) (dv : device) (c : Z) : Prop :=
  d_half dv <= p_pulse p + (1 + nib) * c /\
  d_data dv <= p_pulse p + (1 + pre + nib) * c /\
  d_fast dv <= p_pulse p + p_command p + (1 + pre + nib) * c /\
  d_slow dv <= p_pulse p + p_command_long p + (1 + pre + nib) * c.
Definition covers_start (nib pre : Z) (p : profile) (dv : device) (c : Z) : Prop :=
  d_power dv <= p_power p + nib * c /\
  d_first dv <= p_pulse p + p_init_long p + (1 + nib) * c /\
  d_second dv <= p_pulse p + p_init p + (1 + nib) * c /\
  d_fast dv <= p_pulse p + p_init_short p + (1 + nib) * c /\
  d_fast dv <= p_pulse p + (1 + pre + nib) * c.
(** Writes per nibble and before a byte, of the three drivers. *)
Definition covers_parallel := covers 5 1.
Definition covers_i2c := covers 2 1.
Definition covers_3wire := covers 2 0.

Definition profile_ok (p : profile) : Prop :=
  0 <= p_power p /\ 0 <= p_init_long p /\ 0 <= p_init p /\ 0 <= p_init_short p /\
  0 <= p_command p /\ 0 <= p_command_long p /\ 0 <= p_pulse p.
(** Calls with arguments in range, other than a full initialisation. *)
Definition call_ok (o : call) : Prop :=
  match o with
  | OnView (VChar ch) => 0 <= ch < 256
  | OnView (VCursor r c) => 0 <= r < 256 /\ 0 <= c < 256
  | OnView VHome => True
  | OnView (VInit full) => full = false
  | OnCtl o => no_init o /\ cop_ok o
  end.
Definition state_ok (s : Z * view) : Prop :=
  0 <= fst s < 256 /\ 0 <= row (snd s) < 256 /\ 0 <= col (snd s) < 256.
(** The driver calls without the delays, and the same calls in the model without time. *)
Fixpoint driver_calls (os : list top) : list dop :=
  match os with [] => [] | TOp o :: rest => o :: driver_calls rest | TWait _ :: rest => driver_calls rest end.
Definition plain_call (iw rows : Z) (s : Z * view) (o : call) : option (Z * view * list dop) :=
  match o with
  | OnCtl o => bindo (ctl_op iw (fst s) o) (fun a => Some (fst a, snd s, snd a))
  | OnView (VInit true) =>
      bindo (view_op rows (snd s) (VInit true)) (fun a =>
      bindo (ctl_op iw (fst s) (CEntry true false)) (fun b => Some (fst b, fst a, snd a)))
  | OnView o => bindo (view_op rows (snd s) o) (fun a => Some (fst s, fst a, snd a))
  end.
Fixpoint plain_calls (iw rows : Z) (s : Z * view) (os : list call) : option (Z * view * list dop) :=
  match os with
  | [] => Some (s, [])
  | o :: rest => bindo (plain_call iw rows s o) (fun a =>
                 bindo (plain_calls iw rows (fst a) rest) (fun b => Some (fst b, snd a ++ snd b)))
  end.
(** A display in 4-bit mode with nothing to do, and one that just got power. *)
Definition idle : dstate := {| dm := M4; busy := 0; boot := [] |}.
Definition powered (dv : device) : dstate := {| dm := M8; busy := d_power dv; boot := [d_first dv; d_second dv] |}.
(** The bytes of a full initialisation in the order they are taken, from power-on. *)
Definition init_bytes (lo : Z) : list taken :=
  [(false, 48 + lo); (false, 48 + lo); (false, 48 + lo); (false, 32 + lo); (false, 40); (false, 1); (false, 2); (false, 6)].
(** Steps that take exactly as long as asked. *)
Definition exactly (c : Z) (acts : list (act lines)) : list (act lines * Z) :=
  map (fun a => (a, match a with Put _ => c | Wait t => t end)) acts.
(** Every history of calls reaches the display on time, however long the steps take: for a driver that
    starts with the lines [l] and turns calls with delays into steps. *)
Definition never_busy (p : profile) (dv : device) (c iw : Z) (l : lines) (driver : list top -> option (list (act lines))) : Prop :=
  forall lo rows s cs s' os acts tr, 0 <= lo < 16 -> rows_ok rows -> state_ok s -> Forall call_ok cs ->
  t_calls p iw rows s cs = Some (s', os) -> driver os = Some acts -> takes_at_least c acts tr -> hears dv lo l idle tr <> None.
Definition by_pins (p : profile) (l : lines) (os : list top) : option (list (act lines)) := Some (snd (t_par_run p l os)).
Definition by_i2c (p : profile) (iw r : Z) (os : list top) : option (list (act lines)) :=
  bindo (t_i2c_run p iw r os) (fun a => Some (map (on_lines i2c_lines) (snd a))).
Definition by_3wire (p : profile) (iw w : Z) (ix : indices) (r : Z) (os : list top) : option (list (act lines)) :=
  bindo (t_w3_run p iw w ix r os) (fun a => Some (map (on_lines (w3_lines ix)) (snd a))).
(** The delays in the comments of HD44780_Profile.h. *)
Definition commented_profile : profile :=
  {| p_power := 1000 * 50; p_init_long := 4100; p_init := 100; p_init_short := 40;
     p_command := 40; p_command_long := 1640; p_pulse := 37 |}.
(** The pins and the objects as they are constructed. *)
Definition start_lines : lines := {| rs := false; en := true; d4 := false; d5 := false; d6 := false; d7 := false |}.
Definition at0 : Z * view := (0, {| row := 0; col := 0 |}).
