(** When the delays of a profile are enough for a display, if they are made by Delay.h. *)
Require Import ZArith List Bool.
Import ListNotations.
From Verif Require Import Base HdModel HdSpec HdTimeModel HdTimeSpec DelayModel DelaySpec HdDelayModel.
Open Scope Z_scope.

Definition board_ok (b : board) : Prop :=
  match b with Core short long => 16 <= short /\ 20 <= long | Bare k => 1 <= k <= 16 end.
(** Delays are uint32_t. *)
Definition delays_ok (p : profile) : Prop :=
  Forall (fun t => 0 <= t < 4294967296) [p_init_long p; p_init p; p_init_short p; p_command p; p_command_long p; p_pulse p].
(** The display's times in cycles. *)
Definition in_cycles (k : Z) (dv : device) : device :=
  {| d_half := k * d_half dv; d_slow := k * d_slow dv; d_fast := k * d_fast dv; d_data := k * d_data dv;
     d_power := k * d_power dv; d_first := k * d_first dv; d_second := k * d_second dv |}.
(** A display that needs [t] more after power-on. *)
Definition slower_start (t : Z) (dv : device) : device :=
  {| d_half := d_half dv; d_slow := d_slow dv; d_fast := d_fast dv; d_data := d_data dv;
     d_power := d_power dv + t; d_first := d_first dv; d_second := d_second dv |}.
(** The profile in cycles as the delays really are; [pw] after power-on. *)
Definition effective (b : board) (pw : Z) (p : profile) : profile :=
  {| p_power := pw; p_init_long := us_least b (p_init_long p); p_init := us_least b (p_init p);
     p_init_short := us_least b (p_init_short p); p_command := us_least b (p_command p);
     p_command_long := us_least b (p_command_long p); p_pulse := us_least b (p_pulse p) |}.
(** The least cycles of a delay in milliseconds. *)
Definition ms_least (b : board) (ms : Z) : Z :=
  match b with
  | Core _ _ => 16000 * ms - 63
  | Bare k => match delay_cycles (1000000 * k) 1000 ms with Some n => n | None => 0 end
  end.
(** Every history of calls reaches the display on time; [c] in cycles. *)
Definition served (b : board) (p : profile) (dv : device) (c iw : Z) (l : lines) (driver : list top -> option (list (act lines))) : Prop :=
  forall lo rows s cs s' os acts tr, 0 <= lo < 16 -> rows_ok rows -> state_ok s -> Forall call_ok cs ->
  t_calls p iw rows s cs = Some (s', os) -> driver os = Some acts -> runs_all b c acts tr ->
  hears (in_cycles (clock b) dv) lo l idle tr <> None.
(** The same profile with another delay for the slow commands; every delay of [q] as in [p] or longer. *)
Definition with_long (p : profile) (t : Z) : profile :=
  {| p_power := p_power p; p_init_long := p_init_long p; p_init := p_init p; p_init_short := p_init_short p;
     p_command := p_command p; p_command_long := t; p_pulse := p_pulse p |}.
