(** How long a delay should take. *)
Require Import ZArith List Bool.
Import ListNotations.
From Verif Require Import DelayModel HdTimeModel.
Open Scope Z_scope.

(** 16 cycles a microsecond. *)
Definition us_cycles (t : Z) : Z := 16 * t.
Definition ms_cycles (t : Z) : Z := 16000 * t.
(** Readings of a clock one after the other, at most [gap] cycles apart. *)
Fixpoint rising (now : Z) (polls : list Z) : Prop :=
  match polls with [] => True | c :: rest => now <= c /\ rising c rest end.
Fixpoint within (gap now : Z) (polls : list Z) : Prop :=
  match polls with [] => True | c :: rest => c <= now + gap /\ within gap c rest end.
(** Delays of a profile that the functions can make: all but the first in microseconds. *)
Definition in_reach (p : profile) : Prop :=
  (exists ms, 0 <= ms < 4294967296 /\ p_power p = 1000 * ms) /\
  Forall (fun t => 0 <= t <= 16385) [p_init_long p; p_init p; p_init_short p; p_command p; p_command_long p; p_pulse p].
