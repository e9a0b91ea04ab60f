(** HD44780_Driver*.h and HD44780_Controller.h with Delay.h: how long the drivers' delays really take, in cycles.
    The first one after power-on is in milliseconds (HD44780_Profile.h 36-40), the others in microseconds. *)
Require Import ZArith List Bool.
Import ListNotations.
From Verif Require Import Base HdModel HdTimeModel DelayModel DelaySpec.
Open Scope Z_scope.

(** Arduino/Delay_Arduino.h on a core at 16 MHz, or AVR/Delay_Avr.h at a number of MHz. *)
Inductive board := Core (short long : Z) | Bare (mhz : Z).
Definition clock (b : board) : Z := match b with Core _ _ => 16 | Bare k => k end.
(** Delay<Microseconds>::Wait takes at least as many cycles; one that is undefined may take no time. *)
Definition us_least (b : board) (t : Z) : Z :=
  match b with
  | Core short long => wait_us short long t
  | Bare k => match delay_cycles (1000000 * k) 1000000 t with Some n => n | None => 0 end
  end.
(** Delay<Milliseconds>::Wait may take so many cycles. *)
Definition ms_takes (b : board) (t d : Z) : Prop :=
  match b with
  | Core _ _ => exists now polls c, rising now polls /\ wait_ms t now polls = Some c /\ c - now <= d
  | Bare k => match delay_cycles (1000000 * k) 1000 t with Some n => n <= d | None => 0 <= d end
  end.
(** A step with its duration; [c] is the least time of a write. *)
Definition runs (b : board) (c : Z) (x : act lines * Z) : Prop :=
  match fst x with Put _ => c <= snd x | Wait t => us_least b t <= snd x end.
Definition runs_all (b : board) (c : Z) (acts : list (act lines)) (tr : list (act lines * Z)) : Prop :=
  map fst tr = acts /\ Forall (runs b c) tr.
(** From power-on: first the delay in milliseconds. *)
Definition starts (b : board) (ms c : Z) (acts : list (act lines)) (tr : list (act lines * Z)) : Prop :=
  exists d rest, tr = (Wait (1000 * ms), d) :: rest /\ map fst tr = acts /\ ms_takes b ms d /\ Forall (runs b c) rest.
