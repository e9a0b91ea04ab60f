(** What a blinking pin looks like. *)
Require Import ZArith List Bool.
Import ListNotations.
From Verif Require Import DelayModel DelaySpec DemoModel.
Open Scope Z_scope.

(** Levels that alternate, the first one being [v]. *)
Fixpoint alternates (v : bool) (l : list bool) : Prop :=
  match l with [] => True | x :: rest => x = v /\ alternates (negb v) rest end.
(** Distances between neighbours. *)
Fixpoint apart (f : Z -> Prop) (ts : list Z) : Prop :=
  match ts with
  | t :: rest => match rest with u :: _ => f (u - t) | [] => True end /\ apart f rest
  | [] => True
  end.
(** Rounds of loop: the clock is read at rising cycles, from the start of the delay on, where [now] is the end of the
    last round; with [g]: also at most 996 us apart, and rounds at most [g] cycles apart. *)
Fixpoint rounds_ok (ms now : Z) (rounds : list (Z * list Z)) : Prop :=
  match rounds with
  | [] => True
  | (gap, polls) :: rest => 0 <= gap /\ rising (now + gap) polls /\
      match wait_ms ms (now + gap) polls with Some c => rounds_ok ms c rest | None => True end
  end.
Fixpoint rounds_quick (g ms now : Z) (rounds : list (Z * list Z)) : Prop :=
  match rounds with
  | [] => True
  | (gap, polls) :: rest => gap <= g /\ within 15936 (now + gap) polls /\
      match wait_ms ms (now + gap) polls with Some c => rounds_quick g ms c rest | None => True end
  end.
(** All delays end. *)
Fixpoint rounds_end (ms now : Z) (rounds : list (Z * list Z)) : Prop :=
  match rounds with
  | [] => True
  | (gap, polls) :: rest => exists c, wait_ms ms (now + gap) polls = Some c /\ rounds_end ms c rest
  end.
