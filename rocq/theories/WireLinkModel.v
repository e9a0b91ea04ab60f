(** C101: the sampling receiver of [WireModel] in front of the receive buffer of [HwRxModel], with the software of
    the receiving board in between: after each sample any number of handler runs, calls of Read and steps of Read
    (AVR/UsartInputStream.h 59-68, 73-88). *)
Require Import ZArith List Bool.
Import ListNotations.
From Verif Require Import Base AvrModel AvrSpec WireModel WireSpec RingModel StreamModel HwRxModel HwRxSpec.
Open Scope Z_scope.

Section Line.
Variables (samples middle last : nat) (n : nat) (par : parity).
(** What a sample makes of the buffer: the vote on the start bit is the start of a character, the vote on the stop
    bit its end.  A frame or parity error is [None]: the buffer of [HwRxModel] has no flags for them. *)
Definition line_step (r : rcv) (x : bool) : option (rcv * list pev) :=
  let (r', out) := rcv_step samples middle last r x in
  match out with
  | [] => Some (r', match r' with WBusy xs => if Nat.eqb (length xs) (middle + 1) then [PStart] else [] | WIdle _ => [] end)
  | f :: _ => let '(d, fe, pe) := decode n par f in if fe || pe then None else Some (r', [PStop d])
  end.
(** Events with the number of the sample before them; [sched]: the software after each sample. *)
Fixpoint line_events (f : Z -> bool) (r : rcv) (i : Z) (sched : list (list pev)) : option (list (Z * pev)) :=
  match sched with
  | [] => Some []
  | sw :: rest =>
      match line_step r (f i) with
      | Some (r', hw) =>
          match line_events f r' (i + 1) rest with
          | Some evs => Some (map (fun e => (i, e)) (hw ++ sw) ++ evs)
          | None => None
          end
      | None => None
      end
  end.
End Line.

(** Events of the software. *)
Definition software (e : pev) : bool := match e with PIsr | PRead | PStep => true | PStart | PStop _ => false end.

(** As [heard], with the software. *)
Definition receiving (F G : Z) (m1 : regs) (id1 : Z) (m2 : regs) (id2 : Z) (cs : list (Z * Z)) (a : Z)
  (sched : list (list pev)) : option (list (Z * pev)) :=
  match hw_frame m1 id1, hw_frame m2 id2 with
  | Some (n1, p1, two), Some (n2, p2, _) =>
      let T := bit_time G (hw_divider m1 id1) (hw_ubrr m1 id1) in
      let q := sample_time F (hw_ubrr m2 id2) in
      let d := hw_divider m2 id2 in
      line_events (speed_samples d) (speed_middle d) (last_bit (Z.to_nat n2) p2) (Z.to_nat n2) p2
        (sampled T q a (frames_of (Z.to_nat n1) p1 two cs)) (WIdle true) 0 sched
  | _, _ => None
  end.

(** The line and the handler as the receive buffer sees them, with times. *)
Fixpoint timed (Size : Z) (p : port) (evs : list (Z * pev)) : list (Z * uev) :=
  match evs with
  | [] => []
  | (t, e) :: rest =>
      map (fun u => (t, u))
        (match e with
         | PStart => [UStart]
         | PStop d => [UStop d]
         | PIsr => if r_ien (p_rx p) then [UTake] else []
         | PRead | PStep => []
         end) ++ match port_step Size p e with Some p' => timed Size p' rest | None => [] end
  end.
