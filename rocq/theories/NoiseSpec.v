(** C102: what may be stored of what is heard. *)
Require Import ZArith List Bool.
Import ListNotations.
From Verif Require Import Base AvrModel AvrSpec WireModel WireSpec RingModel StreamModel HwRxModel HwRxSpec NoiseModel.
Open Scope Z_scope.

(** The characters without frame or parity error. *)
Definition sound (l : list (Z * bool * bool)) : list Z :=
  map (fun c => fst (fst c)) (filter (fun c => negb (snd (fst c)) && negb (snd c)) l).
(** As [deliver]: characters with their fate ([true]: kept); a kept one has the overrun flag iff the one before it was
    lost. *)
Fixpoint handed (lost : bool) (o : list (Z * bool * bool * bool)) : list (Z * bool * bool * bool) :=
  match o with
  | [] => []
  | (c, true) :: rest => (c, lost) :: handed false rest
  | (c, false) :: rest => handed true rest
  end.
(** The characters without any of the three flags. *)
Definition flawless (l : list (Z * bool * bool * bool)) : list Z := sound (map fst (filter (fun c => negb (snd c)) l)).
Definition place (c : Z * bool * bool * bool) : Z * bool := (word (fst c), snd c).

(** The line and the handler as the receive buffer sees them, with times. *)
Fixpoint ntimed (Size : Z) (p : port) (evs : list (Z * pev)) : list (Z * uev) :=
  match evs with
  | [] => []
  | (t, e) :: rest =>
      map (fun u => (t, u))
        (match e with
         | PStart => [UStart]
         | PStop d => [UStop d]
         | PIsr => if r_ien (p_rx p) then [UTake] else []
         | PRead | PStep => []
         end) ++ match nport_step Size p e with Some p' => ntimed Size p' rest | None => [] end
  end.
(** The values Read answered and the one it is about to answer. *)
Definition answered (s : rxs) : list Z :=
  filter (fun v => 0 <=? v) (r_got s) ++ match r_pc s with RWrap v => [v] | _ => [] end.

(** [n] characters 247 without a pause from time 0 on, and one more; what they are from their second falling edge on:
    223 each, and 255 at the end. *)
Definition train (T : Z) (n : nat) : list (Z * Z) := map (fun k => (10 * T * Z.of_nat k, 247)) (seq 0 (S n)).
Definition shifted (T : Z) (n : nat) : list (Z * Z) :=
  map (fun k => (10 * T * Z.of_nat k + 4 * T, 223)) (seq 0 n) ++ [(10 * T * Z.of_nat n + 4 * T, 255)].

(** The levels that the USART [id2] of the one board finds when that of the other, [id1], sends characters at the given
    times (as in [heard]): sample number [i]. *)
Definition line_of (F G : Z) (m1 : regs) (id1 : Z) (m2 : regs) (id2 : Z) (cs : list (Z * Z)) (a i : Z) : bool :=
  match hw_frame m1 id1 with
  | Some (n1, p1, two) =>
      sampled (bit_time G (hw_divider m1 id1) (hw_ubrr m1 id1)) (sample_time F (hw_ubrr m2 id2)) a (frames_of (Z.to_nat n1) p1 two cs) i
  | None => true
  end.
(** The handler stored all it meant to. *)
Definition none_refused (p : port) : Prop := length (r_acc (p_rx p)) = length (filter stores (p_taken p)).
