(** C100: when two USARTs understand each other. *)
Require Import ZArith List Bool.
Import ListNotations.
From Verif Require Import Base AvrModel AvrSpec WireModel.
Open Scope Z_scope.

(** Frames that follow one another on the line, the first not before [t0]. *)
Fixpoint in_turn (T t0 : Z) (fs : list (Z * list bool)) : Prop :=
  match fs with
  | [] => True
  | (s, bs) :: rest => t0 <= s /\ in_turn T (s + T * Z.of_nat (length bs)) rest
  end.
(** A frame with start bit, [last] - 1 bits, and stop bits. *)
Definition framed (last : nat) (bs : list bool) : Prop :=
  (last < length bs)%nat /\ nth 0 bs true = false /\ forall k, (last <= k)%nat -> nth k bs true = true.

(** How many of some bits are high; two of three samples say [b]. *)
Definition highs (bs : list bool) : Z := fold_right Z.add 0 (map Z.b2z bs).
Definition most (b : bool) (xs : list bool) : Prop := (2 <= length (filter (Bool.eqb b) xs))%nat.

(** The three samples of the stop bit fall into it, wherever between two samples the start bit began:
    [T] is the time of a bit, [q] the time between samples. *)
Definition tolerable (samples middle last : nat) (T q : Z) : Prop :=
  Z.of_nat last * T <= (Z.of_nat last * Z.of_nat samples + Z.of_nat middle - 2) * q /\
  (Z.of_nat last * Z.of_nat samples + Z.of_nat middle + 1) * q <= (Z.of_nat last + 1) * T.

(** Samples are [q] apart, number 0 at time [a]. *)
Definition sampled (T q a : Z) (fs : list (Z * list bool)) (i : Z) : bool := level T fs (a + i * q).

(** The frames of characters that are sent at given times. *)
Definition frames_of (n : nat) (p : parity) (two : bool) (cs : list (Z * Z)) : list (Z * list bool) :=
  map (fun c => (fst c, encode n p two (snd c))) cs.

(** What the USART [id2] of a board with clock [G] makes of characters that the USART [id1] of a board with clock
    [F] begins to send at the given times: [m] samples, the first at time [a].  Both look at the same line and go by
    their registers; characters of 5 to 8 bits. *)
Definition heard (F G : Z) (m1 : regs) (id1 : Z) (m2 : regs) (id2 : Z) (cs : list (Z * Z)) (a : Z) (m : nat)
  : option (list (Z * bool * bool)) :=
  match hw_frame m1 id1, hw_frame m2 id2 with
  | Some (n1, p1, two), Some (n2, p2, _) =>
      let T := bit_time G (hw_divider m1 id1) (hw_ubrr m1 id1) in
      let q := sample_time F (hw_ubrr m2 id2) in
      let d := hw_divider m2 id2 in
      Some (map (decode (Z.to_nat n2) p2)
             (snd (rcv_run (speed_samples d) (speed_middle d) (last_bit (Z.to_nat n2) p2)
                     (sampled T q a (frames_of (Z.to_nat n1) p1 two cs)) (WIdle true) 0 m)))
  | _, _ => None
  end.
(** The registers of a USART opened with a configuration. *)
Definition opened (m : regs) (id : Z) (c : ucfg) : regs := fst (rstep m (Open id c)).
(** The time a frame takes with a configuration, the other board's clock being [G]. *)
Definition frame_bits (c : ucfg) : Z :=
  7 + c_bits c + (match c_par c with POff => 0 | _ => 1 end) + (if c_two c then 1 else 0).
Definition frame_time (G : Z) (c : ucfg) : Z := bit_time G (c_div c) (c_ubrr c) * frame_bits c.
(** Characters sent one after the other, the first not before [t0]. *)
Fixpoint spaced (len t0 : Z) (cs : list (Z * Z)) : Prop :=
  match cs with [] => True | (s, _) :: rest => t0 <= s /\ spaced len (s + len) rest end.
Definition opposite (p p' : parity) : bool :=
  match p, p' with PEven, POdd | POdd, PEven => true | _, _ => false end.
(** The first [c] characters are heard; each that is over has been, and none before its stop bit. *)
Definition hears (len stop : Z) (cs : list (Z * Z)) (until : Z) (c : nat) : Prop :=
  (c <= length cs)%nat /\
  forall k s d, nth_error cs k = Some (s, d) ->
    (s + len <= until -> (k < c)%nat) /\ ((k < c)%nat -> s + stop <= until).
