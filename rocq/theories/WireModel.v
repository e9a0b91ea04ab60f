(** C100: characters as levels on a line between two USARTs, each set up by Usart.h and UsartConfig.h and running
    from its own clock.

    The hardware follows the ATmega data sheet, sections "Frame Formats", "Asynchronous Clock Recovery" and
    "Asynchronous Data Recovery": the transmitter gives each bit of a frame the same time; the receiver looks at
    the line 16 (with double speed 8) times a bit, takes the first low sample after a high one as the first of a
    start bit, and decides each bit by the majority of the samples 8, 9 and 10 (4, 5 and 6).  A start bit voted
    high is rejected.  Of the stop bits the receiver looks at the first only, and it looks for the next start bit
    right after the last sample used for it. *)
Require Import ZArith List Bool.
Import ListNotations.
From Verif Require Import Base AvrModel.
Open Scope Z_scope.

(** ** Frames: size, parity and two stop bits as in the registers *)
Definition data_bits (n : nat) (d : Z) : list bool := map (fun i => Z.testbit d (Z.of_nat i)) (seq 0 n).
Definition ones (bs : list bool) : bool := fold_right xorb false bs.
Definition parity_bit (p : parity) (bs : list bool) : list bool :=
  match p with POff => [] | PEven => [ones bs] | POdd => [negb (ones bs)] end.
Definition encode (n : nat) (p : parity) (two : bool) (d : Z) : list bool :=
  false :: data_bits n d ++ parity_bit p (data_bits n d) ++ true :: (if two then [true] else []).
(** Bits up to the first stop bit, without the start bit. *)
Definition last_bit (n : nat) (p : parity) : nat := (match p with POff => S n | _ => S (S n) end)%nat.

Definition number (bs : list bool) : Z := fold_right (fun b a => Z.b2z b + 2 * a) 0 bs.
(** The character, the frame error and the parity error flag of a received frame. *)
Definition decode (n : nat) (p : parity) (f : list bool) : Z * bool * bool :=
  let data := firstn n (tl f) in
  (number data, negb (nth (last_bit n p) f true),
   match p with
   | POff => false
   | _ => negb (Bool.eqb (nth (S n) f false) (hd false (parity_bit p data)))
   end).

(** ** The line: frames with the time at which they begin, [T] for each bit; high otherwise *)
Fixpoint level (T : Z) (fs : list (Z * list bool)) (t : Z) : bool :=
  match fs with
  | [] => true
  | (s, bs) :: rest =>
      if (s <=? t) && (t <? s + T * Z.of_nat (length bs)) then nth (Z.to_nat ((t - s) / T)) bs true
      else level T rest t
  end.

(** ** The receiver, sample by sample *)
Section Receiver.
Variables (samples middle : nat) (last : nat).   (* 16 and 9, or 8 and 5; the number of the first stop bit *)
Definition maj (a b c : bool) : bool := (a && b) || (a && c) || (b && c).
(** The vote on bit [k]; [xs] are the samples since the start bit began. *)
Definition vote (xs : list bool) (k : nat) : bool :=
  let at_ j := nth (k * samples + j) xs true in maj (at_ (middle - 2)%nat) (at_ (middle - 1)%nat) (at_ middle).

Inductive rcv := WIdle (previous : bool) | WBusy (xs : list bool).
Definition rcv_step (r : rcv) (x : bool) : rcv * list (list bool) :=
  match r with
  | WIdle previous => (if previous && negb x then WBusy [x] else WIdle x, [])
  | WBusy xs =>
      let xs := xs ++ [x] in
      if Nat.eqb (length xs) (middle + 1) && vote xs 0 then (WIdle x, [])
      else if Nat.eqb (length xs) (last * samples + middle + 1)
           then (WIdle x, [map (vote xs) (seq 0 (S last))])
           else (WBusy xs, [])
  end.
(** [m] samples of the line [f], the first being number [i]. *)
Fixpoint rcv_run (f : Z -> bool) (r : rcv) (i : Z) (m : nat) : rcv * list (list bool) :=
  match m with
  | O => (r, [])
  | S k => let (r1, a) := rcv_step r (f i) in let (r2, b) := rcv_run f r1 (i + 1) k in (r2, a ++ b)
  end.
End Receiver.

(** ** Two USARTs.  Time in units of 1/(F G) seconds, F and G being the clocks of sender and receiver. *)
Definition speed_samples (d : Z) : nat := if d =? 8 then 8%nat else 16%nat.
Definition speed_middle (d : Z) : nat := if d =? 8 then 5%nat else 9%nat.
(** A bit lasts divider * (UBRR + 1) cycles; the receiver samples every UBRR + 1 cycles. *)
Definition bit_time (G d u : Z) : Z := d * (u + 1) * G.
Definition sample_time (F u : Z) : Z := (u + 1) * F.
