(** What the Arduino adapters and pins should do. *)
Require Import ZArith List Bool.
Import ListNotations.
From Verif Require Import Base MidiModel MidiSpec HdModel HdSpec ArduinoModel.
Open Scope Z_scope.

(** ** Streams *)
Definition is_byte (b : Z) : Prop := 0 <= b < 256.
Definition aop_ok (o : aop) : Prop := match o with AReceive _ b => is_byte b | _ => True end.
Definition at_port (c : option nat) (k : nat) : bool := match c with Some j => Nat.eqb j k | None => false end.
(** The bytes written while port [k] is attached; [c]: the port attached now. *)
Fixpoint written_to (k : nat) (c : option nat) (ops : list aop) : list Z :=
  match ops with
  | [] => []
  | AOut c :: rest => written_to k c rest
  | AWrite b :: rest => (if at_port c k then [b mod 256] else []) ++ written_to k c rest
  | _ :: rest => written_to k c rest
  end.
(** The bytes that arrive at port [k]. *)
Fixpoint received_at (k : nat) (ops : list aop) : list Z :=
  match ops with
  | [] => []
  | AReceive j b :: rest => (if Nat.eqb j k then [b] else []) ++ received_at k rest
  | _ :: rest => received_at k rest
  end.
(** The bytes Read has answered while port [k] was attached. *)
Fixpoint read_from (k : nat) (c : option nat) (ops : list aop) (answers : list Z) : list Z :=
  match ops, answers with
  | AIn c :: rest, _ :: vs => read_from k c rest vs
  | ARead :: rest, v :: vs => (if at_port c k && negb (v =? -1) then [v] else []) ++ read_from k c rest vs
  | _ :: rest, _ :: vs => read_from k c rest vs
  | _, _ => []
  end.
(** The port attached after the calls. *)
Definition in_after (c : option nat) (o : aop) : option nat := match o with AIn c => c | _ => c end.
(** Does Clear get called while port [k] is attached? *)
Fixpoint clears (k : nat) (c : option nat) (ops : list aop) : bool :=
  match ops with
  | [] => false
  | o :: rest => (match o with AClear => at_port c k | _ => false end) || clears k (in_after c o) rest
  end.

(** ** MIDI *)
Definition k_written (ops : list kop) : list w_op := flat_map (fun o => match o with KWrite o => [o] | _ => [] end) ops.
Definition k_reports (p : midi_ports) : list report := map seen (k_notes p).
(** A clock and 32 notes unread, then one more note. *)
Definition flood : list kop :=
  let n i := KWrite (WMessage (mkMsg 144 0 (Z.of_nat i) 100)) in
  [KWrite (WType 248)] ++ map n (seq 1 32) ++ repeat KArrive 66 ++ repeat KRead 63 ++ [n 33%nat; KArrive; KArrive; KRead; KRead].

(** ** Pins: what the world sees at a pin. *)
Inductive signal := SInput (pullup : bool) | SLevel (v : bool) | SPwm (duty : Z).
Definition signal_of (p : pin) : signal :=
  if p_ddr p then match p_pwm p with Some v => SPwm v | None => SLevel (p_latch p) end else SInput (p_latch p).
Definition pin_of (o : pop) : Z :=
  match o with
  | POut n | POutInit n _ | PWrite n _ | PValue n | PToggle n | PAnalog n _ | PIn n | PRead n | PPullup n _ => n
  end.
(** Only pins on a timer can have their compare output on. *)
Definition sane (timer : Z -> bool) (b : board) : Prop := forall n, timer n = false -> p_pwm (b n) = None.
(** The value of a digital output, and the calls that make pin [n] one. *)
Definition digital_on (n : Z) (o : pop) : Prop :=
  pin_of o = n -> match o with POut _ | POutInit _ _ | PWrite _ _ | PValue _ | PToggle _ => True | _ => False end.
Definition value_after (n : Z) (v : bool) (o : pop) : bool :=
  if pin_of o =? n then match o with POutInit _ w | PWrite _ w => w | PToggle _ => negb v | _ => v end else v.
Definition value_of (n : Z) (v : bool) (ops : list pop) : bool := fold_left (value_after n) ops v.
(** What getValue of pin [n] should answer, and what it did answer. *)
Fixpoint values (n : Z) (v : bool) (ops : list pop) : list bool :=
  match ops with
  | [] => []
  | o :: rest => (match o with PValue m => if m =? n then [v] else [] | _ => [] end) ++ values n (value_after n v o) rest
  end.
Fixpoint answers (n : Z) (ops : list pop) (vs : list bool) : list bool :=
  match ops, vs with
  | PValue m :: rest, v :: vs => (if m =? n then [v] else []) ++ answers n rest vs
  | _ :: rest, _ :: vs => answers n rest vs
  | _, _ => []
  end.
(** A timer pin gives the duty cycle, other pins the nearer level. *)
Definition analog_signal (timer : bool) (v : Z) : signal :=
  if v =? 0 then SLevel false else if v =? 255 then SLevel true else if timer then SPwm v else SLevel (128 <=? v).

(** The lines of a display at six pins; a pin that is not a steady output counts as low. *)
Definition level (p : pin) : bool := match signal_of p with SLevel v => v | _ => false end.
Definition lcd_lines (x : lcd_pins) (b : board) : lines :=
  {| rs := level (b (n_rs x)); en := level (b (n_en x)); d4 := level (b (n_d4 x)); d5 := level (b (n_d5 x));
     d6 := level (b (n_d6 x)); d7 := level (b (n_d7 x)) |}.
Definition lcd_list (x : lcd_pins) : list Z := [n_rs x; n_en x; n_d4 x; n_d5 x; n_d6 x; n_d7 x].
