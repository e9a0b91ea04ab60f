(** What the example sketches should do. *)
Require Import ZArith List Bool.
Import ListNotations.
From Verif Require Import Base TimeSpec ButtonModel ButtonSpec HdModel HdSpec UiModel PageModel PageSpec TaskModel ArduinoModel ArduinoSpec SketchModel.
Open Scope Z_scope.

(** ** Text.  Lines that fit. *)
Definition text_fits (rows : Z) (t : list Z) : Prop := printable t /\ Z.of_nat (length t) <= width rows.
Definition no_text : Z -> Z -> Z := fun _ _ => 32.
(** The screen with text number y on row y. *)
Definition listing (ts : list (list Z)) (y x : Z) : Z := nth (Z.to_nat x) (nth (Z.to_nat y) ts []) 32.
(** The row that the k-th WriteLine really writes to, from 0: after the last row the top row comes twice. *)
Definition line_row (rows : Z) (k : nat) : Z := let j := Z.of_nat k mod (rows + 1) in if j =? rows then 0 else j.
Definition line_list (rows : Z) (ts : list (list Z)) : list piece :=
  map (fun q => (line_row rows (fst q), 0, snd q)) (combine (seq 0 (length ts)) ts).

(** The display switched on, scrolled home, with neither cursor nor blinking. *)
Definition display_plain (d : lcd) : Prop := disp d = true /\ curs d = false /\ blink d = false /\ off d = 0.

Definition screen_is (rows : Z) (d : lcd) (cells : Z -> Z -> Z) : Prop :=
  forall y x, 0 <= y < rows -> 0 <= x < width rows -> on_screen d y x = cells y x.

(** What the display takes from six pins, from the constructor of the driver on.  The timers do not drive
    the pins, and the latch of RS is low, as after a reset. *)
Definition seen_pins (lo : Z) (timer : Z -> bool) (outside : Z -> bool -> bool) (x : lcd_pins) (b : board) (m : mode) (os : list dop) :=
  let b1 := fst (p_run timer outside b (ArduinoModel.lcd_new x)) in
  watch lo (lcd_lines x b1) m (map (lcd_lines x) (p_trace timer outside b1 (flat_map (lcd_op x) os))).
Definition pins_free (timer : Z -> bool) (x : lcd_pins) (b : board) : Prop :=
  NoDup (lcd_list x) /\ sane timer b /\ (forall n, In n (lcd_list x) -> p_pwm (b n) = None) /\ p_latch (b (n_rs x)) = false.

(** ** Pages.  Pages without current control. *)
Definition fresh_page (c : ctl) : Prop :=
  match c with Box PageK st _ None _ => st = UiModel.Normal | _ => False end.
(** What n rounds after the first page show: page 0, 1, ..., and 0 again after the last. *)
Definition shown_pages (n : nat) (pages : list ctl) : list ctl :=
  map (fun k => nth (Nat.modulo k (length pages)) pages (Label UiModel.Normal 0 [])) (seq 0 (S n)).

(** The cells a page writes to. *)
Definition covers (text : Z -> list Z) (page : ctl) (y x : Z) : bool := existsb (fun q => inside q y x) (page_pieces text page).

(** ** Tasks
    The rounds in which a task fires, by the times of the rounds: it begins to wait in one round, fires
    in the first later round at least [timeout] after that, and begins again in the round after. *)
Fixpoint beat (timeout : Z) (since : option Z) (times : list Z) : list bool :=
  match times with
  | [] => []
  | t :: rest =>
      match since with
      | None => false :: beat timeout (Some t) rest
      | Some s => if timeout <=? t - s then true :: beat timeout None rest else false :: beat timeout since rest
      end
  end.
(** The first round only enters the task. *)
Definition task_beat (timeout : Z) (times : list Z) : list bool :=
  match times with [] => [] | _ :: rest => false :: beat timeout None rest end.
(** The clock at each round, starting from [now] and advancing by [dts]. *)
Fixpoint clock_times (now : Z) (dts : list Z) : list Z :=
  match dts with [] => [] | dt :: rest => now + dt :: clock_times (now + dt) rest end.
(** The rounds: the first at [now]. *)
Definition rounds (now : Z) (dts : list Z) : list Z := now :: clock_times now dts.
Definition task_ok (t : Z * Z * Z) : Prop := 0 < fst (fst t) < 65536 /\ 0 <= snd (fst t) < 4294967296.
(** Round [i] starts a wait: it is the first, or the task fired in the round before. *)
Definition starts (fired : list bool) (i : nat) : Prop := i = O \/ exists j, i = S j /\ nth j fired false = true.
(** The number of rounds of [dt] from the start of a wait to its end. *)
Definition wait_rounds (timeout dt : Z) : Z := Z.max 1 ((timeout + dt - 1) / dt).
Definition odd_count (l : list bool) : bool := fold_right xorb false l.

(** ** Button and lamp *)
Definition lamp_next (lamp : bool) (s : pstate) : bool :=
  match s with POpen => false | PClosed _ => true | PHold => negb lamp | _ => lamp end.
Fixpoint lamp_run (lamp : bool) (ss : list pstate) : list bool :=
  match ss with [] => [] | s :: rest => let l := lamp_next lamp s in l :: lamp_run l rest end.
Fixpoint rounds_at (now : Z) (rs : list (Z * bool * bool)) : list (Z * bool * bool) :=
  match rs with
  | [] => []
  | (dt, c, f) :: rest => (u32 (now + dt), c, f) :: rounds_at (now + dt) rest
  end.
