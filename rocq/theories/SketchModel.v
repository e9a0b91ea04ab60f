(** The sketches in Arduino Libraries/*/examples, composed from the models of the library: LCD.ino,
    I2CLCD.ino, Page.ino, PageController.ino, TimeoutTask.ino with OutputPinTask.h, Task.ino with
    CounterTask.h, PushButton.ino, DigitalInput.ino, Blink.ino.  Constants such as texts, pins and times
    are parameters.  Global objects start zeroed, as static storage does. *)
Require Import ZArith List Bool.
Import ListNotations.
From Verif Require Import Base HdModel TextModel UiModel PageModel TimeModel TaskModel ButtonModel ArduinoModel.
Open Scope Z_scope.

(** ** Text on a display: calls on TextWriter<HD44780_View<HD44780_Controller<driver>>>, with
    HD44780_DisplayWriter around it for pages.  State: controller register and view position. *)
Inductive tcall :=
| TInit                      (* HD44780_View.h 46-54: Initialize(true) *)
| TCtl (o : cop)             (* a call of the controller *)
| TText (t : list Z)         (* TextWriter.h 57-66: Write of a string *)
| TLine (t : list Z)         (* TextWriter.h 150-156: WriteLine of a string *)
| TDraw (ws : list wcall).   (* Display of a page: what it calls, PageModel.v *)
Section Text.
Variables iw rows : Z.
Definition t_call (s : Z * view) (c : tcall) : option (Z * view * list dop) :=
  match c with
  | TInit => bindo (ctl_run iw (fst s) [CInit true; CEntry true false]) (fun a => Some (fst a, snd s, snd a))
  | TCtl o => bindo (ctl_op iw (fst s) o) (fun a => Some (fst a, snd s, snd a))
  | TText t => dw_call iw rows s (WText t)
  | TLine t => bindo (write_line (Some t)) (fun t => dw_call iw rows s (WText t))
  | TDraw ws => dw_run iw rows s ws
  end.
Fixpoint t_run (s : Z * view) (cs : list tcall) : option (Z * view * list dop) :=
  match cs with
  | [] => Some (fst s, snd s, [])
  | c :: rest => bindo (t_call s c) (fun a => bindo (t_run (fst a) rest) (fun b => Some (fst b, snd a ++ snd b)))
  end.
Definition t_new : Z * view := (0, {| row := 0; col := 0 |}).
End Text.
(** LCD.ino 23-34, for any number of texts. *)
Definition lcd_setup (ts : list (list Z)) : list tcall := TInit :: TCtl (CDisplay true) :: map TLine ts.
(** I2CLCD.ino 33-51: the backlight is turned on after Initialize. *)
Definition i2c_setup (iw rows : Z) (ts : list (list Z)) : option (Z * view * list iop) :=
  bindo (t_call iw rows t_new TInit) (fun a =>
  bindo (t_run iw rows (fst a) (TCtl (CDisplay true) :: map TLine ts)) (fun b =>
  Some (fst b, map IOp (snd a) ++ ILight true :: map IOp (snd b)))).

(** ** PageController.ino 44-73.  [text], [edit]: as in PageModel.v. *)
Section Pages.
Variable text : Z -> list Z.
Variable edit : Z -> Z.
Definition turn_page (c : ctl) : ctl := let (c', ok) := set_next c in if ok then c' else fst (set_first c).
Definition draw (c : ctl) : tcall := TDraw (display text edit DNormal c).
(** The calls of [n] rounds of loop. *)
Fixpoint pages_loop (n : nat) (c : ctl) : list tcall :=
  match n with O => [] | S k => let c := turn_page c in draw c :: pages_loop k c end.
Definition pages_sketch (n : nat) (pages : list ctl) : list tcall :=
  let c := fst (set_first (Box Pages Normal 0 None pages)) in
  TInit :: TCtl (CDisplay true) :: draw c :: pages_loop n c.
End Pages.

(** ** TimeoutTask.ino 36-47 with OutputPinTask.h: any number of tasks on one Delays. *)
Record ptask := mkPtask { pt_id : Z; pt_timeout : Z; pt_pin : Z; pt_task : Z }.
Record tasks := mkTasks { ts_list : list ptask; ts_delays : delays; ts_ticks : Z; ts_board : board }.
Section Tasks.
Variable timer : Z -> bool.
Variable outside : Z -> bool -> bool.
(** The Executes of one round; OnTimeout toggles the pin.  The last component tells which fired. *)
Fixpoint execute_all (l : list ptask) (d : delays) (b : board) : option (list ptask * delays * board * list bool) :=
  match l with
  | [] => Some ([], d, b, [])
  | t :: rest =>
      match tt_execute (pt_id t) (pt_timeout t) (pt_task t) d with
      | None => None
      | Some (task, d, _, fired) =>
          let b := if (fired : bool) then fst (p_step timer outside b (PToggle (pt_pin t))) else b in
          match execute_all rest d b with
          | None => None
          | Some (rest, d, b, fs) => Some (mkPtask (pt_id t) (pt_timeout t) (pt_pin t) task :: rest, d, b, fired :: fs)
          end
      end
  end.
(** loop, with millis() reading [now]. *)
Definition tasks_loop (s : tasks) (now : Z) : option (tasks * list bool) :=
  let (ticks, delta) := time_update (ts_ticks s) now in
  match dl_step (ts_delays s) (DUpdate delta) with
  | None => None
  | Some (d, _) =>
      match execute_all (ts_list s) d (ts_board s) with
      | None => None
      | Some (l, d, b, fs) => Some (mkTasks l d ticks b, fs)
      end
  end.
Fixpoint tasks_run (s : tasks) (nows : list Z) : option (tasks * list (list bool)) :=
  match nows with
  | [] => Some (s, [])
  | now :: rest =>
      match tasks_loop s now with
      | None => None
      | Some (s, fs) => match tasks_run s rest with Some (s, fss) => Some (s, fs :: fss) | None => None end
      end
  end.
(** The objects before setup: the constructor of each pin (DigitalOutputPin.h 38-41); [ticks] is what the
    clock object remembers. *)
Definition tasks_new (slots : nat) (ts : list (Z * Z * Z)) (ticks : Z) (b : board) : tasks :=
  mkTasks (map (fun t => mkPtask (fst (fst t)) (snd (fst t)) (snd t) 0) ts) (dl_init slots) ticks
    (fst (p_run timer outside b (map (fun t => POut (snd t)) ts))).
End Tasks.

(** ** CounterTask.h 16-42: _counter and _maxCount are longs; what is printed is the maximum. *)
Inductive ct_expr := CtTrue | CtInc.
Inductive ct_act := CtReset | CtPrint.
Record counter := mkCounter { ct_count : Z; ct_out : list Z }.
Definition ct_cond (max : Z) (e : ct_expr) (w : option counter) : bool * option counter :=
  match e, w with
  | CtTrue, _ => (true, w)
  | CtInc, None => (true, None)
  | CtInc, Some c =>
      if ct_count c + 1 >? 2147483647 then (true, None)   (* overflow of a signed long *)
      else (ct_count c + 1 >? max, Some (mkCounter (ct_count c + 1) (ct_out c)))
  end.
Definition ct_do (max : Z) (a : ct_act) (w : option counter) : option counter :=
  match w with
  | None => None
  | Some c => Some (match a with CtReset => mkCounter 0 (ct_out c) | CtPrint => mkCounter (ct_count c) (ct_out c ++ [max]) end)
  end.
Definition ct_body : cmd ct_act ct_expr :=
  CWhile CtTrue (CSeq (CYield 22 CtInc) (CSeq (CAct CtReset) (CAct CtPrint))).

(** ** PushButton.ino 22-52.  The contact connects pin [pin] to ground; [floating] is what an input reads
    that nothing drives. *)
Record blamp := mkBlamp { bl_button : button; bl_delays : delays; bl_ticks : Z; bl_board : board }.
Section Button.
Variable timer : Z -> bool.
Variables (id debounce hold pin led : Z).
Definition contact (closed floating : bool) (n : Z) (pullup : bool) : bool :=
  if n =? pin then (if closed then false else if pullup then true else floating) else floating.
Definition button_loop (s : blamp) (now : Z) (closed floating : bool) : option blamp :=
  let (ticks, delta) := time_update (bl_ticks s) now in
  match dl_step (bl_delays s) (DUpdate delta) with
  | None => None
  | Some (d, _) =>
      let out := contact closed floating in
      let (b, v) := p_step timer out (bl_board s) (PRead pin) in
      match pb_scan id debounce hold true (bl_button s) d v with
      | None => None
      | Some (button, d, _) =>
          let state := get_state (pb_states button) in
          let b := if state =? stOpen then fst (p_step timer out b (PWrite led false))
                   else if state =? stClosed then fst (p_step timer out b (PWrite led true))
                   else if state =? stHold then fst (p_step timer out b (PToggle led))
                   else b in
          Some (mkBlamp button d ticks b)
      end
  end.
(** The boards after each round. *)
Fixpoint button_run (s : blamp) (rounds : list (Z * bool * bool)) : option (list board) :=
  match rounds with
  | [] => Some []
  | (now, closed, floating) :: rest =>
      match button_loop s now closed floating with
      | None => None
      | Some s => match button_run s rest with Some bs => Some (bl_board s :: bs) | None => None end
      end
  end.
(** The constructors of both pins and setup. *)
Definition button_new (now : Z) (b : board) : blamp :=
  mkBlamp pb_init (dl_init 1) now
    (fst (p_run timer (fun _ _ => false) b [PIn pin; POut led; PPullup pin true])).
End Button.

(** ** DigitalInput.ino 15-25 and Blink.ino. *)
Section Follow.
Variable timer : Z -> bool.
Variables (pin led : Z).
(** [value]: the member of DigitalInput. *)
Definition follow_loop (s : bool * board) (out : Z -> bool -> bool) : bool * board :=
  let (b, v) := p_step timer out (snd s) (PRead pin) in
  let (value, changed) := di_read (fst s) v in
  (value, if changed then fst (p_step timer out b (PWrite led value)) else b).
Definition follow_run (s : bool * board) (outs : list (Z -> bool -> bool)) : bool * board := fold_left follow_loop outs s.
Definition follow_new (b : board) : bool * board :=
  (false, fst (p_run timer (fun _ _ => false) b [POut led; PIn pin])).
End Follow.
