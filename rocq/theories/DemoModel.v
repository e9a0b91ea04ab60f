(** Two more sketches of Arduino Libraries: ATL_IO/examples/Blink and ATL_UI/examples/Page with LcdDisplayWriter.h. *)
Require Import ZArith List Bool.
Import ListNotations.
From Verif Require Import Base HdModel UiModel PageModel ArduinoModel SketchModel DelayModel.
Open Scope Z_scope.

(** ** Blink.ino, for any pin and delay, on a core at 16 MHz.  A round of loop starts [gap] cycles after the last one
    ended, and its delay reads the clock at the cycles [polls].  The answer: the cycles of the toggles with the level
    of the pin from then on.  It ends where a delay does not. *)
Section Blink.
Variable timer : Z -> bool.
Variable outside : Z -> bool -> bool.
Variables led ms : Z.
Definition blink_new (b : board) : board := fst (p_step timer outside b (POut led)).                (* 5 *)
Fixpoint blink_run (b : board) (now : Z) (rounds : list (Z * list Z)) : list (Z * bool) :=
  match rounds with
  | [] => []
  | (gap, polls) :: rest =>
      let t := now + gap in
      let b := fst (p_step timer outside b (PToggle led)) in                                        (* 15 *)
      (t, p_latch (b led)) ::
      match wait_ms ms t polls with Some c => blink_run b c rest | None => [] end                   (* 17 *)
  end.
End Blink.

(** ** LcdDisplayWriter.h 27-47: SetCursor does nothing. *)
Definition lw_call (iw rows : Z) (s : Z * view) (w : wcall) : option (Z * view * list dop) :=
  match w with
  | WText t => bindo (view_run rows (snd s) (map VChar t)) (fun a => Some (fst s, fst a, snd a))
  | WGoTo l c => bindo (dw_goto rows (snd s) l c) (fun a => Some (fst s, fst a, snd a))
  | WCursor _ _ _ => Some (fst s, snd s, [])
  end.
Fixpoint lw_run (iw rows : Z) (s : Z * view) (ws : list wcall) : option (Z * view * list dop) :=
  match ws with
  | [] => Some (fst s, snd s, [])
  | w :: rest => bindo (lw_call iw rows s w) (fun a => bindo (lw_run iw rows (fst a) rest) (fun b => Some (fst b, snd a ++ snd b)))
  end.
(** Page.ino 38-47. *)
Definition page_setup (iw rows : Z) (text : Z -> list Z) (edit : Z -> Z) (page : ctl) : option (Z * view * list dop) :=
  bindo (t_run iw rows t_new [TInit; TCtl (CDisplay true)]) (fun a =>
  bindo (lw_run iw rows (fst a) (display text edit DNormal page)) (fun b => Some (fst b, snd a ++ snd b))).
