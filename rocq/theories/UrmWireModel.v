(** C107: URM37V32_Driver (URM37V32_Driver.h) over UsartInputStream and UsartOutputStream (AVR/UsartInputStream.h,
    AVR/UsartOutputStream.h) on the hardware of [HwRxModel] and [HwTxModel]: main loop and both interrupt handlers, step by
    step.  SendCommand writes byte by byte, and a full buffer refuses silently; ReceiveResponse asks getLength and then reads
    four times.  A run that becomes undefined ends there ([None]). *)
Require Import ZArith List Bool.
Import ListNotations.
From Verif Require Import Base RingModel StreamModel HwRxModel HwTxModel UrmModel.
Open Scope Z_scope.

(** Where the main loop is.  The program starts with one call of UsartInputStream::Read, which turns the interrupt on (the
    driver never would: [GBoot] before it, [GFirst] inside); then it calls SendCommand and ReceiveResponse. *)
Inductive gpc :=
| GBoot | GFirst
| GIdle             (* between calls *)
| GSend             (* in SendCommand, URM37V32_Driver.h 59-65 *)
| GCmp              (* about to evaluate RingBuffer.h 103, called from URM37V32_Driver.h 77 *)
| GSub (ge : bool)  (* about to evaluate RingBuffer.h 105 (ge) or 108, and URM37V32_Driver.h 77 *)
| GRead (bs : list Z) (* about to call Read (79-82), after reading [bs] *)
| GIn (bs : list Z)   (* inside it *)
| GCmp2 | GSub2 (ge : bool). (* the second getLength (87) *)

(** [g_todo]: the bytes SendCommand has still to write; [g_cmds]: the commands so far; [g_reports]: the answers of
    ReceiveResponse. *)
Record gsys := mkG { g_tx : xport; g_rx : port; g_pc : gpc; g_todo : list Z; g_cmds : list (list Z);
                     g_reports : list (result * option (Z * Z * Z)) }.
Definition g_start (m m' : Z -> Z) : gsys := mkG (xport_init m) (port_init m') GBoot [] [] [].
(** Without the first call of Read. *)
Definition g_start_deaf (m m' : Z -> Z) : gsys := mkG (xport_init m) (port_init m') GIdle [] [] [].

(** SendCommand or ReceiveResponse is called (ignored during a call), the main loop goes on, the handlers get their turn, the
    end of a character sent, and the receiver (a start bit, the end of a character). *)
Inductive gev := GvSend (c d1 d2 : Z) | GvReceive | GvStep | GvTxIsr | GvTick | GvRxIsr | GvStart | GvStop (d : Z).

Section Board.
(** The sizes of the buffers: output and input. *)
Variables (So Si : Z).
Definition g_len (ge : bool) (r : ring Z) : Z := if ge then u16 (rb_wr r - rb_rd r) else u16 (Si - (rb_rd r - rb_wr r)).
(** What the two streams see, and the state of the program apart from them. *)
Definition g_does (g : gsys) (e : gev) : (list yev * list pev) * (gpc * list Z * list (list Z) * list (result * option (Z * Z * Z))) :=
  let r := r_ring (p_rx (g_rx g)) in
  let stay pc := (pc, g_todo g, g_cmds g, g_reports g) in
  match e with
  | GvTxIsr => (([YIsr], []), stay (g_pc g))
  | GvTick => (([YTick], []), stay (g_pc g))
  | GvRxIsr => (([], [PIsr]), stay (g_pc g))
  | GvStart => (([], [PStart]), stay (g_pc g))
  | GvStop d => (([], [PStop d]), stay (g_pc g))
  | GvSend c d1 d2 =>
      match g_pc g with
      | GIdle => (([], []), (GSend, send_command c d1 d2, g_cmds g ++ [send_command c d1 d2], g_reports g))
      | pc => (([], []), stay pc)
      end
  | GvReceive => (([], []), stay (match g_pc g with GIdle => GCmp | pc => pc end))
  | GvStep =>
      match g_pc g with
      | GBoot => (([], [PRead]), stay GFirst)
      | GFirst => (([], [PStep]), stay GFirst)
      | GIdle => (([], []), stay GIdle)
      | GSend =>
          match t_pc (y_tx (g_tx g)), g_todo g with
          | TIdle, [] => (([], []), stay GIdle)
          | TIdle, b :: rest => (([YWrite b], []), (GSend, rest, g_cmds g, g_reports g))
          | _, _ => (([YStep], []), stay GSend)
          end
      | GCmp => (([], []), stay (GSub (rb_wr r >=? rb_rd r)))
      | GSub ge => (([], []), stay (if g_len ge r >? 3 then GRead [] else GCmp2))
      | GRead bs => (([], [PRead]), stay (GIn bs))
      | GIn bs => (([], [PStep]), stay (GIn bs))
      | GCmp2 => (([], []), stay (GSub2 (rb_wr r >=? rb_rd r)))
      | GSub2 ge => (([], []), (GIdle, g_todo g, g_cmds g, g_reports g ++ [(if g_len ge r >? 0 then RPending else RNone, None)]))
      end
  end.
(** Read has returned: 79-84. *)
Definition g_after (x : xport) (p : port) (pc : gpc) (todo : list Z) (cmds : list (list Z)) (reports : list (result * option (Z * Z * Z))) : gsys :=
  match pc, r_pc (p_rx p) with
  | GFirst, RIdle => mkG x p GIdle todo cmds reports
  | GIn bs, RIdle =>
      match bs ++ [u8 (last (r_got (p_rx p)) (-1))] with
      | [c; d1; d2; sum] =>
          mkG x p GIdle todo cmds (reports ++ [(if checksum c d1 d2 =? sum then RSuccess else RChecksum, Some (c, d1, d2))])
      | bs' => mkG x p (GRead bs') todo cmds reports
      end
  | _, _ => mkG x p pc todo cmds reports
  end.
Fixpoint g_steps (g : gsys) (evs : list gev) : (list yev * list pev) * option gsys :=
  match evs with
  | [] => (([], []), Some g)
  | e :: rest =>
      let '((ys, ps), (pc, todo, cmds, reports)) := g_does g e in
      match xport_run So (g_tx g) ys, port_run Si (g_rx g) ps with
      | Some x, Some p =>
          let '((ys', ps'), g') := g_steps (g_after x p pc todo cmds reports) rest in ((ys ++ ys', ps ++ ps'), g')
      | _, _ => ((ys, ps), None)
      end
  end.

(** No handler of the input stream runs between the comparison and the subtraction of the first getLength. *)
Fixpoint g_calm (g : gsys) (evs : list gev) : bool :=
  match evs with
  | [] => true
  | e :: rest =>
      match e, g_pc g with
      | GvRxIsr, GSub _ => false
      | _, _ =>
          let '((ys, ps), (pc, todo, cmds, reports)) := g_does g e in
          match xport_run So (g_tx g) ys, port_run Si (g_rx g) ps with
          | Some x, Some p => g_calm (g_after x p pc todo cmds reports) rest
          | _, _ => true
          end
      end
  end.
End Board.

(** URM37V32_Controller.h 115-130: what EndDistance makes of an answer of ReceiveResponse. *)
Definition distance_of (a : result * option (Z * Z * Z)) : result * option Z :=
  match a with
  | (RSuccess, Some (c, d1, d2)) =>
      if (c =? 34) && negb (d1 =? 255) && negb (d2 =? 255) then (RSuccess, Some (u16 (Z.lor (Z.shiftl d1 8) d2))) else (RNone, None)
  | (res, _) => (res, None)
  end.
