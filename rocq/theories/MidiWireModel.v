(** C104: MidiWriter (MidiWriter.h) over UsartOutputStream on one board, MidiReader (MidiReader.h) over UsartInputStream on
    another, with the registers of both USARTs and the levels of the line in between: the programs of [LinkModel] on top
    of the hardware of [HwTxModel], [HwRxModel] and [WireLinkModel].  A run that becomes undefined ends there ([None]). *)
Require Import ZArith List Bool.
Import ListNotations.
From Verif Require Import Base AvrModel AvrSpec WireModel WireSpec RingModel StreamModel HwRxModel HwTxModel WireLinkModel MidiModel LinkModel.
Open Scope Z_scope.

(** ** The sending board
    As [sender]; [s_ops]: the messages given to Write so far. *)
Record msend := mkMs { s_port : xport; s_run : Z; s_todo : list Z; s_ops : list w_op }.
Definition s_start (m : Z -> Z) : msend := mkMs (xport_init m) 0 [] [].
(** MidiWriter::Write is called (ignored during a call), the main loop goes on, the handler gets its turn, the end of a
    character. *)
Inductive sev := SvWrite (o : w_op) | SvStep | SvIsr | SvTick.
Definition s_pc (s : msend) : txpc := t_pc (HwTxModel.y_tx (s_port s)).
(** What the USART and the stream see of this, and what MidiWriter has left to do. *)
Definition s_does (s : msend) (e : sev) : list yev * (Z * list Z * list w_op) :=
  match e with
  | SvWrite o =>
      match s_pc s, s_todo s with
      | TIdle, [] => let (run, out) := write_op (s_run s) o in ([], (run, out, s_ops s ++ [o]))
      | _, _ => ([], (s_run s, s_todo s, s_ops s))
      end
  | SvStep =>
      match s_pc s, s_todo s with
      | TIdle, [] => ([], (s_run s, [], s_ops s))
      | TIdle, b :: rest => ([YWrite b], (s_run s, rest, s_ops s))
      | _, _ => ([YStep], (s_run s, s_todo s, s_ops s))
      end
  | SvIsr => ([YIsr], (s_run s, s_todo s, s_ops s))
  | SvTick => ([YTick], (s_run s, s_todo s, s_ops s))
  end.
Fixpoint s_steps (Size : Z) (s : msend) (evs : list sev) : list yev * option msend :=
  match evs with
  | [] => ([], Some s)
  | e :: rest =>
      let '(ys, (run, todo, ops)) := s_does s e in
      match xport_run Size (s_port s) ys with
      | Some p => let (more, s') := s_steps Size (mkMs p run todo ops) rest in (ys ++ more, s')
      | None => (ys, None)
      end
  end.

(** ** The receiving board
    As [receiver].  The program starts with one call of UsartInputStream::Read, which turns the interrupt on (finding of
    C67: MidiReader::Read never would); [VBoot]: before it, [VFirst]: inside. *)
Inductive vpc := VBoot | VFirst | VMidi (p : mpc).
Record mrecv := mkMr { v_port : port; v_pc : vpc; v_reader : reader; v_notes : list note }.
Definition v_start (m : Z -> Z) : mrecv := mkMr (port_init m) VBoot r_init [].
(** MidiReader::Read is called (ignored before the start and during a call), the main loop goes on, the handler gets its
    turn. *)
Inductive vev := VvRead | VvStep | VvIsr.
Section Receiver.
Variable Size : Z.
Definition v_len (ge : bool) (r : ring Z) : Z := if ge then u16 (rb_wr r - rb_rd r) else u16 (Size - (rb_rd r - rb_wr r)).
Definition v_does (x : mrecv) (e : vev) : list pev * vpc :=
  let r := r_ring (p_rx (v_port x)) in
  match e with
  | VvIsr => ([PIsr], v_pc x)
  | VvRead => ([], match v_pc x with VMidi MIdle => VMidi MCmp | p => p end)
  | VvStep =>
      match v_pc x with
      | VBoot => ([PRead], VFirst)
      | VFirst => ([PStep], VFirst)
      | VMidi MIdle => ([], VMidi MIdle)
      | VMidi MCmp => ([], VMidi (MSub (rb_wr r >=? rb_rd r)))
      | VMidi (MSub ge) => if v_len ge r >? 0 then ([PRead], VMidi MRead) else ([], VMidi MIdle)
      | VMidi MRead => ([PStep], VMidi MRead)
      end
  end.
(** BaseT::Read has returned: MidiReader.h 59-65 (as [x_answer]). *)
Definition v_after (p : port) (pc : vpc) (rd : reader) (ns : list note) : mrecv :=
  match pc, r_pc (p_rx p) with
  | VFirst, RIdle => mkMr p (VMidi MIdle) rd ns
  | VMidi MRead, RIdle =>
      let v := last (r_got (p_rx p)) (-1) in
      if v =? -1 then mkMr p (VMidi MIdle) rd ns
      else let '(rd', more, _) := dispatch rd (u8 v) in mkMr p (VMidi MIdle) rd' (ns ++ more)
  | _, _ => mkMr p pc rd ns
  end.
Fixpoint v_steps (x : mrecv) (evs : list vev) : list pev * option mrecv :=
  match evs with
  | [] => ([], Some x)
  | e :: rest =>
      let (ps, pc) := v_does x e in
      match port_run Size (v_port x) ps with
      | Some p => let (more, x') := v_steps (v_after p pc (v_reader x) (v_notes x)) rest in (ps ++ more, x')
      | None => (ps, None)
      end
  end.

(** Sample by sample: the hardware, then the software; [sched]: the software after each sample. *)
Section Line.
Variables (samples middle last : nat) (n : nat) (par : parity).
Fixpoint v_line (f : Z -> bool) (r : rcv) (i : Z) (x : mrecv) (sched : list (list vev)) : list (Z * pev) * option mrecv :=
  match sched with
  | [] => ([], Some x)
  | sw :: rest =>
      match line_step samples middle last n par r (f i) with
      | Some (r', hw) =>
          match port_run Size (v_port x) hw with
          | Some p =>
              let (ps, x') := v_steps (mkMr p (v_pc x) (v_reader x) (v_notes x)) sw in
              let here := map (fun e => (i, e)) (hw ++ ps) in
              match x' with
              | Some x' => let (more, x'') := v_line f r' (i + 1) x' rest in (here ++ more, x'')
              | None => (here, None)
              end
          | None => (map (fun e => (i, e)) hw, None)
          end
      | None => ([], None)
      end
  end.
End Line.
End Receiver.

(** As [receiving]. *)
Definition midi_receiving (F G : Z) (m1 : regs) (id1 : Z) (m2 : regs) (id2 : Z) (cs : list (Z * Z)) (a : Z) (Size : Z) (m : Z -> Z)
  (sched : list (list vev)) : option (list (Z * pev) * option mrecv) :=
  match hw_frame m1 id1, hw_frame m2 id2 with
  | Some (n1, p1, two), Some (n2, p2, _) =>
      let T := bit_time G (hw_divider m1 id1) (hw_ubrr m1 id1) in
      let q := sample_time F (hw_ubrr m2 id2) in
      let d := hw_divider m2 id2 in
      Some (v_line Size (speed_samples d) (speed_middle d) (last_bit (Z.to_nat n2) p2) (Z.to_nat n2) p2
        (sampled T q a (frames_of (Z.to_nat n1) p1 two cs)) (WIdle true) 0 (v_start m) sched)
  | _, _ => None
  end.
