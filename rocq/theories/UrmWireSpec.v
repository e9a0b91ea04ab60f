(** C107: the sensor at the other end. *)
Require Import ZArith List Bool.
Import ListNotations.
From Verif Require Import Base HwRxModel HwRxSpec HwTxModel UrmModel UrmSpec UrmLinkSpec UrmWireModel.
Open Scope Z_scope.

(** The arguments of SendCommand are bytes. *)
Definition gev_ok (e : gev) : Prop := match e with GvSend c d1 d2 => byte c /\ byte d1 /\ byte d2 | _ => True end.
Definition frame_bytes (f : Z * Z * Z * Z) : list Z := let '(c, d1, d2, s) := f in [c; d1; d2; s].
(** The sensor answers each command it has heard completely, the [k]th with the measurement [m k]. *)
Fixpoint replies (t : Z * Z) (m : nat -> Z * Z) (k : nat) (fs : list (Z * Z * Z * Z)) : list Z :=
  match fs with
  | [] => []
  | f :: rest => sensor t (m k) (frame_bytes f) ++ replies t m (S k) rest
  end.
(** The command of BeginDistance. *)
Definition asks_distance (cmd : list Z) : Prop := exists d, byte d /\ cmd = [34; d; 0; (34 + d) mod 256].
(** The distances EndDistance delivers. *)
Definition delivered (reports : list (result * option (Z * Z * Z))) : list Z :=
  flat_map (fun r => match snd (distance_of r) with Some d => [d] | None => [] end) reports.

(** ** Taking turns *)
(** SendCommand is called for BeginDistance only. *)
Definition gev_asks (e : gev) : Prop := match e with GvSend c d1 d2 => c = 34 /\ byte d1 /\ d2 = 0 | _ => True end.
(** At most [k] commands wait for their answer: SendCommand is called only while fewer do. *)
Fixpoint g_turns (So Si : Z) (k : nat) (g : gsys) (evs : list gev) : bool :=
  match evs with
  | [] => true
  | e :: rest =>
      match e, g_pc g with
      | GvSend _ _ _, GIdle => (length (g_cmds g) <? length (filter answered (g_reports g)) + k)%nat
      | _, _ => true
      end &&
      let '((ys, ps), (pc, todo, cmds, reports)) := g_does Si g e in
      match xport_run So (g_tx g) ys, port_run Si (g_rx g) ps with
      | Some x, Some p => g_turns So Si k (g_after x p pc todo cmds reports) rest
      | _, _ => true
      end
  end.
(** At every moment of the run, what the board has received is the beginning of the sensor's answers to what has gone out. *)
Definition answers_in_time (So Si : Z) (m m' : Z -> Z) (t : Z * Z) (ms : nat -> Z * Z) (evs : list gev) : Prop :=
  forall e1 e2 ys ps g, evs = e1 ++ e2 -> g_steps So Si (g_start m m') e1 = ((ys, ps), Some g) ->
  exists n, chars false (wire Si (port_init m') ps) = firstn n (replies t ms 0 (frames (x_line (y_utx (g_tx g))))).
(** The same said of the characters on the line: as many of them as have been received by then. *)
Definition line_in_time (So Si : Z) (m m' : Z -> Z) (t : Z * Z) (ms : nat -> Z * Z) (line : list Z) (evs : list gev) : Prop :=
  forall e1 e2 ys ps g, evs = e1 ++ e2 -> g_steps So Si (g_start m m') e1 = ((ys, ps), Some g) ->
  exists n, firstn (length (chars false (wire Si (port_init m') ps))) line = firstn n (replies t ms 0 (frames (x_line (y_utx (g_tx g))))).
