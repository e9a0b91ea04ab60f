(** Specification of delays: one independent countdown timer per id. *)
Require Import ZArith List Bool.
Import ListNotations.
From Verif Require Import Base TimeModel.
Open Scope Z_scope.

Definition sumZ (l : list Z) : Z := fold_right Z.add 0 l.

(** The deltas [Update] returns when the true clock reads [now] and then advances by [dts]; the
    counter the program sees is the true clock modulo 2^32. *)
Fixpoint clock_run (ticks now : Z) (dts : list Z) : list Z :=
  match dts with
  | [] => []
  | dt :: rest => let (t, d) := time_update ticks (u32 (now + dt)) in d :: clock_run t (now + dt) rest
  end.

(** A single timer: [None] when not waiting, else the remaining time. *)
Definition timer := option Z.

(** What timer [id] does for one call, given the current delta: new timer and, when the call is
    about [id], its answer. *)
Definition tm_step (id : Z) (tm : timer) (delta : Z) (o : dl_op) : timer * Z * option bool :=
  match o with
  | DUpdate d => (tm, d, None)
  | DWait j t =>
      if j =? id then
        match tm with
        | None => (Some t, delta, Some false)
        | Some r => if r <=? delta then (None, delta, Some true) else (Some (r - delta), delta, Some false)
        end
      else (tm, delta, None)
  | DAbort j => (if j =? id then match tm with Some _ => Some 0 | None => None end else tm, delta, None)
  | DClear j => (if j =? id then None else tm, delta, None)
  | DIsWaiting j => (tm, delta, if j =? id then Some (match tm with Some _ => true | None => false end) else None)
  end.
(** The answers timer [id] gives over a history, ignoring calls about other ids. *)
Fixpoint tm_run (id : Z) (tm : timer) (delta : Z) (ops : list dl_op) : list bool :=
  match ops with
  | [] => []
  | o :: rest => let '(tm', delta', out) := tm_step id tm delta o in
                 match out with
                 | Some b => b :: tm_run id tm' delta' rest
                 | None => tm_run id tm' delta' rest
                 end
  end.

(** The answers about [id] among the answers of a run. *)
Fixpoint about (id : Z) (ops : list dl_op) (outs : list bool) : list bool :=
  match ops, outs with
  | DWait j _ :: ops', b :: outs' | DIsWaiting j :: ops', b :: outs' =>
      if j =? id then b :: about id ops' outs' else about id ops' outs'
  | _ :: ops', _ :: outs' => about id ops' outs'
  | _, _ => []
  end.

(** Calls a program may make: ids are non-zero, times and deltas are uint32_t values. *)
Definition dl_ok (o : dl_op) : Prop :=
  match o with
  | DUpdate d => 0 <= d < 4294967296
  | DWait id t => 0 < id < 65536 /\ 0 <= t < 4294967296
  | DAbort id | DClear id | DIsWaiting id => 0 < id < 65536
  end.

(** ** Polling one delay *)
Definition is_wait (id : Z) (o : dl_op) : bool :=
  match o with DWait j _ => j =? id | _ => false end.
(** The call removes or zeroes the delay. *)
Definition is_cancel (id : Z) (o : dl_op) : bool :=
  match o with DAbort j | DClear j => j =? id | _ => false end.
(** Answers of the selected calls. *)
Fixpoint answers (sel : dl_op -> bool) (ops : list dl_op) (outs : list bool) : list bool :=
  match ops, outs with
  | o :: ops', b :: outs' => if sel o then b :: answers sel ops' outs' else answers sel ops' outs'
  | _, _ => []
  end.
(** The delta in force at each poll of [id]. *)
Fixpoint poll_deltas (id delta : Z) (ops : list dl_op) : list Z :=
  match ops with
  | [] => []
  | DUpdate d :: rest => poll_deltas id d rest
  | o :: rest => if is_wait id o then delta :: poll_deltas id delta rest else poll_deltas id delta rest
  end.
(** Time that passed during a history. *)
Fixpoint elapsed (ops : list dl_op) : Z :=
  match ops with
  | [] => 0
  | DUpdate d :: rest => d + elapsed rest
  | _ :: rest => elapsed rest
  end.
(** The delta of the last Update, 0 before the first one. *)
Fixpoint last_update (delta : Z) (ops : list dl_op) : Z :=
  match ops with
  | [] => delta
  | DUpdate d :: rest => last_update d rest
  | _ :: rest => last_update delta rest
  end.
(** Every poll of [id] has its own Update before it. *)
Fixpoint once_per_update (id : Z) (fresh : bool) (ops : list dl_op) : bool :=
  match ops with
  | [] => true
  | DUpdate _ :: rest => once_per_update id true rest
  | o :: rest => if is_wait id o then fresh && once_per_update id false rest else once_per_update id fresh rest
  end.

(** Slots not holding a delay. *)
Definition free_slots (l : list (Z * Z)) : nat := length (filter (fun p => fst p =? 0) l).

(** ** Histories of a TimeEx: Update calls with the clock reading they see, and Reset calls. *)
Inductive tex_op := TxUpdate (now : Z) | TxReset.
Definition tex_do (s : time_ex) (o : tex_op) : time_ex :=
  match o with TxUpdate n => fst (tex_update s n) | TxReset => tex_reset s end.
Definition tex_run (s : time_ex) (l : list tex_op) : time_ex := fold_left tex_do l s.
(** The last clock reading taken before or during [l]. *)
Definition last_reading (now : Z) (l : list tex_op) : Z :=
  last (now :: flat_map (fun o => match o with TxUpdate n => [n] | TxReset => [] end) l) 0.
