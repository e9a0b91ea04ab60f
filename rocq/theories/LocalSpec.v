(** What the author of a task with local variables may mean: variables that live as long as the task. *)
Require Import ZArith List Bool.
Import ListNotations.
From Verif Require Import TaskModel MacroModel LocalModel.
Open Scope Z_scope.

Section Spec.
Variable M : Type.
Variable params : list nat.
(** A call that leaves the local variables alone. *)
Definition resume (c : lcall M) (w : world M) : world M :=
  (c_env c (fst w), fun x => if is_param params x then c_args c x else snd w x).

(** ** When this is the same: no variable is read that may not have been set since the last pause *)
Fixpoint pauses (c : cmd (laction M) (lexpr M)) : bool :=
  match c with
  | CSeq c1 c2 | CIf _ c1 c2 => pauses c1 || pauses c2
  | CWhile _ c1 => pauses c1
  | CYield _ _ | CWait _ _ => true
  | CSkip | CAct _ | CReturn => false
  end.
Definition known (l known : list nat) : bool := forallb (fun x => existsb (Nat.eqb x) known) l.
(** The variables surely set after [c] if those of [d] are before; [None]: [c] may read one that is not. *)
Fixpoint sure (d : list nat) (c : cmd (laction M) (lexpr M)) : option (list nat) :=
  match c with
  | CSkip | CReturn => Some d
  | CAct a => if known (a_reads a) d then Some (match a_sets a with Some x => x :: d | None => d end) else None
  | CSeq c1 c2 => match sure d c1 with Some d1 => sure d1 c2 | None => None end
  | CIf e c1 c2 =>
      if known (e_reads e) d then
        match sure d c1, sure d c2 with Some d1, Some d2 => Some (filter (fun x => existsb (Nat.eqb x) d2) d1) | _, _ => None end
      else None
  | CWhile e c1 =>
      let d1 := if pauses c1 then params else d in
      if known (e_reads e) d1 then match sure d1 c1 with Some _ => Some d1 | None => None end else None
  | CYield _ e | CWait _ e => if known (e_reads e) params then Some params else None
  end.
Definition careful (c : cmd (laction M) (lexpr M)) : bool := match sure params c with Some _ => true | None => false end.
End Spec.
Arguments resume {M}. Arguments pauses {M}. Arguments sure {M}. Arguments careful {M}.

(** ** A loop whose counter is a local variable
    [for (i = 0; i < n; i++) { Task_Yield(); work(); }] with memory counting the work. *)
Definition var (x : nat) (l : list Z) : Z := nth x l 0.
Definition zero_i : laction Z := mkAct [] (Some 0%nat) (fun _ m => (0, m)).
Definition next_i : laction Z := mkAct [0%nat] (Some 0%nat) (fun l m => (var 0 l + 1, m)).
Definition work : laction Z := mkAct [] None (fun _ m => (0, m + 1)).
Definition below (n : Z) : lexpr Z := mkExpr [0%nat] (fun l m => (var 0 l <? n, m)).
Definition always : lexpr Z := mkExpr [] (fun _ m => (true, m)).
Definition counting (n : Z) : MacroModel.src (laction Z) (lexpr Z) :=
  MacroModel.SSeq (MacroModel.SAct zero_i)
    (MacroModel.SWhile (below n) (MacroModel.SSeq (MacroModel.SYield 10 always) (MacroModel.SSeq (MacroModel.SAct work) (MacroModel.SAct next_i)))).
(** A call with [s] everywhere on the stack. *)
Definition plain (s : Z) : lcall Z := mkCall (fun m => m) (fun _ => 0) (fun _ => s).
