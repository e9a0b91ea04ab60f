(** C103: Task.h with local variables and parameters (56-63 [Task_BeginWithParams]): the machine of [MacroModel] over
    the object's memory and the frame of the method.  Every call has a new frame: the parameters hold the values of
    this call, the local variables whatever was on the stack (the switch jumps over what set them). *)
Require Import ZArith List Bool.
Import ListNotations.
From Verif Require Import TaskModel.
Open Scope Z_scope.

Section Local.
Variable M : Type.
Definition frame := nat -> Z.
Definition world := (M * frame)%type.

(** A statement reads some variables, changes memory and may set one variable; an expression sets none. *)
Record laction := mkAct { a_reads : list nat; a_sets : option nat; a_does : list Z -> M -> Z * M }.
Record lexpr := mkExpr { e_reads : list nat; e_does : list Z -> M -> bool * M }.
Definition set_var (fr : frame) (x : nat) (v : Z) : frame := fun y => if Nat.eqb y x then v else fr y.
Definition l_act (a : laction) (w : world) : world :=
  let (v, m) := a_does a (map (snd w) (a_reads a)) (fst w) in
  (m, match a_sets a with Some x => set_var (snd w) x v | None => snd w end).
Definition l_cond (e : lexpr) (w : world) : bool * world :=
  let (b, m) := e_does e (map (snd w) (e_reads e)) (fst w) in (b, (m, snd w)).

(** A call: what happened to memory before it, the arguments, what the stack holds. *)
Record lcall := mkCall { c_env : M -> M; c_args : frame; c_stack : frame }.
Variable params : list nat.
Definition is_param (x : nat) : bool := existsb (Nat.eqb x) params.
Definition enter (c : lcall) (w : world) : world := (c_env c (fst w), fun x => if is_param x then c_args c x else c_stack c x).
End Local.
Arguments mkAct {M}. Arguments a_reads {M}. Arguments a_sets {M}. Arguments a_does {M}.
Arguments mkExpr {M}. Arguments e_reads {M}. Arguments e_does {M}.
Arguments l_act {M}. Arguments l_cond {M}.
Arguments mkCall {M}. Arguments c_env {M}. Arguments c_args {M}. Arguments c_stack {M}. Arguments enter {M}.
