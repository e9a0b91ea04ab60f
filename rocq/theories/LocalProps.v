(** C103: local variables and parameters of task methods. *)
Require Import ZArith List Bool Lia.
Import ListNotations.
From Verif Require Import TaskModel TaskSpec MacroModel MacroSpec LocalModel LocalSpec LocalProofs.
Open Scope Z_scope.

(** If no local variable is read that may not have been set since the last pause, the method (new frame in every call,
    any contents of the stack) does what the sequential program with lasting variables does: same actions, tests and
    answers, same memory.  A parameter has the value of the latest call. *)
Theorem local_careful : forall (M : Type) (params : list nat) (s : src (laction M) (lexpr M)),
  braced s = true -> labels_ok (meant s) -> careful params (meant s) = true ->
  forall m fr c cs tr m1,
  (exists n L fr1, m_run l_act l_cond n (method s) (MIdle 0 (m, fr) (map (enter params) (c :: cs))) = Some (tr, MIdle L (m1, fr1) [])) <->
  (exists fr1, forever l_act l_cond (meant s) (resume params c (m, fr)) (map (resume params) cs) tr (m1, fr1)).
Proof. exact fresh_l. Qed.
Print Assumptions local_careful.

(** Two runs with different contents of the stack cannot be told apart. *)
Theorem local_stack : forall (M : Type) (params : list nat) (s : src (laction M) (lexpr M)),
  braced s = true -> labels_ok (meant s) -> careful params (meant s) = true ->
  forall m fr fr' c cs cs' n L fr1 tr m1, map (fun x => (c_env x, c_args x)) (c :: cs) = map (fun x => (c_env x, c_args x)) cs' ->
  m_run l_act l_cond n (method s) (MIdle 0 (m, fr) (map (enter params) (c :: cs))) = Some (tr, MIdle L (m1, fr1) []) ->
  exists n' L' fr1', m_run l_act l_cond n' (method s) (MIdle 0 (m, fr') (map (enter params) cs')) = Some (tr, MIdle L' (m1, fr1') []).
Proof. exact stack_l. Qed.
Print Assumptions local_stack.

(** Refuted: local variables keep their values across a pause.  [for (i = 0; i < n; i++) { Task_Yield(); work(); }] is
    meant to work [n] times in [n + 1] calls.  With zeros on the stack it goes on for ever (n >= 2), with [n] on the stack it
    ends after one round. *)
Theorem local_loop_refuted : forall n m fr, 2 <= n ->
  careful [] (meant (counting n)) = false /\
  (exists tr fr1, forever l_act l_cond (meant (counting n)) (resume [] (plain 0) (m, fr)) (map (resume []) (repeat (plain 0) (Z.to_nat n))) tr (m + n, fr1) /\
     returns tr = repeat true (Z.to_nat n) ++ [false]) /\
  (forall k, exists steps L fr1 tr,
     m_run l_act l_cond steps (method (counting n)) (MIdle 0 (m, fr) (map (enter []) (repeat (plain 0) (S k)))) = Some (tr, MIdle L (m + Z.of_nat k, fr1) []) /\
     returns tr = repeat true (S k)) /\
  (exists steps L fr1 tr,
     m_run l_act l_cond steps (method (counting n)) (MIdle 0 (m, fr) (map (enter []) [plain n; plain n])) = Some (tr, MIdle L (m + 1, fr1) []) /\
     returns tr = [true; false]).
Proof.
  intros n m fr B. split; [reflexivity|]. split; [|split].
  - apply meant_l. lia.
  - intros k. apply endless_l. exact B.
  - apply early_l. lia.
Qed.
Print Assumptions local_loop_refuted.

(** A careful method with a parameter (variable 0) and a local variable (1): the sum of memory and parameter is set
    before the pause and again after it; it waits until the parameter is 3. *)
Definition lo_sum : laction Z := mkAct [0%nat] (Some 1%nat) (fun l m => (m + var 0 l, m)).
Definition lo_keep : laction Z := mkAct [1%nat] None (fun l m => (0, var 0 l)).
Definition lo_three : lexpr Z := mkExpr [0%nat] (fun l m => (var 0 l =? 3, m)).
Definition lo_good : src (laction Z) (lexpr Z) := SSeq (SAct lo_sum) (SSeq (SAct lo_keep) (SSeq (SWait 10 lo_three) (SSeq (SAct lo_sum) (SAct lo_keep)))).
Definition lo_bad : src (laction Z) (lexpr Z) := SSeq (SAct lo_sum) (SSeq (SWait 10 lo_three) (SAct lo_keep)).
Definition lo_call (a s : Z) : lcall Z := mkCall (fun m => m) (fun _ => a) (fun _ => s).
Definition lo_run (s : src (laction Z) (lexpr Z)) (calls : list (lcall Z)) : option (list bool * option Z) :=
  option_map (fun r => (returns (fst r), match snd r with MIdle _ w _ => Some (fst w) | _ => None end))
    (m_run l_act l_cond 100 (method s) (MIdle 0 (10, fun _ => 0) (map (enter [0%nat]) calls))).
Example local_example :
  braced lo_good = true /\ labels_ok (meant lo_good) /\ careful [0%nat] (meant lo_good) = true /\ careful [] (meant lo_good) = false /\
  lo_run lo_good [lo_call 1 7; lo_call 2 8; lo_call 3 9] = Some ([true; true; false], Some 14) /\
  careful [0%nat] (meant lo_bad) = false /\
  lo_run lo_bad [lo_call 1 7; lo_call 2 8; lo_call 3 9] = Some ([true; true; false], Some 9).
Proof.
  split; [reflexivity|]. split; [split; cbn; [repeat constructor; intros []|intros [X|[]]; discriminate]|].
  repeat split; lazy; reflexivity.
Qed.
(** Loops, branches: set in both branches, or in a loop without a pause. *)
Example careful_example :
  let set (x : nat) : cmd (laction Z) (lexpr Z) := CAct (mkAct [] (Some x) (fun _ m => (0, m))) in
  let get (x : nat) : cmd (laction Z) (lexpr Z) := CAct (mkAct [x] None (fun _ m => (0, m))) in
  careful [] (CSeq (CIf always (set 1) (set 1)) (get 1))%nat = true /\
  careful [] (CSeq (CIf always (set 1) CSkip) (get 1))%nat = false /\
  careful [] (CSeq (set 1) (CWhile always (get 1)))%nat = true /\
  careful [] (CSeq (CWhile always (set 1)) (get 1))%nat = false /\
  careful [] (CSeq (set 1) (CWhile always (CSeq (get 1) (CYield 10 always))))%nat = false /\
  careful [] (CWhile always (CSeq (CYield 10 always) (CSeq (set 1) (get 1))))%nat = true.
Proof. repeat split. Qed.
(** The expression of a wait may change memory: one that counts the times it is evaluated and asks for the third. *)
Definition lo_times : lexpr Z := mkExpr [] (fun _ m => (13 <=? m + 1, m + 1)).
Example local_side_effect :
  lo_run (SWait 10 lo_times) [lo_call 0 0; lo_call 0 0; lo_call 0 0] = Some ([true; true; false], Some 13) /\
  lo_run (SIf lo_times (SAct work) (SAct work)) [lo_call 0 0; lo_call 0 0] = Some ([false; false], Some 14).
Proof. split; lazy; reflexivity. Qed.
