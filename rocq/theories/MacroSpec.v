(** What a task method's author means, for MacroModel.v: [if] and [while] govern the whole macro. *)
Require Import ZArith List Bool.
Import ListNotations.
From Verif Require Import TaskModel TaskSpec MacroModel.
Open Scope Z_scope.

Fixpoint meant {A E : Type} (s : src A E) : cmd A E :=
  match s with
  | SSkip => CSkip
  | SAct a => CAct a
  | SSeq s1 s2 => CSeq (meant s1) (meant s2)
  | SIf e s1 s2 => CIf e (meant s1) (meant s2)
  | SIfOne e s1 => CIf e (meant s1) CSkip
  | SWhile e s1 | SWhileOne e s1 => CWhile e (meant s1)
  | SYield n e => CYield n e
  | SWait n e => CWait n e
  | SReturn => CReturn
  end.
(** A macro that pauses or returns stands in braces when [if] or [while] govern it. *)
Definition single {A E : Type} (s : src A E) : bool :=
  match s with SSkip | SAct _ | SIf _ _ _ | SIfOne _ _ | SWhile _ _ | SWhileOne _ _ => true | _ => false end.
Fixpoint braced {A E : Type} (s : src A E) : bool :=
  match s with
  | SSeq s1 s2 | SIf _ s1 s2 => braced s1 && braced s2
  | SIfOne _ s1 | SWhileOne _ s1 => single s1 && braced s1
  | SWhile _ s1 => braced s1
  | _ => true
  end.
