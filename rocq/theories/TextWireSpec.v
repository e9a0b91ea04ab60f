(** C106: programs that may be run. *)
Require Import ZArith List Bool.
Import ListNotations.
From Verif Require Import Base PrintModel PrintSpec TextWireModel.
Open Scope Z_scope.

(** A call of Write or WriteLine whose argument can be written (C81). *)
Definition tev_ok (iw p s : Z) (f : format) (e : tev) : Prop :=
  match e with TvCall (PIo _) => False | TvCall c => call_ok iw p s f c | _ => True end.
(** The values given to WriteLine, if the program calls nothing else. *)
Definition only_lines (cs : list pcall) : Prop := Forall (fun c => match c with PLine _ => True | _ => False end) cs.
