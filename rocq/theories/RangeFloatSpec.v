(** What ranges of floating point numbers mean, through the order [le_f] (PidFloatSpec.v) of their
    values; NaN is not in that order. *)
Require Import ZArith List Bool Floats.SpecFloat.
Import ListNotations.
From Verif Require Import FloatSpec PidFloatModel PidFloatSpec RangeFloatModel.
Open Scope Z_scope.

(** Strictly larger. *)
Definition gt_f (p x : Z) (a b : spec_float) : Prop := le_f p x b a /\ ~ le_f p x a b.
(** [v] lies between [b] and [e], whichever is the larger. *)
Definition fbetween (p x : Z) (b e v : spec_float) : Prop :=
  (le_f p x b v /\ le_f p x v e) \/ (le_f p x e v /\ le_f p x v b).
Definition fvalid_range (p x : Z) (r : frange) : Prop := valid p x (fr_begin r) /\ valid p x (fr_end r).

(** The values selected by the calls on a container. *)
Definition fvset := spec_float -> Prop.
Definition fvc_sel (p x : Z) (s : fvset) (o : fvc_op) : fvset :=
  match o with
  | FVSingle v => fun u => le_f p x u v /\ le_f p x v u
  | FVRange b e => fbetween p x b e
  | FVAny => fun _ => True
  | FVNone => fun _ => False
  | FVNormalize => s
  end.
Definition fvalid_op (p x : Z) (o : fvc_op) : Prop :=
  match o with FVSingle v => valid p x v | FVRange b e => valid p x b /\ valid p x e | _ => True end.
(** Normalize is only called once a value or range was set. *)
Fixpoint fnorm_ok (init : bool) (ops : list fvc_op) : bool :=
  match ops with
  | [] => true
  | FVNormalize :: rest => init && fnorm_ok init rest
  | (FVSingle _ | FVRange _ _) :: rest => fnorm_ok true rest
  | _ :: rest => fnorm_ok init rest
  end.
