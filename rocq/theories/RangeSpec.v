(** Specification of ValueContainer: the set of accepted values. *)
Require Import ZArith List Bool.
Import ListNotations.
From Verif Require Import RangeModel.
Open Scope Z_scope.

(** The set an operation selects, independent of the container's representation. *)
Definition vset := Z -> Prop.
Definition vc_sel (s : vset) (o : vc_op) : vset :=
  match o with
  | VSingle v => fun x => x = v
  | VRange b e => fun x => Z.min b e <= x <= Z.max b e
  | VAny => fun _ => True
  | VNone => fun _ => False
  | VNormalize => s
  end.

(** Normalize is only called once a value or range was set. *)
Fixpoint norm_ok (init : bool) (ops : list vc_op) : bool :=
  match ops with
  | [] => true
  | VNormalize :: rest => init && norm_ok init rest
  | (VSingle _ | VRange _ _) :: rest => norm_ok true rest
  | _ :: rest => norm_ok init rest
  end.


(** What the getters return: the last mode set, and the ends last set, in order once normalised. *)
Definition vc_mode_of (m : vc_mode) (o : vc_op) : vc_mode :=
  match o with VSingle _ => MSingle | VRange _ _ => MRange | VAny => MAny | VNone => MNone | VNormalize => m end.
Definition vc_ends_of (d : option (Z * Z)) (o : vc_op) : option (Z * Z) :=
  match o with
  | VSingle v => Some (v, v)
  | VRange b e => Some (b, e)
  | VAny | VNone => d
  | VNormalize => match d with Some (b, e) => Some (Z.min b e, Z.max b e) | None => None end
  end.
