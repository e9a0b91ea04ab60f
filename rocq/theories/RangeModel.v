(** Range.h, ValueContainer.h, Math.h: translated code.
    The value type is any integer type; its values are integers (only comparisons are used). *)
Require Import ZArith List Bool.
Import ListNotations.
From Verif Require Import Base BitModel.
Open Scope Z_scope.

(** Range.h 43-52. *)
Record range := mkRange { r_begin : Z; r_end : Z }.

(** Range.h 59-67 [IsInRange]. *)
Definition in_range (r : range) (v : Z) : bool :=
  if r_begin r >? r_end r then (r_end r <=? v) && (v <=? r_begin r)
  else (r_begin r <=? v) && (v <=? r_end r).
(** Range.h 72-80 [Normalize]. *)
Definition normalize (r : range) : range :=
  if r_begin r >? r_end r then mkRange (r_end r) (r_begin r) else r.
(** Range.h 85-88 [IsNormalized]. *)
Definition is_normalized (r : range) : bool := r_end r >=? r_begin r.
(** Range.h 94-104 [ClipValue]. *)
Definition clip (r : range) (v : Z) : Z :=
  let v := if v >? r_end r then r_end r else v in
  if v <? r_begin r then r_begin r else v.

(** ValueContainer.h 33-39, 108-111.  [None] for an end point: not initialised. *)
Inductive vc_mode := MNone | MSingle | MRange | MAny.
Record vc := mkVc { vc_m : vc_mode; vc_b : option Z; vc_e : option Z }.

Inductive vc_op := VSingle (v : Z) | VRange (b e : Z) | VAny | VNone | VNormalize.
(** Constructor 41-44: begin and end are left uninitialised. *)
Definition vc_new : vc := mkVc MNone None None.
(** 56-78 setters; 98-106 [Normalize]. Reading an uninitialised end point is undefined. *)
Definition vc_step (s : vc) (o : vc_op) : option vc :=
  match o with
  | VSingle v => Some (mkVc MSingle (Some v) (Some v))
  | VRange b e => Some (mkVc MRange (Some b) (Some e))
  | VAny => Some (mkVc MAny (vc_b s) (vc_e s))
  | VNone => Some (mkVc MNone (vc_b s) (vc_e s))
  | VNormalize =>
      match vc_b s, vc_e s with
      | Some b, Some e => Some (if b >? e then mkVc (vc_m s) (Some e) (Some b) else s)
      | _, _ => None
      end
  end.
Fixpoint vc_run (s : vc) (ops : list vc_op) : option vc :=
  match ops with
  | [] => Some s
  | o :: rest => match vc_step s o with Some s' => vc_run s' rest | None => None end
  end.
(** 85-96 [IsInRange]. *)
Definition vc_in (s : vc) (v : Z) : option bool :=
  match vc_m s with
  | MNone => Some false
  | MAny => Some true
  | _ => match vc_b s, vc_e s with
         | Some b, Some e => Some (if b >? e then (e <=? v) && (v <=? b) else (b <=? v) && (v <=? e))
         | _, _ => None
         end
  end.

(** 80-83 the getters; getValue is getBegin.  [None]: reads what was not initialised. *)
Definition vc_get_mode (s : vc) : vc_mode := vc_m s.
Definition vc_get_value (s : vc) : option Z := vc_b s.
Definition vc_get_begin (s : vc) : option Z := vc_b s.
Definition vc_get_end (s : vc) : option Z := vc_e s.

(** Math.h 37-41 [Abs] for a signed type of [w] bits and an int of [iw] bits: the negation is
    computed in the promoted type (overflow is undefined) and converted back to T. *)
Definition math_abs (iw w v : Z) : option Z :=
  if v >=? 0 then Some v
  else let pw := Z.max iw w in
       if - v <? 2 ^ (pw - 1) then Some (sn w (- v)) else None.
