(** Range.h, ValueContainer.h and Math.h for T = float or double.  The comparisons are those of IEEE
    754: all are false with NaN.  [frange] and [fclip] (ClipValue) are in PidFloatModel.v. *)
Require Import ZArith List Bool Floats.SpecFloat.
Import ListNotations.
From Verif Require Import PidFloatModel.
Open Scope Z_scope.

(** C++ [a > b] is [b < a], [a >= b] is [b <= a], also with NaN. *)
(** Range.h 59-67 [IsInRange]. *)
Definition fin_range (r : frange) (v : spec_float) : bool :=
  if f_lt (fr_end r) (fr_begin r) then f_le (fr_end r) v && f_le v (fr_begin r)
  else f_le (fr_begin r) v && f_le v (fr_end r).
(** Range.h 72-80 [Normalize]. *)
Definition fnormalize (r : frange) : frange :=
  if f_lt (fr_end r) (fr_begin r) then mkFRange (fr_end r) (fr_begin r) else r.
(** Range.h 85-88 [IsNormalized]. *)
Definition fis_normalized (r : frange) : bool := f_le (fr_begin r) (fr_end r).

(** ValueContainer.h 33-39, 108-111.  [None] for an end point: not initialised. *)
Inductive fvc_mode := FMNone | FMSingle | FMRange | FMAny.
Record fvc := mkFVc { fvc_m : fvc_mode; fvc_b : option spec_float; fvc_e : option spec_float }.
Inductive fvc_op := FVSingle (v : spec_float) | FVRange (b e : spec_float) | FVAny | FVNone | FVNormalize.
(** 41-44. *)
Definition fvc_new : fvc := mkFVc FMNone None None.
(** 56-78, 98-106. *)
Definition fvc_step (s : fvc) (o : fvc_op) : option fvc :=
  match o with
  | FVSingle v => Some (mkFVc FMSingle (Some v) (Some v))
  | FVRange b e => Some (mkFVc FMRange (Some b) (Some e))
  | FVAny => Some (mkFVc FMAny (fvc_b s) (fvc_e s))
  | FVNone => Some (mkFVc FMNone (fvc_b s) (fvc_e s))
  | FVNormalize =>
      match fvc_b s, fvc_e s with
      | Some b, Some e => Some (if f_lt e b then mkFVc (fvc_m s) (Some e) (Some b) else s)
      | _, _ => None
      end
  end.
Fixpoint fvc_run (s : fvc) (ops : list fvc_op) : option fvc :=
  match ops with
  | [] => Some s
  | o :: rest => match fvc_step s o with Some s' => fvc_run s' rest | None => None end
  end.
(** 85-96 [IsInRange]. *)
Definition fvc_in (s : fvc) (v : spec_float) : option bool :=
  match fvc_m s with
  | FMNone => Some false
  | FMAny => Some true
  | _ => match fvc_b s, fvc_e s with
         | Some b, Some e => Some (if f_lt e b then f_le e v && f_le v b else f_le b v && f_le v e)
         | _, _ => None
         end
  end.

(** Math.h 37-41 [Abs]: 0 is converted to T; the negation changes the sign of the data. *)
Definition fmath_abs (v : spec_float) : spec_float := if f_le f0 v then v else SFopp v.
