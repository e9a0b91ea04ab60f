(** TextControl.h over FixedString<MaxChars> and (WrapAround)Iterator<StaticArray<char, n>>:
    translated code.  [None]: access outside the buffer, integer overflow, or an endless loop.
    Texts and character sets are memories; characters are numbers. *)
Require Import ZArith List Bool.
Import ListNotations.
From Verif Require Import Base ArrayModel IteratorModel UiModel.
Open Scope Z_scope.

(** TextControl.h 189-191: state, buffer, edit position (uint8_t), position of the iterator. *)
Record tc := mkTc { tc_st : cstate; tc_buf : Z -> Z; tc_edit : Z; tc_it : Z }.

Section Tc.
Variable MaxChars n : Z.   (* template parameters *)
Variable wrap : bool.      (* WrapAroundIterator? *)
Variable cs : Z -> Z.      (* the characters *)

(** 160-163 [RepositionIterator]; StaticArray::IndexOf ends within 256 rounds or never. *)
Definition tc_reposition (t : tc) : option tc :=
  match arr_get 0 (MaxChars + 1) (tc_buf t) (tc_edit t) with
  | None => None
  | Some ch =>
      match st_index_of Z.eqb 0 n cs ch 257 with
      | None => None
      | Some found => Some (mkTc (tc_st t) (tc_buf t) (tc_edit t) (fst (it_move_to found (tc_it t))))
      end
  end.
(** 144-156 [IncrementValue], [DecrementValue]. *)
Definition tc_change (t : tc) (fwd : bool) : option tc :=
  match (if fwd then (if wrap then wrap_next n (tc_it t) else it_next n (tc_it t))
         else (if wrap then wrap_back n (tc_it t) else it_back n (tc_it t))) with
  | None => None
  | Some (j, _) =>
      match fix_set (MaxChars + 1) (tc_buf t) (tc_edit t) (it_current n 0 (st_get 0 n cs) j) with
      | None => None
      | Some b => Some (mkTc (tc_st t) b (tc_edit t) j)
      end
  end.
(** Control.h 175-183 with 170-186 [BeforeChangeState]. *)
Definition tc_set_state (t : tc) (new : cstate) : option (tc * bool) :=
  if negb (before_input (tc_st t) new) then Some (t, false)
  else
    let t := if cstate_eqb new Focused then mkTc (tc_st t) (tc_buf t) 0 (tc_it t) else t in
    match (if cstate_eqb new Selected then tc_reposition (mkTc (tc_st t) (tc_buf t) 0 (tc_it t)) else Some t) with
    | None => None
    | Some t => Some (mkTc new (tc_buf t) (tc_edit t) (tc_it t), true)
    end.
(** InputControl.h 46-85. *)
Definition tc_input (t : tc) (m : cmd) : option (tc * bool) :=
  match m with
  | Enter => if cstate_eqb (tc_st t) Focused then match tc_set_state t Selected with Some (t, _) => Some (t, true) | None => None end else Some (t, false)
  | Exit => if cstate_eqb (tc_st t) Selected then match tc_set_state t Focused with Some (t, _) => Some (t, true) | None => None end else Some (t, false)
  | _ => Some (t, false)
  end.
(** TextControl.h 76-131, UpDownControl.h 65-110. *)
Definition tc_nav (t : tc) (m : cmd) : option (tc * bool) :=
  let ok := option_map (fun t => (t, true)) in
  if cstate_eqb (tc_st t) Selected then
    match m with
    | Left => if tc_edit t >? 0 then ok (tc_reposition (mkTc (tc_st t) (tc_buf t) (u8 (tc_edit t - 1)) (tc_it t))) else Some (t, true)
    | Right => if tc_edit t + 1 <? fs_capacity MaxChars
               then ok (tc_reposition (mkTc (tc_st t) (tc_buf t) (u8 (tc_edit t + 1)) (tc_it t))) else Some (t, true)
    | Up => ok (tc_change t true)
    | Down => ok (tc_change t false)
    | _ => tc_input t m
    end
  else tc_input t m.

(** What can happen to a control: a command, setState, or other code moving the iterator (which
    several controls may share). *)
Inductive tc_op := TNav (m : cmd) | TState (s : cstate) | TIter (j : Z).
Definition tc_step (t : tc) (o : tc_op) : option (tc * bool) :=
  match o with
  | TNav m => tc_nav t m
  | TState s => tc_set_state t s
  | TIter j => Some (mkTc (tc_st t) (tc_buf t) (tc_edit t) j, true)
  end.
Fixpoint tc_run (t : tc) (ops : list tc_op) : option (tc * list bool) :=
  match ops with
  | [] => Some (t, [])
  | o :: r => match tc_step t o with
              | None => None
              | Some (t, h) => match tc_run t r with Some (t, hs) => Some (t, h :: hs) | None => None end
              end
  end.
End Tc.
