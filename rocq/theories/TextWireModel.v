(** C106: TextWriter (TextWriter.h) over UsartOutputStream on one board: the calls of [PrintModel] on top of the
    hardware of [HwTxModel].  TextWriter gives its characters to BaseT::Write one by one; UsartOutputStream::Write
    (AVR/UsartOutputStream.h 64-68) answers nothing, also when the buffer is full. *)
Require Import ZArith List Bool.
Import ListNotations.
From Verif Require Import Base RingModel StreamModel HwTxModel TextModel PrintModel.
Open Scope Z_scope.

(** [z_todo]: the characters the current call has still to pass to BaseT::Write; [z_calls]: the calls so far. *)
Record tsend := mkTs { z_port : xport; z_todo : list Z; z_calls : list pcall }.
Definition z_start (m : Z -> Z) : tsend := mkTs (xport_init m) [] [].
(** Write or WriteLine is called (ignored during a call), the main loop goes on, the handler gets its turn, the end of a
    character. *)
Inductive tev := TvCall (c : pcall) | TvStep | TvIsr | TvTick.
Definition z_pc (z : tsend) : txpc := t_pc (y_tx (z_port z)).
Definition z_ready (z : tsend) : bool := match z_pc z, z_todo z with TIdle, [] => true | _, _ => false end.

(** UsartOutputStream::getLength (47-50): the length of the buffer, as a uint8_t. *)
Definition out_length (Size : Z) (x : xport) : Z := u8 (ring_length Size (t_ring (y_tx x))).

Section Sender.
Variables (iw p s : Z) (f : format) (Size : Z).
(** What the USART and the stream see of this, and what TextWriter has left to do. *)
Definition z_does (z : tsend) (e : tev) : option (list yev * (list Z * list pcall)) :=
  match e with
  | TvCall c =>
      if z_ready z
      then match call_text iw p s f c with Some t => Some ([], (t, z_calls z ++ [c])) | None => None end
      else Some ([], (z_todo z, z_calls z))
  | TvStep =>
      match z_pc z, z_todo z with
      | TIdle, [] => Some ([], ([], z_calls z))
      | TIdle, b :: rest => Some ([YWrite b], (rest, z_calls z))
      | _, _ => Some ([YStep], (z_todo z, z_calls z))
      end
  | TvIsr => Some ([YIsr], (z_todo z, z_calls z))
  | TvTick => Some ([YTick], (z_todo z, z_calls z))
  end.
(** The events of the stream, and the state unless a call is undefined. *)
Fixpoint z_steps (z : tsend) (evs : list tev) : list yev * option tsend :=
  match evs with
  | [] => ([], Some z)
  | e :: rest =>
      match z_does z e with
      | Some (ys, (todo, calls)) =>
          match xport_run Size (z_port z) ys with
          | Some x => let (more, z') := z_steps (mkTs x todo calls) rest in (ys ++ more, z')
          | None => (ys, None)
          end
      | None => ([], None)
      end
  end.

(** A program that calls only when the text fits: getLength and the length of the text are within the buffer. *)
Fixpoint z_fits (z : tsend) (evs : list tev) : bool :=
  match evs with
  | [] => true
  | e :: rest =>
      (match e with
       | TvCall c =>
           if z_ready z
           then match call_text iw p s f c with
                | Some t => out_length Size (z_port z) + Z.of_nat (length t) <=? Size - 1
                | None => true
                end
           else true
       | _ => true
       end) &&
      match z_does z e with
      | Some (ys, (todo, calls)) =>
          match xport_run Size (z_port z) ys with
          | Some x => z_fits (mkTs x todo calls) rest
          | None => true
          end
      | None => true
      end
  end.
End Sender.
