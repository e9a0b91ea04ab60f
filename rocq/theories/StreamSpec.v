(** Observations used to state the stream properties. *)
Require Import ZArith List Bool.
Import ListNotations.
From Verif Require Import StreamModel.
Open Scope Z_scope.

(** The values of the finished Write calls that answered true, in call order. *)
Definition accepted (d : list (Z * bool)) : list Z := map fst (filter snd d).

(** One undisturbed successful Write, one undisturbed successful Read. *)
Definition tx_write (v : Z) : list txev := [TxStart v; TxStep; TxStep; TxStep; TxStep; TxStep].
Definition rx_read_evs : list rxev := [RxStart; RxStep; RxStep; RxStep; RxStep; RxStep].

(** The values of the Write calls that were begun (a call is not begun inside another), and, in the state, those of the
    finished calls and the call in progress. *)
Fixpoint tx_calls (Size : Z) (s : txs) (evs : list txev) : list Z :=
  match evs with
  | [] => []
  | e :: r => (match e, t_pc s with TxStart v, TIdle => [v] | _, _ => [] end) ++
              match tx_step Size s e with Some s' => tx_calls Size s' r | None => [] end
  end.
Definition offered (s : txs) : list Z :=
  map fst (t_done s) ++ match t_pc s with TCheck v | TStore v | TInc v | TWrap v => [v] | _ => [] end.
(** Characters stored, but not yet taken by Read. *)
Definition rx_waiting (s : rxs) : Z :=
  Z.of_nat (length (r_acc s)) - Z.of_nat (length (filter (fun v => 0 <=? v) (r_got s))) - (match r_pc s with RWrap _ => 1 | _ => 0 end).
