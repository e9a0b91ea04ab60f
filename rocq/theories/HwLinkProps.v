(** C98: from UsartOutputStream::Write on one board to UsartInputStream::Read on another, with the
    registers of both USARTs in between. *)
Require Import ZArith List Bool Lia.
Import ListNotations.
From Verif Require Import Base BaseFacts RingModel StreamModel StreamSpec StreamProofs HwRxModel HwRxSpec HwRxProofs HwTxModel HwTxSpec HwTxProofs.
Open Scope Z_scope.

Lemma put_bytes : forall u d, Forall is_byte (all_of u) -> Forall is_byte (all_of (utx_put u d)).
Proof.
  intros u d H. destruct (accept_data u) eqn:A.
  - rewrite put_all by exact A. apply Forall_app. split; [exact H|]. apply Forall_cons; [|apply Forall_nil]. unfold is_byte, u8. apply Z.mod_pos_bound. reflexivity.
  - unfold utx_put, accept_data in *. destruct (x_udr u); [exact H|discriminate].
Qed.
Lemma puts_bytes : forall l u, Forall is_byte (all_of u) -> Forall is_byte (all_of (fold_left utx_put l u)).
Proof. induction l as [|d l IH]; intros u H; [exact H|]. cbn [fold_left]. apply IH. now apply put_bytes. Qed.
Lemma xport_bytes : forall Size evs p p', Forall is_byte (all_of (y_utx p)) -> xport_run Size p evs = Some p' -> Forall is_byte (all_of (y_utx p')).
Proof.
  intros Size. induction evs as [|e evs IH]; intros p p' H R; cbn [xport_run] in R; [inversion R; subst; exact H|].
  destruct (xport_step Size p e) as [p1|] eqn:E; [|discriminate]. apply (IH p1); [|exact R]. clear IH R.
  destruct e as [v| | |]; unfold xport_step in E.
  - destruct (tx_step Size (y_tx p) (TxStart v)) as [s|]; [|discriminate]. inversion E; subst. exact H.
  - destruct (tx_step Size (y_tx p) TxStep) as [s|]; [|discriminate]. inversion E; subst. exact H.
  - destruct (t_ien (y_tx p) && accept_data (y_utx p)); [|inversion E; subst; exact H].
    destruct (tx_step Size (y_tx p) TxIsr) as [s|]; [|discriminate]. inversion E; subst. cbn [y_utx]. now apply puts_bytes.
  - inversion E; subst. cbn [y_utx]. now rewrite tick_all.
Qed.
Lemma map_u8_bytes : forall l, Forall is_byte l -> map u8 l = l.
Proof. intros l H. induction H as [|x l Hx H IH]; [reflexivity|]. cbn [map]. now rewrite (u8_small x Hx), IH. Qed.

(** Any schedule on either board (at most one handler run inside each wrap-around window); the
    receiving USART has so far got the first [n] characters that were sent completely.  If no start
    bit found three characters unread there and its ring buffer refused none (or could not), then the
    values that Read answered, the one it is about to answer, those queued and those in the hardware
    are, in order, the first [n] bytes that Write accepted; so whatever has been read is a prefix of
    what was written. *)
Theorem hw_link : forall Size m evs p Size' m' evs' n,
  1 <= Size <= 65535 -> xport_polite Size (xport_init m) false evs = true -> xport_run Size (xport_init m) evs = Some p ->
  1 <= Size' <= 65535 -> port_polite Size' (port_init m') false evs' = true ->
  chars false (wire Size' (port_init m') evs') = firstn n (x_line (y_utx p)) ->
  losses 0 false (wire Size' (port_init m') evs') = 0%nat ->
  exists r, port_run Size' (port_init m') evs' = Some r /\
    (length (r_acc (p_rx r)) = length (p_taken r) \/ Z.of_nat (length (p_taken r)) <= Size' - 1 ->
     exists queued later, in_ring Size' (p_rx r) queued /\
       filter (fun v => 0 <=? v) (r_got (p_rx r)) ++ (match r_pc (p_rx r) with RWrap v => [v] | _ => [] end) ++
         queued ++ map (fun c => u8 (fst c)) (unread (p_uart r)) = firstn n (x_line (y_utx p)) /\
       accepted (t_done (y_tx p)) ++ (match t_pc (y_tx p) with TWrap v => [v] | _ => [] end) =
         firstn n (x_line (y_utx p)) ++ later).
Proof.
  intros Size m evs p Size' m' evs' n HS P R HS' P' C L.
  destruct (port_lossless_l Size' HS' m' evs' P' L) as (r & R' & Q). exists r. split; [exact R'|]. intros H. destruct (Q H) as (queued & K & E).
  destruct (hw_tx_stream_l Size HS m evs P) as (p1 & q & R1 & A & _). rewrite R in R1. inversion R1; subst p1.
  exists queued, (skipn n (x_line (y_utx p)) ++ outstanding (y_utx p) ++ q). split; [exact K|]. split.
  - rewrite <- E, C. apply map_u8_bytes.
    assert (B : Forall is_byte (all_of (y_utx p))) by (refine (xport_bytes Size evs _ _ _ R); apply Forall_nil).
    unfold all_of in B. apply Forall_app in B. destruct B as [B _]. rewrite <- (firstn_skipn n) in B. apply Forall_app in B. tauto.
  - rewrite A. rewrite <- (firstn_skipn n (x_line (y_utx p))) at 1. now rewrite <- app_assoc.
Qed.
Print Assumptions hw_link.

(** 'A' and 'B' are written on one board and read on the other. *)
Definition hl_write (v : Z) : list yev := YWrite v :: repeat YStep 5.
Definition hl_sender : list yev := hl_write 65 ++ hl_write 66 ++ [YIsr; YIsr; YTick; YIsr; YTick].
Definition hl_read : list pev := PRead :: repeat PStep 7.
Definition hl_receiver : list pev := [PStart; PStop 65] ++ hl_read ++ [PStart; PIsr; PStop 66; PIsr] ++ hl_read ++ hl_read ++ hl_read.
Example hw_link_example :
  xport_polite 8 (xport_init (fun _ => 0)) false hl_sender = true /\
  option_map (fun p => x_line (y_utx p)) (xport_run 8 (xport_init (fun _ => 0)) hl_sender) = Some [65; 66] /\
  port_polite 8 (port_init (fun _ => 0)) false hl_receiver = true /\
  chars false (wire 8 (port_init (fun _ => 0)) hl_receiver) = [65; 66] /\
  losses 0 false (wire 8 (port_init (fun _ => 0)) hl_receiver) = 0%nat /\
  option_map (fun r => r_got (p_rx r)) (port_run 8 (port_init (fun _ => 0)) hl_receiver) = Some [-1; 65; 66; -1].
Proof. repeat split. Qed.
