(** C81: text on a serial port. *)
Require Import ZArith List Bool Lia.
Import ListNotations.
From Verif Require Import Base TextSpec RealSpec ArduinoModel ArduinoSpec PrintModel PrintSpec PrintProofs.
Open Scope Z_scope.

(** For any format and any program of writes, attachments, input calls and arriving bytes: nothing is
    undefined, and each port has sent exactly the texts of the calls made while it was attached. *)
Theorem print_port : forall iw p s f, iw = 16 \/ iw = 32 -> 24 <= p -> p + 5 <= s -> format_ok f ->
  forall cap cs a, (forall k, Forall is_byte (s_in (a_port a k))) -> Forall (call_ok iw p s f) cs ->
  exists a' ts, print_run iw p s f cap a cs = Some a' /\ Forall2 (call_shows p s f) cs ts /\
    forall k, s_out (a_port a' k) = s_out (a_port a k) ++ texts_to k (a_out a) cs ts.
Proof.
  intros iw p s f Hi Hp Hs Hf cap cs a I O. destruct (print_l iw p s f Hi Hp Hs Hf cap cs a I O) as (a' & ts & E & _ & S & W).
  exists a', ts. split; [exact E|]. split; [exact S|exact W].
Qed.
Print Assumptions print_port.

(** Reading back: at any moment the complete lines among the bytes sent are the items written with WriteLine,
    in order, each with its value; when all bytes have come there is a line for every item. *)
Theorem print_reads_back : forall iw p s f, iw = 16 \/ iw = 32 -> 24 <= p -> p + 5 <= s -> format_ok f -> readable f ->
  forall cap k cs a a', (forall k, Forall is_byte (s_in (a_port a k))) -> a_out a = Some k ->
  Forall (call_ok iw p s f) cs -> Forall line_call cs -> Forall (one_line f) (line_items cs) ->
  print_run iw p s f cap a cs = Some a' ->
  forall bs more, s_out (a_port a' k) = s_out (a_port a k) ++ bs ++ more ->
  exists n, (n <= length (line_items cs))%nat /\ (more = [] -> n = length (line_items cs)) /\
    Forall2 (fun i t => same_item p s f i (read_as f i t)) (firstn n (line_items cs)) (lines_of (f_newline f) 0 [] bs).
Proof.
  intros iw p s f Hi Hp Hs Hf Hr cap k cs a a' I A O L OL E bs more W.
  exact (back_l iw p s f Hi Hp Hs Hf Hr cap k cs a a' I A O L OL E (bs ++ more) bs more W eq_refl).
Qed.
Print Assumptions print_reads_back.
(** The two formats of the library and the example satisfy the conditions. *)
Example formats_ok : format_ok default_format /\ readable default_format /\ format_ok my_format /\ readable my_format.
Proof.
  assert (N : forall b c, (forall d, 0 <= d < b -> c <> digit_char d) -> ~ is_digit b c) by (intros b c H [d [D E]]; exact (H d D E)).
  unfold format_ok, readable, is_char; cbn [default_format my_format f_base f_digits f_neg f_sep f_newline].
  repeat (split || constructor); try lia; apply N; intros d D; unfold digit_char; destruct (d <? 10) eqn:E; lia.
Qed.
(** Negative numbers in both; itoa and ltoa write a minus sign only in base 10. *)
Example formats_negative : forall iw, iw = 16 \/ iw = 32 ->
  map (call_text iw 24 149 default_format) [PText (TI16 (-42)); PText (TI32 (-42)); PText (TReal (- pi_f))]
    = [Some [45; 52; 50]; Some [45; 52; 50]; Some [45; 51; 46; 49; 52]] /\
  map (call_text iw 24 149 my_format) [PText (TI16 (-42)); PText (TI32 (-42)); PText (TReal (- pi_f))]
    = [Some [70; 70; 68; 54]; Some [70; 70; 70; 70; 70; 70; 68; 54]; Some [45; 51; 44; 49; 52; 49; 54]].
Proof. intros iw [-> | ->]; split; lazy; reflexivity. Qed.

(** TextWriter.ino and TextFormatInfo.ino: whatever the ports did before, setup sends
    "Hello World!", "42", "3.14" and "Hello World!", "2A", "3,1416". *)
Theorem print_sketches : forall iw cap a, iw = 16 \/ iw = 32 ->
  (exists a', print_run iw 24 149 default_format cap a text_setup = Some a' /\
     s_out (a_port a' 0%nat) = s_out (a_port a 0%nat) ++ greeting ++ [10; 13; 52; 50; 10; 13; 51; 46; 49; 52; 10; 13] /\
     forall k, k <> 0%nat -> a_port a' k = a_port a k) /\
  (exists a', print_run iw 24 149 my_format cap a text_setup = Some a' /\
     s_out (a_port a' 0%nat) = s_out (a_port a 0%nat) ++ greeting ++ [10; 50; 65; 10; 51; 44; 49; 52; 49; 54; 10] /\
     forall k, k <> 0%nat -> a_port a' k = a_port a k).
Proof. exact setup_l. Qed.
Print Assumptions print_sketches.
