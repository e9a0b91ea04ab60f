(** Arduino adapters, I2C and pins. *)
Require Import ZArith List Bool Lia ZifyBool.
Import ListNotations.
From Verif Require Import Base BaseFacts MidiModel MidiSpec MidiProofs HdModel HdSpec HdIfProofs ArduinoModel ArduinoSpec LinkProofs.
Open Scope Z_scope.

(** ** Clear *)
Lemma receive_in_bytes : forall cap l s, Forall is_byte l -> Forall is_byte (s_in s) -> Forall is_byte (s_in (fold_left (receive cap) l s)).
Proof.
  induction l as [|b l IH]; intros s F S0; [exact S0|]. inversion F; subst. cbn [fold_left]. apply IH; [assumption|].
  unfold receive. destruct (length (s_in s) <? cap)%nat; cbn [s_in]; [|exact S0]. apply Forall_app. split; [exact S0|]. constructor; [assumption|constructor].
Qed.
Lemma clear_quiet : forall cap n s i arrive, Forall is_byte (s_in s) -> (length (s_in s) < n)%nat -> (forall j, (i <= j)%nat -> arrive j = []) ->
  clear_loop cap n arrive i s = Some (mkSerial [] (s_out s) (s_lost s)).
Proof.
  intros cap. induction n as [|n IH]; intros s i arrive F L A; [lia|]. cbn [clear_loop]. unfold read.
  destruct (s_in s) as [|b q] eqn:E.
  - cbn [Z.eqb]. destruct s; cbn in *; subst; reflexivity.
  - inversion F as [|? ? Fb Fq]; subst. unfold is_byte in Fb. replace (b =? -1) with false by lia.
    rewrite A by lia. cbn [fold_left]. rewrite IH; [reflexivity|exact Fq|cbn [s_in length] in *; lia|intros j J; apply A; lia].
Qed.
Lemma clear_mono : forall cap n arrive i s r k, clear_loop cap n arrive i s = Some r -> clear_loop cap (n + k) arrive i s = Some r.
Proof.
  intros cap. induction n as [|n IH]; intros arrive i s r k H; [discriminate|]. cbn [clear_loop Nat.add] in *.
  destruct (read s) as [s' v]. destruct (v =? -1); [exact H|]. apply IH. exact H.
Qed.
Lemma clear_ends_l : forall cap n s i arrive, Forall is_byte (s_in s) -> (forall j, Forall is_byte (arrive j)) ->
  (forall j, (i + n <= j)%nat -> arrive j = []) ->
  exists fuel s', clear_loop cap fuel arrive i s = Some s' /\ s_in s' = [] /\ s_out s' = s_out s.
Proof.
  intros cap. induction n as [|n IH]; intros s i arrive F B A.
  - exists (S (length (s_in s))). eexists. split; [apply clear_quiet; [exact F|lia|intros j J; apply A; lia]|]. split; reflexivity.
  - destruct (s_in s) as [|b q] eqn:E.
    + exists 1%nat, s. cbn [clear_loop]. unfold read. rewrite E. cbn [Z.eqb]. auto.
    + inversion F as [|? ? Fb Fq]; subst. unfold is_byte in Fb.
      destruct (IH (fold_left (receive cap) (arrive i) (mkSerial q (s_out s) (s_lost s))) (S i) arrive) as (fuel & s' & C & D & O).
      * apply receive_in_bytes; [apply B|exact Fq].
      * exact B.
      * intros j J. apply A. lia.
      * exists (S fuel), s'. cbn [clear_loop]. unfold read. rewrite E. replace (b =? -1) with false by lia.
        split; [exact C|]. split; [exact D|]. rewrite O. clear. 
        assert (G : forall l x, s_out (fold_left (receive cap) l x) = s_out x).
        { induction l as [|y l IHl]; intros x; [reflexivity|]. cbn [fold_left]. rewrite IHl. unfold receive. destruct (length (s_in x) <? cap)%nat; reflexivity. }
        rewrite G. reflexivity.
Qed.
Lemma clear_never_l : forall cap n s i arrive, (1 <= cap)%nat -> Forall is_byte (s_in s) -> (forall j, Forall is_byte (arrive j)) ->
  s_in s <> [] -> (forall j, arrive j <> []) -> clear_loop cap n arrive i s = None.
Proof.
  intros cap. induction n as [|n IH]; intros s i arrive C F B N A; [reflexivity|]. cbn [clear_loop]. unfold read.
  destruct (s_in s) as [|b q] eqn:E; [congruence|]. inversion F as [|? ? Fb Fq]; subst. unfold is_byte in Fb. replace (b =? -1) with false by lia.
  apply IH; [exact C|apply receive_in_bytes; [apply B|exact Fq]|exact B| |exact A].
  assert (G : forall l x, s_in x <> [] -> s_in (fold_left (receive cap) l x) <> []).
  { induction l as [|y l IHl]; intros x X; [exact X|]. cbn [fold_left]. apply IHl. unfold receive. destruct (length (s_in x) <? cap)%nat; cbn [s_in]; [|exact X].
    destruct (s_in x); discriminate. }
  destruct (arrive i) as [|y l] eqn:Y; [exfalso; eapply A; exact Y|]. cbn [fold_left]. apply G. unfold receive. cbn [s_in].
  destruct (length q <? cap)%nat eqn:Q; cbn [s_in]; [destruct q; discriminate|]. destruct q; [cbn [length] in Q; lia|discriminate].
Qed.

(** ** The adapters *)
Definition bytes_in (a : adapters) : Prop := forall k, Forall is_byte (s_in (a_port a k)).
Lemma port_set : forall a k s j, a_port (set_port a k s) j = if Nat.eqb j k then s else a_port a j.
Proof. reflexivity. Qed.
Lemma a_step_l : forall cap a o, bytes_in a -> aop_ok o -> exists a' v, a_step cap a o = Some (a', v) /\ bytes_in a' /\
  a_in a' = in_after (a_in a) o /\ a_out a' = match o with AOut c => c | _ => a_out a end /\
  (forall k, s_out (a_port a' k) = s_out (a_port a k) ++ match o with AWrite b => if at_port (a_out a) k then [b mod 256] else [] | _ => [] end) /\
  (forall k, exists more, s_lost (a_port a' k) = s_lost (a_port a k) ++ more /\
     (more = [] -> (match o with AClear => at_port (a_in a) k | _ => false end) = false ->
      s_in (a_port a k) ++ match o with AReceive j b => if Nat.eqb j k then [b] else [] | _ => [] end =
      match o with ARead => if at_port (a_in a) k && negb (v =? -1) then [v] else [] | _ => [] end ++ s_in (a_port a' k))) /\
  (match o with AClear => forall k, at_port (a_in a) k = true -> s_in (a_port a' k) = [] | _ => True end).
Proof.
  intros cap a o B K. destruct o as [c|c| | | |b| | |j b]; cbn [a_step].
  - do 2 eexists. split; [reflexivity|]. split; [exact B|]. split; [reflexivity|]. split; [reflexivity|]. split; [intros k; cbn [a_port]; rewrite app_nil_r; reflexivity|].
    split; [|exact I]. intros k. exists []. cbn [a_port]. rewrite !app_nil_r. auto.
  - do 2 eexists. split; [reflexivity|]. split; [exact B|]. split; [reflexivity|]. split; [reflexivity|]. split; [intros k; cbn [a_port]; rewrite app_nil_r; reflexivity|].
    split; [|exact I]. intros k. exists []. cbn [a_port]. rewrite !app_nil_r. auto.
  - destruct (a_in a) as [c|] eqn:AI; (do 2 eexists; split; [reflexivity|]; split; [exact B|]; split; [exact AI|]; split; [reflexivity|]; split; [intros k; rewrite app_nil_r; reflexivity|];
    split; [|exact I]; intros k; exists []; rewrite !app_nil_r; auto).
  - destruct (a_in a) as [c|] eqn:AI.
    + unfold read. pose proof (B c) as Bc. destruct (s_in (a_port a c)) as [|x q] eqn:Q.
      * do 2 eexists. split; [reflexivity|].
        assert (P : forall k, a_port (set_port a c (a_port a c)) k = a_port a k).
        { intros k. rewrite port_set. destruct (Nat.eqb_spec k c); subst; reflexivity. }
        split; [intros k; rewrite P; apply B|]. split; [exact AI|]. split; [reflexivity|]. split; [intros k; rewrite P, app_nil_r; reflexivity|].
        split; [|exact I]. intros k. exists []. rewrite P, !app_nil_r. split; [reflexivity|]. intros _ _.
        change (s16 (-1) =? -1) with true. cbn [negb]. rewrite andb_false_r. reflexivity.
      * inversion Bc as [|? ? Bx Bq]; subst. unfold is_byte in Bx. do 2 eexists. split; [reflexivity|].
        split; [intros k; rewrite port_set; destruct (Nat.eqb k c); [exact Bq|apply B]|]. split; [exact AI|]. split; [reflexivity|].
        split; [intros k; rewrite port_set, app_nil_r; destruct (Nat.eqb_spec k c); subst; reflexivity|].
        split; [|exact I]. intros k. exists []. rewrite port_set, !app_nil_r. rewrite s16_small by lia. replace (x =? -1) with false by lia.
        cbn [negb at_port]. rewrite andb_true_r, (Nat.eqb_sym c k). destruct (Nat.eqb_spec k c) as [->|N]; cbn [s_lost s_in].
        -- split; [reflexivity|]. intros _ _. rewrite Q. reflexivity.
        -- auto.
    + do 2 eexists. split; [reflexivity|]. split; [exact B|]. split; [exact AI|]. split; [reflexivity|]. split; [intros k; rewrite app_nil_r; reflexivity|].
      split; [|exact I]. intros k. exists []. rewrite !app_nil_r. auto.
  - destruct (a_in a) as [c|] eqn:AI.
    + rewrite (clear_quiet cap) by (try apply B; try lia; intros; reflexivity).
      do 2 eexists. split; [reflexivity|]. split; [intros k; rewrite port_set; destruct (Nat.eqb k c); [constructor|apply B]|].
      split; [exact AI|]. split; [reflexivity|].
      split; [intros k; rewrite port_set, app_nil_r; destruct (Nat.eqb_spec k c); subst; reflexivity|]. split.
      * intros k. exists []. rewrite port_set, !app_nil_r. cbn [at_port]. rewrite (Nat.eqb_sym c k). destruct (Nat.eqb_spec k c) as [->|N]; [|auto].
        split; [reflexivity|]. intros _ X. discriminate.
      * intros k X. cbn [at_port] in X. rewrite port_set, (Nat.eqb_sym k c), X. reflexivity.
    + do 2 eexists. split; [reflexivity|]. split; [exact B|]. split; [exact AI|]. split; [reflexivity|]. split; [intros k; rewrite app_nil_r; reflexivity|].
      split; [|intros k X; discriminate]. intros k. exists []. rewrite !app_nil_r. auto.
  - destruct (a_out a) as [c|] eqn:AO.
    + do 2 eexists. split; [reflexivity|]. split; [intros k; rewrite port_set; destruct (Nat.eqb_spec k c) as [->|N]; apply B|].
      split; [reflexivity|]. split; [exact AO|]. split.
      * intros k. rewrite port_set. cbn [at_port]. rewrite (Nat.eqb_sym c k). destruct (Nat.eqb_spec k c) as [->|N]; [reflexivity|]. rewrite app_nil_r. reflexivity.
      * split; [|exact I]. intros k. exists []. rewrite port_set, !app_nil_r. destruct (Nat.eqb_spec k c) as [->|N]; auto.
    + do 2 eexists. split; [reflexivity|]. split; [exact B|]. split; [reflexivity|]. split; [exact AO|]. split; [intros k; rewrite app_nil_r; reflexivity|].
      split; [|exact I]. intros k. exists []. rewrite !app_nil_r. auto.
  - do 2 eexists. split; [reflexivity|]. split; [exact B|]. split; [reflexivity|]. split; [reflexivity|]. split; [intros k; rewrite app_nil_r; reflexivity|].
    split; [|exact I]. intros k. exists []. rewrite !app_nil_r. auto.
  - do 2 eexists. split; [reflexivity|]. split; [exact B|]. split; [reflexivity|]. split; [reflexivity|]. split; [intros k; rewrite app_nil_r; reflexivity|].
    split; [|exact I]. intros k. exists []. rewrite !app_nil_r. auto.
  - do 2 eexists. split; [reflexivity|]. cbn [aop_ok] in K.
    split; [intros k; rewrite port_set; destruct (Nat.eqb k j); [apply (receive_in_bytes cap [b]); [constructor; [assumption|constructor]|apply B]|apply B]|].
    split; [reflexivity|]. split; [reflexivity|]. split.
    + intros k. rewrite port_set, app_nil_r. destruct (Nat.eqb_spec k j) as [->|N]; [|reflexivity]. unfold receive. destruct (length (s_in (a_port a j)) <? cap)%nat; reflexivity.
    + split; [|exact I]. intros k. rewrite port_set, (Nat.eqb_sym j k). destruct (Nat.eqb_spec k j) as [->|N]; [|exists []; rewrite !app_nil_r; auto].
      unfold receive. destruct (length (s_in (a_port a j)) <? cap)%nat; cbn [s_in s_lost].
      * exists []. rewrite app_nil_r. auto.
      * exists [b]. split; [reflexivity|]. intros X. discriminate.
Qed.

Lemma read_from_cons : forall k c o rest v vs,
  read_from k c (o :: rest) (v :: vs) =
  match o with ARead => if at_port c k && negb (v =? -1) then [v] else [] | _ => [] end ++ read_from k (in_after c o) rest vs.
Proof. intros k c [] rest v vs; reflexivity. Qed.
Lemma written_to_cons : forall k c o rest,
  written_to k c (o :: rest) =
  match o with AWrite b => if at_port c k then [b mod 256] else [] | _ => [] end ++ written_to k (match o with AOut c => c | _ => c end) rest.
Proof. intros k c [] rest; reflexivity. Qed.
Lemma received_at_cons : forall k o rest,
  received_at k (o :: rest) = match o with AReceive j b => if Nat.eqb j k then [b] else [] | _ => [] end ++ received_at k rest.
Proof. intros k [] rest; reflexivity. Qed.

Lemma adapters_l : forall cap ops a, bytes_in a -> Forall aop_ok ops ->
  exists a' vs, a_run cap a ops = Some (a', vs) /\ bytes_in a' /\
    forall k, s_out (a_port a' k) = s_out (a_port a k) ++ written_to k (a_out a) ops /\
      (exists more, s_lost (a_port a' k) = s_lost (a_port a k) ++ more) /\
      (s_lost (a_port a' k) = s_lost (a_port a k) -> clears k (a_in a) ops = false ->
       s_in (a_port a k) ++ received_at k ops = read_from k (a_in a) ops vs ++ s_in (a_port a' k)).
Proof.
  intros cap. induction ops as [|o ops IH]; intros a B F.
  - exists a, []. split; [reflexivity|]. split; [exact B|]. intros k. cbn. rewrite !app_nil_r. split; [reflexivity|]. split; [exists []; rewrite app_nil_r; reflexivity|auto].
  - inversion F as [|? ? Fo Fs]; subst. destruct (a_step_l cap a o B Fo) as (a1 & v & E & B1 & I1 & O1 & W & L & _).
    destruct (IH a1 B1 Fs) as (a' & vs & E2 & B2 & G). exists a', (v :: vs). cbn [a_run]. rewrite E, E2. split; [reflexivity|]. split; [exact B2|].
    intros k. destruct (G k) as (G1 & (m2 & G2) & G3). destruct (L k) as (m1 & L1 & L2).
    split; [rewrite G1, W, <- app_assoc, written_to_cons, O1; reflexivity|].
    split; [exists (m1 ++ m2); rewrite G2, L1, app_assoc; reflexivity|].
    intros Q C. cbn [clears] in C. apply orb_false_elim in C. destruct C as [C1 C2].
    rewrite G2, L1, <- app_assoc in Q.
    assert (MM : m1 ++ m2 = []).
    { apply (f_equal (@length Z)) in Q. rewrite !app_length in Q. destruct m1; [destruct m2; [reflexivity|cbn in Q; lia]|cbn in Q; lia]. }
    apply app_eq_nil in MM. destruct MM as [-> ->]. rewrite app_nil_r in G2.
    rewrite read_from_cons, received_at_cons, <- I1, app_assoc, (L2 eq_refl C1), <- !app_assoc. f_equal. apply G3; [exact G2|rewrite I1; exact C2].
Qed.

Lemma reached_in : forall cap a o a' v, a_step cap a o = Some (a', v) ->
  (a_in a = None -> (o = ALength -> a' = a /\ v = 0) /\ (o = ARead -> a' = a /\ v = -1) /\ (o = AClear -> a' = a)) /\
  (a_out a = None -> forall b, o = AWrite b -> a' = a) /\
  (forall k, a_in a = Some k -> bytes_in a -> (o = ALength -> Z.of_nat (length (s_in (a_port a k))) < 65536 -> v = Z.of_nat (length (s_in (a_port a k)))) /\
     (o = ARead -> (v = -1 <-> s_in (a_port a k) = []))).
Proof.
  intros cap a o a' v E. split; [|split].
  - intros N. split; [|split]; intros ->; cbn [a_step] in E; rewrite N in E; injection E as <- <-; auto.
  - intros N b ->. cbn [a_step] in E. rewrite N in E. injection E as <- <-. reflexivity.
  - intros k A B. split; intros ->; cbn [a_step] in E; rewrite A in E.
    + intros L. injection E as <- <-. unfold available. apply u16_small. lia.
    + unfold read in E. pose proof (B k) as Bk. destruct (s_in (a_port a k)) as [|x q] eqn:Q; injection E as <- <-.
      * split; reflexivity.
      * inversion Bk as [|? ? Bx]; subst. unfold is_byte in Bx. rewrite s16_small by lia. split; [lia|discriminate].
Qed.

(** ** MIDI over the adapters *)
Lemma write_all_app : forall ops run o, write_all run (ops ++ [o]) = write_all run ops ++
  snd (match o with WMessage m => write_msg (fold_left (fun r o => match o with WMessage m => fst (write_msg r m) | WType _ => r end) ops run) m | WType t => (run, write_type t) end).
Proof.
  induction ops as [|x ops IH]; intros run o.
  - cbn [app fold_left write_all]. destruct o as [m|t]; cbn [write_all snd]; [destruct (write_msg run m); cbn [snd]|]; rewrite app_nil_r; reflexivity.
  - cbn [app fold_left write_all]. destruct x as [m|t].
    + destruct (write_msg run m) as [r out] eqn:E. rewrite IH, app_assoc. cbn [fst]. destruct o; reflexivity.
    + rewrite IH, app_assoc. destruct o; reflexivity.
Qed.
Definition run_after (ops : list w_op) : Z := fold_left (fun r o => match o with WMessage m => fst (write_msg r m) | WType _ => r end) ops 0.
Lemma k_inv : forall cap ops, (1 <= cap)%nat -> Z.of_nat cap < 65536 ->
  let p := k_ops cap ops in
  k_run p = run_after (k_written ops) /\ s_out (k_tx p) = map u8 (write_all 0 (k_written ops)) /\
  (k_arrived p <= length (s_out (k_tx p)))%nat /\ (length (s_in (k_rx p)) <= cap)%nat /\ Forall is_byte (s_in (k_rx p)) /\
  exists seen, exists ns, read_all r_init seen = (k_reader p, ns) /\ k_notes p = concat ns /\
    (s_lost (k_rx p) = [] -> firstn (k_arrived p) (s_out (k_tx p)) = seen ++ s_in (k_rx p)).
Proof.
  intros cap ops C1 C2. cbv zeta. induction ops as [|o ops IH] using rev_ind.
  - cbn. repeat split; auto; try lia. exists [], []. auto.
  - unfold k_ops in *. rewrite fold_left_app. cbn [fold_left]. set (p := fold_left (k_step cap) ops k_start) in *. clearbody p.
    destruct IH as (R & W & A & LI & BI & seen & ns & E & N & G).
    unfold k_written. rewrite flat_map_app. fold (k_written ops). cbn [flat_map]. rewrite app_nil_r.
    destruct o as [o| |]; cbn [k_step].
    + assert (RA : run_after (k_written ops ++ [o]) = fst (match o with WMessage m => write_msg (k_run p) m | WType t => (k_run p, write_type t) end)).
      { unfold run_after. rewrite fold_left_app. cbn [fold_left]. rewrite R. destruct o; reflexivity. }
      assert (WA : write_all 0 (k_written ops ++ [o]) = write_all 0 (k_written ops) ++ snd (match o with WMessage m => write_msg (k_run p) m | WType t => (k_run p, write_type t) end)).
      { rewrite write_all_app, R. destruct o; reflexivity. }
      destruct (match o with WMessage m => write_msg (k_run p) m | WType t => (k_run p, write_type t) end) as [run out]. cbn [fst snd] in *.
      cbn [k_run k_tx k_arrived k_rx k_reader k_notes s_out]. split; [auto|]. split; [rewrite WA, map_app, W; reflexivity|].
      split; [rewrite app_length; lia|]. split; [exact LI|]. split; [exact BI|]. exists seen, ns. split; [exact E|]. split; [exact N|].
      intros L. rewrite firstn_app. replace (k_arrived p - length (s_out (k_tx p)))%nat with 0%nat by lia. cbn [firstn]. rewrite app_nil_r. auto.
    + rewrite app_nil_r. destruct (nth_error (s_out (k_tx p)) (k_arrived p)) as [b|] eqn:Q.
      2:{ split; [exact R|]. split; [exact W|]. split; [exact A|]. split; [exact LI|]. split; [exact BI|]. exists seen, ns. auto. }
      cbn [k_run k_tx k_arrived k_rx k_reader k_notes]. split; [exact R|]. split; [exact W|].
      assert (K : (k_arrived p < length (s_out (k_tx p)))%nat) by (apply nth_error_Some; congruence).
      split; [lia|].
      assert (Bb : is_byte b).
      { apply nth_error_In in Q. rewrite W in Q. apply in_map_iff in Q. destruct Q as (x & <- & _). unfold is_byte, u8. apply Z.mod_pos_bound. lia. }
      unfold receive. destruct (length (s_in (k_rx p)) <? cap)%nat eqn:LC; cbn [s_in s_lost].
      * split; [rewrite app_length; cbn [length]; lia|]. split; [apply Forall_app; split; [exact BI|constructor; [exact Bb|constructor]]|].
        exists seen, ns. split; [exact E|]. split; [exact N|]. intros L. rewrite app_assoc, <- (G L).
        clear - Q. revert Q. generalize (s_out (k_tx p)) (k_arrived p). intros l n. revert l. induction n as [|n IH]; intros [|x l] Q; cbn [nth_error firstn app] in *; try discriminate.
        -- injection Q as ->. reflexivity.
        -- f_equal. apply IH. exact Q.
      * split; [exact LI|]. split; [exact BI|]. exists seen, ns. split; [exact E|]. split; [exact N|]. intros L. destruct (s_lost (k_rx p)); discriminate.
    + rewrite app_nil_r. unfold available. rewrite u16_small by lia.
      destruct (Z.of_nat (length (s_in (k_rx p))) >? 0) eqn:Q.
      2:{ split; [exact R|]. split; [exact W|]. split; [exact A|]. split; [exact LI|]. split; [exact BI|]. exists seen, ns. auto. }
      unfold read. destruct (s_in (k_rx p)) as [|x q] eqn:SI; [cbn [length] in Q; lia|].
      inversion BI as [|? ? Bx Bq]; subst. unfold is_byte in Bx. rewrite s16_small by lia. replace (x =? -1) with false by lia.
      rewrite u8_small by lia. destruct (dispatch (k_reader p) x) as [[rd nn] bb] eqn:D.
      cbn [k_run k_tx k_arrived k_rx k_reader k_notes s_in s_out s_lost]. split; [exact R|]. split; [exact W|]. split; [exact A|].
      split; [cbn [length] in LI; lia|]. split; [exact Bq|]. exists (seen ++ [x]), (ns ++ [nn]).
      split; [rewrite read_all_app, E; cbn [read_all]; rewrite D; reflexivity|].
      split; [rewrite concat_app, N; cbn [concat]; rewrite app_nil_r; reflexivity|].
      intros L. rewrite <- app_assoc. apply G. exact L.
Qed.
Lemma k_midi_l : forall cap ops, (1 <= cap)%nat -> Z.of_nat cap < 65536 -> Forall w_valid (k_written ops) ->
  let p := k_ops cap ops in s_lost (k_rx p) = [] ->
  (exists rest, map w_seen (k_written ops) = k_reports p ++ rest) /\
  (k_arrived p = length (s_out (k_tx p)) -> s_in (k_rx p) = [] -> k_reports p = map w_seen (k_written ops)).
Proof.
  intros cap ops C1 C2 V p L. destruct (k_inv cap ops C1 C2) as (_ & W & A & _ & _ & s & ns & E & N & G). fold p in W, A, E, N, G.
  specialize (G L). rewrite written_bytes in W by exact V.
  assert (ST : write_all 0 (k_written ops) = s ++ (s_in (k_rx p) ++ skipn (k_arrived p) (s_out (k_tx p)))).
  { rewrite <- W, app_assoc, <- G, firstn_skipn. reflexivity. }
  pose proof (writer_reader_l _ V) as WR. rewrite ST, read_all_app, E in WR.
  destruct (read_all (k_reader p) (s_in (k_rx p) ++ skipn (k_arrived p) (s_out (k_tx p)))) as [r2 n2] eqn:E2. cbn [snd] in WR. rewrite concat_app, map_app in WR.
  unfold k_reports. rewrite N. split; [eexists; symmetry; exact WR|].
  intros K1 K2. rewrite K1, K2, skipn_all in E2. cbn [app read_all] in E2. injection E2 as _ <-. cbn [concat map] in WR. rewrite app_nil_r in WR. exact WR.
Qed.

(** ** I2C *)
Lemma i2c_array_l : forall data len acks, 0 <= len <= Z.of_nat (length data) ->
  exists got, i2c_write_array data len acks = Some (got, (Nat.min (Z.to_nat len) 32 <? acks)%nat) /\
    got = firstn (Nat.min (acks - 1) (Nat.min (Z.to_nat len) 32)) data.
Proof.
  intros data len acks L. unfold i2c_write_array. replace (Z.to_nat len <=? length data)%nat with true by lia.
  unfold transmission. rewrite firstn_firstn. unfold wire_buffer.
  rewrite (Nat.min_comm (Z.to_nat len) 32). set (n := Nat.min 32 (Z.to_nat len)).
  assert (N : length (firstn n data) = n) by (rewrite firstn_length; unfold n; lia).
  destruct acks as [|k].
  - cbn. exists []. split; [|reflexivity]. destruct n; reflexivity.
  - rewrite N. destruct (Nat.ltb_spec k n) as [K|K].
    + rewrite firstn_firstn. eexists. split; [replace (n <? S k)%nat with false by lia; reflexivity|]. f_equal. lia.
    + eexists. split; [replace (n <? S k)%nat with true by lia; reflexivity|]. f_equal. lia.
Qed.
Lemma i2c_byte_l : forall b acks, i2c_write b acks = (if (2 <=? acks)%nat then [b] else [], (2 <=? acks)%nat).
Proof. intros b [|[|k]]; reflexivity. Qed.
Lemma i2c_got_all : forall bytes acks i, (forall j, (2 <= acks j)%nat) -> i2c_got bytes acks i = bytes.
Proof.
  induction bytes as [|b bytes IH]; intros acks i A; [reflexivity|]. cbn [i2c_got]. rewrite i2c_byte_l. pose proof (A i).
  replace (2 <=? acks i)%nat with true by lia. cbn [fst app]. rewrite IH by exact A. reflexivity.
Qed.

(** ** Pins *)
Section P.
Variable timer : Z -> bool.
Lemma set_same : forall b n p, set_pin b n p n = p.
Proof. intros b n p. unfold set_pin. rewrite Z.eqb_refl. reflexivity. Qed.
Lemma set_other : forall b n p m, m <> n -> set_pin b n p m = b m.
Proof. intros b n p m H. unfold set_pin. replace (m =? n) with false by lia. reflexivity. Qed.
Lemma mode_at : forall b n o m, pin_mode b n o m = if m =? n then (if o then mkPin true (p_latch (b n)) (p_pwm (b n)) else mkPin false false (p_pwm (b n))) else b m.
Proof. reflexivity. Qed.
Lemma off_at : forall b n m, pwm_off timer b n m = if (m =? n) && timer n then mkPin (p_ddr (b n)) (p_latch (b n)) None else b m.
Proof. intros b n m. unfold pwm_off. destruct (timer n); [rewrite andb_true_r; reflexivity|rewrite andb_false_r; reflexivity]. Qed.
Lemma write_at : forall b n v m, sane timer b -> digital_write timer b n v m = if m =? n then mkPin (p_ddr (b n)) v None else b m.
Proof.
  intros b n v m S. unfold digital_write. unfold set_pin. rewrite !off_at, Z.eqb_refl. destruct (Z.eqb_spec m n) as [->|N]; cbn [andb].
  - destruct (timer n) eqn:T; [reflexivity|]. rewrite (S n T). reflexivity.
  - reflexivity.
Qed.
Lemma sane_upd : forall b b' n, sane timer b -> (forall m, m <> n -> b' m = b m) -> (p_pwm (b' n) = None \/ (timer n = true) \/ p_pwm (b' n) = p_pwm (b n)) -> sane timer b'.
Proof.
  intros b b' n S F H m T. destruct (Z.eq_dec m n) as [->|N]; [|rewrite F by exact N; apply S; exact T].
  destruct H as [H|[H|H]]; [exact H|congruence|rewrite H; apply S; exact T].
Qed.
Lemma sane_mode : forall b n o, sane timer b -> sane timer (pin_mode b n o).
Proof.
  intros b n o S. apply (sane_upd b _ n S); [intros m N; rewrite mode_at; replace (m =? n) with false by lia; reflexivity|].
  rewrite mode_at, Z.eqb_refl. destruct o; auto.
Qed.
Lemma sane_write : forall b n v, sane timer b -> sane timer (digital_write timer b n v).
Proof.
  intros b n v S. apply (sane_upd b _ n S); [intros m N; rewrite write_at by exact S; replace (m =? n) with false by lia; reflexivity|].
  rewrite write_at, Z.eqb_refl by exact S. auto.
Qed.
Lemma analog_l : forall b n v, sane timer b -> 0 <= v < 256 ->
  sane timer (analog_write timer b n v) /\ (forall m, m <> n -> analog_write timer b n v m = b m) /\
  signal_of (analog_write timer b n v n) = analog_signal (timer n) v.
Proof.
  intros b n v S V. unfold analog_write, analog_signal. pose proof (sane_mode b n true S) as S1.
  assert (MO : forall m, m <> n -> pin_mode b n true m = b m) by (intros m N; rewrite mode_at; replace (m =? n) with false by lia; reflexivity).
  assert (DW : forall w, sane timer (digital_write timer (pin_mode b n true) n w) /\
     (forall m, m <> n -> digital_write timer (pin_mode b n true) n w m = b m) /\ signal_of (digital_write timer (pin_mode b n true) n w n) = SLevel w).
  { intros w. split; [apply sane_write; exact S1|]. split.
    - intros m N. rewrite write_at by exact S1. replace (m =? n) with false by lia. apply MO. exact N.
    - rewrite write_at, Z.eqb_refl, mode_at, Z.eqb_refl by exact S1. reflexivity. }
  destruct (v =? 0); [apply DW|]. destruct (v =? 255); [apply DW|]. destruct (timer n) eqn:T.
  - split; [|split].
    + apply (sane_upd b _ n S); [intros m N; rewrite set_other by exact N; apply MO; exact N|]. auto.
    + intros m N. rewrite set_other by exact N. apply MO. exact N.
    + rewrite set_same, mode_at, Z.eqb_refl. reflexivity.
  - replace (128 <=? v) with (negb (v <? 128)) by lia. apply DW.
Qed.

Variable outside : Z -> bool -> bool.
Lemma read_at : forall b n m, sane timer b -> fst (digital_read timer outside b n) m = (if m =? n then mkPin (p_ddr (b n)) (p_latch (b n)) None else b m) /\
  snd (digital_read timer outside b n) = if p_ddr (b n) then p_latch (b n) else outside n (p_latch (b n)).
Proof.
  intros b n m S. unfold digital_read. cbn [fst snd]. rewrite !off_at, Z.eqb_refl. cbn [andb]. split.
  - destruct (Z.eqb_spec m n) as [->|N]; cbn [andb]; [|reflexivity]. destruct (timer n) eqn:T; [reflexivity|].
    specialize (S n T). destruct (b n); cbn in *; subst; reflexivity.
  - destruct (timer n); reflexivity.
Qed.
Lemma sane_read : forall b n, sane timer b -> sane timer (fst (digital_read timer outside b n)).
Proof.
  intros b n S. apply (sane_upd b _ n S); [intros m N; rewrite (proj1 (read_at b n m S)); replace (m =? n) with false by lia; reflexivity|].
  rewrite (proj1 (read_at b n n S)), Z.eqb_refl. auto.
Qed.
Lemma step_frame : forall b o, sane timer b -> sane timer (fst (p_step timer outside b o)) /\
  forall m, m <> pin_of o -> fst (p_step timer outside b o) m = b m.
Proof.
  intros b o S.
  assert (DM : forall n o, sane timer (pin_mode b n o) /\ forall m, m <> n -> pin_mode b n o m = b m).
  { intros n o'. split; [apply sane_mode; exact S|]. intros m N. rewrite mode_at. replace (m =? n) with false by lia. reflexivity. }
  assert (DW : forall b n v, sane timer b -> sane timer (digital_write timer b n v) /\ forall m, m <> n -> digital_write timer b n v m = b m).
  { intros b0 n v S0. split; [apply sane_write; exact S0|]. intros m N. rewrite write_at by exact S0. replace (m =? n) with false by lia. reflexivity. }
  assert (DR : forall n, sane timer (fst (digital_read timer outside b n)) /\ forall m, m <> n -> fst (digital_read timer outside b n) m = b m).
  { intros n. split; [apply sane_read; exact S|]. intros m N. rewrite (proj1 (read_at b n m S)). replace (m =? n) with false by lia. reflexivity. }
  destruct o as [n|n v|n v|n|n|n v|n|n|n v]; cbn [p_step pin_of]; unfold out_init; cbn [snd].
  - apply DM.
  - destruct (DM n true) as [D1 D2]. destruct (DW _ n v D1) as [D3 D4]. cbn [fst]. split; [exact D3|]. intros m N. rewrite D4, D2 by exact N. reflexivity.
  - apply DW. exact S.
  - apply DR.
  - destruct (DR n) as [D1 D2]. destruct (digital_read timer outside b n) as [b1 w] eqn:E. cbn [fst] in *. destruct (DW _ n (negb w) D1) as [D3 D4].
    split; [exact D3|]. intros m N. rewrite D4, D2 by exact N. reflexivity.
  - cbn [fst]. assert (V : 0 <= u8 v < 256) by (unfold u8; apply Z.mod_pos_bound; lia). destruct (analog_l b n (u8 v) S V) as (A1 & A2 & _). auto.
  - apply DM.
  - apply DR.
  - apply DW. exact S.
Qed.
Lemma run_sane : forall ops b, sane timer b -> sane timer (fst (p_run timer outside b ops)).
Proof.
  induction ops as [|o ops IH]; intros b S; [exact S|]. cbn [p_run]. pose proof (proj1 (step_frame b o S)) as S1.
  destruct (p_step timer outside b o) as [b1 v]. cbn [fst] in S1. specialize (IH b1 S1). destruct (p_run timer outside b1 ops). exact IH.
Qed.

Lemma level_inv : forall p v, signal_of p = SLevel v -> p_ddr p = true /\ p_pwm p = None /\ p_latch p = v.
Proof. intros [d l [w|]] v H; unfold signal_of in H; cbn in *; destruct d; try discriminate. injection H as ->. auto. Qed.
Lemma digital_step : forall b o n v, sane timer b -> signal_of (b n) = SLevel v -> digital_on n o ->
  signal_of (fst (p_step timer outside b o) n) = SLevel (value_after n v o) /\
  (o = PValue n -> snd (p_step timer outside b o) = v).
Proof.
  intros b o n v S H D. unfold value_after. destruct (Z.eqb_spec (pin_of o) n) as [E|E].
  2:{ split; [rewrite (proj2 (step_frame b o S)) by congruence; exact H|]. intros ->. cbn in E. congruence. }
  specialize (D E). destruct (level_inv _ _ H) as (H1 & H2 & H3).
  destruct o as [k|k w|k w|k|k|k w|k|k|k w]; cbn [pin_of] in E; subst k; try contradiction; cbn [p_step fst snd]; unfold out_init; cbn [fst snd].
  - rewrite mode_at, Z.eqb_refl, H2, H3. split; [reflexivity|discriminate].
  - rewrite write_at by (apply sane_mode; exact S). rewrite Z.eqb_refl, mode_at, Z.eqb_refl. split; [reflexivity|discriminate].
  - rewrite write_at, Z.eqb_refl, H1 by exact S. split; [reflexivity|discriminate].
  - destruct (read_at b n n S) as [R1 R2]. rewrite R1, R2, Z.eqb_refl, H1, H3. split; [reflexivity|auto].
  - pose proof (read_at b n n S) as [R1 R2]. pose proof (sane_read b n S) as S2. destruct (digital_read timer outside b n) as [b1 w]. cbn [fst snd] in *.
    rewrite write_at, Z.eqb_refl, R1, Z.eqb_refl by exact S2. rewrite R2, H1, H3. split; [reflexivity|discriminate].
Qed.
Lemma digital_l : forall ops b n v, sane timer b -> signal_of (b n) = SLevel v -> Forall (digital_on n) ops ->
  signal_of (fst (p_run timer outside b ops) n) = SLevel (value_of n v ops) /\
  answers n ops (snd (p_run timer outside b ops)) = values n v ops.
Proof.
  induction ops as [|o ops IH]; intros b n v S H F; [split; [exact H|reflexivity]|]. inversion F as [|? ? Fo Fs]; subst.
  destruct (digital_step b o n v S H Fo) as [D1 D2]. pose proof (proj1 (step_frame b o S)) as S1. cbn [p_run].
  destruct (p_step timer outside b o) as [b1 a]. cbn [fst snd] in *. destruct (IH b1 n (value_after n v o) S1 D1 Fs) as [I1 I2].
  destruct (p_run timer outside b1 ops) as [b2 vs]. cbn [fst snd] in *. split; [exact I1|].
  destruct o as [k|k w|k w|k|k|k w|k|k|k w]; cbn [answers values app]; try exact I2. rewrite I2.
  destruct (Z.eqb_spec k n) as [->|N]; [|reflexivity]. rewrite D2 by reflexivity. reflexivity.
Qed.

(** ** The display at six pins *)
Section L.
Variable x : lcd_pins.
Hypothesis ND : NoDup (lcd_list x).
Definition lcd_ready (b : board) : Prop := sane timer b /\ Forall (fun n => exists v, signal_of (b n) = SLevel v) (lcd_list x).
Lemma lcd_distinct : n_rs x <> n_en x /\ n_rs x <> n_d4 x /\ n_rs x <> n_d5 x /\ n_rs x <> n_d6 x /\ n_rs x <> n_d7 x /\
  n_en x <> n_d4 x /\ n_en x <> n_d5 x /\ n_en x <> n_d6 x /\ n_en x <> n_d7 x /\
  n_d4 x <> n_d5 x /\ n_d4 x <> n_d6 x /\ n_d4 x <> n_d7 x /\ n_d5 x <> n_d6 x /\ n_d5 x <> n_d7 x /\ n_d6 x <> n_d7 x.
Proof.
  pose proof ND as H. unfold lcd_list in H.
  repeat match goal with H : NoDup (_ :: _) |- _ => inversion H; clear H; subst end. cbn [In] in *.
  repeat match goal with H : ~ (_ \/ _) |- _ => apply Decidable.not_or in H; destruct H end.
  repeat split; congruence.
Qed.
Lemma lcd_write : forall b n v, lcd_ready b -> In n (lcd_list x) ->
  lcd_ready (digital_write timer b n v) /\
  forall m, level (digital_write timer b n v m) = if m =? n then v else level (b m).
Proof.
  intros b n v (S & F) I. rewrite Forall_forall in F. destruct (F n I) as (w & W). destruct (level_inv _ _ W) as (H1 & H2 & H3).
  assert (G : forall m, signal_of (digital_write timer b n v m) = if m =? n then SLevel v else signal_of (b m)).
  { intros m. rewrite write_at by exact S. destruct (m =? n); [rewrite H1; reflexivity|reflexivity]. }
  split.
  - split; [apply sane_write; exact S|]. apply Forall_forall. intros m M. rewrite G. destruct (m =? n); eauto.
  - intros m. unfold level. rewrite G. destruct (m =? n); reflexivity.
Qed.
Definition tr (b : board) (ops : list pop) : list lines := map (lcd_lines x) (p_trace timer outside b ops).
Definition after (b : board) (ops : list pop) : board := last (p_trace timer outside b ops) b.
Lemma trace_app : forall ops1 ops2 b, p_trace timer outside b (ops1 ++ ops2) = p_trace timer outside b ops1 ++ p_trace timer outside (after b ops1) ops2.
Proof.
  induction ops1 as [|o ops1 IH]; intros ops2 b; [reflexivity|]. cbn [app p_trace]. unfold after in *. cbn [p_trace]. rewrite IH. cbn [app]. f_equal.
  f_equal. f_equal. destruct (p_trace timer outside (fst (p_step timer outside b o)) ops1) eqn:E; [reflexivity|]. 
  change (last (fst (p_step timer outside b o) :: b0 :: l) b) with (last (b0 :: l) b). clear. revert b0. induction l as [|y l IH]; intros b0; [reflexivity|]. apply (IH y).
Qed.
Lemma last_map_lines : forall l b, last (map (lcd_lines x) l) (lcd_lines x b) = lcd_lines x (last l b).
Proof. induction l as [|y l IH]; intros b; [reflexivity|]. destruct l; [reflexivity|]. exact (IH b). Qed.

Ltac lines_eq b W := unfold lcd_lines; rewrite !W; 
  repeat match goal with |- context [?p =? ?q] => first [rewrite (Z.eqb_refl p) | rewrite (proj2 (Z.eqb_neq p q)) by congruence] end; reflexivity.
Lemma write_lines : forall b, lcd_ready b ->
  (forall v, lcd_ready (digital_write timer b (n_rs x) v) /\ lcd_lines x (digital_write timer b (n_rs x) v) = set_rs (lcd_lines x b) v) /\
  (forall v, lcd_ready (digital_write timer b (n_en x) v) /\ lcd_lines x (digital_write timer b (n_en x) v) = set_en (lcd_lines x b) v) /\
  (forall v, lcd_ready (digital_write timer b (n_d4 x) v) /\ lcd_lines x (digital_write timer b (n_d4 x) v) = set_d4 (lcd_lines x b) v) /\
  (forall v, lcd_ready (digital_write timer b (n_d5 x) v) /\ lcd_lines x (digital_write timer b (n_d5 x) v) = set_d5 (lcd_lines x b) v) /\
  (forall v, lcd_ready (digital_write timer b (n_d6 x) v) /\ lcd_lines x (digital_write timer b (n_d6 x) v) = set_d6 (lcd_lines x b) v) /\
  (forall v, lcd_ready (digital_write timer b (n_d7 x) v) /\ lcd_lines x (digital_write timer b (n_d7 x) v) = set_d7 (lcd_lines x b) v).
Proof.
  intros b R. pose proof lcd_distinct as D.
  assert (I : forall n, n = n_rs x \/ n = n_en x \/ n = n_d4 x \/ n = n_d5 x \/ n = n_d6 x \/ n = n_d7 x -> In n (lcd_list x)) by (intros n H; unfold lcd_list; cbn [In]; intuition auto).
  refine (conj _ (conj _ (conj _ (conj _ (conj _ _))))); intros v;
    match goal with |- _ /\ lcd_lines x (digital_write timer b ?n v) = _ => destruct (lcd_write b n v R (I n ltac:(auto 7))) as [W1 W]; split; [exact W1|];
      clear - W D; decompose [and] D; clear D; lines_eq b W end.
Qed.
Lemma write4_l : forall b data, lcd_ready b -> lcd_ready (after b (lcd_write4 x data)) /\ tr b (lcd_write4 x data) = par_write4 (lcd_lines x b) data.
Proof.
  intros b data R. unfold after, tr, lcd_write4. cbn [p_trace p_step fst last map]. unfold par_write4. cbv zeta.
  destruct (proj1 (proj2 (proj2 (write_lines b R))) (nz (Z.land data 1))) as [R1 L1]. set (b1 := digital_write timer b (n_d4 x) _) in *. clearbody b1.
  destruct (proj1 (proj2 (proj2 (proj2 (write_lines b1 R1)))) (nz (Z.land data 2))) as [R2 L2]. set (b2 := digital_write timer b1 (n_d5 x) _) in *. clearbody b2.
  destruct (proj1 (proj2 (proj2 (proj2 (proj2 (write_lines b2 R2))))) (nz (Z.land data 4))) as [R3 L3]. set (b3 := digital_write timer b2 (n_d6 x) _) in *. clearbody b3.
  destruct (proj2 (proj2 (proj2 (proj2 (proj2 (write_lines b3 R3))))) (nz (Z.land data 8))) as [R4 L4]. set (b4 := digital_write timer b3 (n_d7 x) _) in *. clearbody b4.
  destruct (proj1 (proj2 (write_lines b4 R4)) false) as [R5 L5]. set (b5 := digital_write timer b4 (n_en x) false) in *. clearbody b5.
  destruct (proj1 (proj2 (write_lines b5 R5)) true) as [R6 L6]. split; [exact R6|]. rewrite L6, L5, L4, L3, L2, L1. reflexivity.
Qed.
Lemma after_app : forall b o1 o2, after b (o1 ++ o2) = after (after b o1) o2.
Proof.
  intros b o1 o2. change (after b (o1 ++ o2)) with (last (p_trace timer outside b (o1 ++ o2)) b). rewrite trace_app.
  change (after (after b o1) o2) with (last (p_trace timer outside (after b o1) o2) (after b o1)).
  destruct (p_trace timer outside (after b o1) o2) as [|y l] eqn:E.
  - rewrite app_nil_r. reflexivity.
  - clear. generalize (p_trace timer outside b o1). intros t. generalize (after b o1). intros z. 
    assert (G : forall t z d, last (t ++ y :: l) d = last (y :: l) z).
    { induction t0 as [|w t0 IH]; intros z0 d.
      - cbn [app]. clear. revert y. induction l as [|u l IH]; intros y; [reflexivity|]. apply (IH u).
      - cbn [app]. destruct (t0 ++ y :: l) eqn:Q; [destruct t0; discriminate|]. change (last (w :: b0 :: l0) d) with (last (b0 :: l0) d). apply IH. }
    apply G.
Qed.
Lemma tr_app : forall b o1 o2, tr b (o1 ++ o2) = tr b o1 ++ tr (after b o1) o2.
Proof. intros b o1 o2. unfold tr. rewrite trace_app, map_app. reflexivity. Qed.
Lemma after_lines : forall b o, lcd_lines x (after b o) = last (tr b o) (lcd_lines x b).
Proof. intros b o. unfold after, tr. rewrite last_map_lines. reflexivity. Qed.
Lemma write8_l : forall b data, lcd_ready b -> lcd_ready (after b (lcd_write8 x data)) /\ tr b (lcd_write8 x data) = par_write8 (lcd_lines x b) data.
Proof.
  intros b data R. unfold lcd_write8. rewrite after_app, tr_app. destruct (write4_l b (Z.shiftr data 4) R) as [R1 T1].
  destruct (write4_l (after b (lcd_write4 x (Z.shiftr data 4))) data R1) as [R2 T2]. split; [exact R2|].
  rewrite T2, T1, after_lines, T1. reflexivity.
Qed.
Lemma lcd_op_l : forall b o, lcd_ready b -> lcd_ready (after b (lcd_op x o)) /\ tr b (lcd_op x o) = par_op (lcd_lines x b) o.
Proof.
  intros b [c|c|n] R; cbn [lcd_op par_op].
  - destruct (proj1 (write_lines b R) false) as [R1 L1]. change (PWrite (n_rs x) false :: lcd_write8 x c) with ([PWrite (n_rs x) false] ++ lcd_write8 x c).
    rewrite after_app, tr_app. change (after b [PWrite (n_rs x) false]) with (digital_write timer b (n_rs x) false).
    destruct (write8_l _ c R1) as [R2 T2]. split; [exact R2|]. rewrite T2, L1. change (tr b [PWrite (n_rs x) false]) with [lcd_lines x (digital_write timer b (n_rs x) false)].
    rewrite L1. reflexivity.
  - destruct (proj1 (write_lines b R) true) as [R1 L1]. change (PWrite (n_rs x) true :: lcd_write8 x c) with ([PWrite (n_rs x) true] ++ lcd_write8 x c).
    rewrite after_app, tr_app. change (after b [PWrite (n_rs x) true]) with (digital_write timer b (n_rs x) true).
    destruct (write8_l _ c R1) as [R2 T2]. split; [exact R2|]. rewrite T2, L1. change (tr b [PWrite (n_rs x) true]) with [lcd_lines x (digital_write timer b (n_rs x) true)].
    rewrite L1. reflexivity.
  - apply write4_l. exact R.
Qed.
Lemma lcd_run_l : forall os b, lcd_ready b -> tr b (flat_map (lcd_op x) os) = par_run (lcd_lines x b) os.
Proof.
  induction os as [|o os IH]; intros b R; [reflexivity|]. cbn [flat_map par_run]. destruct (lcd_op_l b o R) as [R1 T1].
  rewrite tr_app, IH by exact R1. rewrite after_lines, T1. reflexivity.
Qed.
Lemma lcd_new_l : forall b, sane timer b -> (forall n, In n (lcd_list x) -> p_pwm (b n) = None) ->
  let b1 := fst (p_run timer outside b (lcd_new x)) in lcd_ready b1 /\ en (lcd_lines x b1) = true.
Proof.
  intros b S P. unfold lcd_new. cbn [p_run p_step fst]; unfold out_init; cbn [fst snd]. pose proof lcd_distinct as D.
  set (b1 := pin_mode b (n_rs x) true). assert (S1 : sane timer b1) by (apply sane_mode; exact S).
  set (b2 := digital_write timer (pin_mode b1 (n_en x) true) (n_en x) true). assert (S2 : sane timer b2) by (apply sane_write, sane_mode; exact S1).
  set (b3 := pin_mode b2 (n_d4 x) true). assert (S3 : sane timer b3) by (apply sane_mode; exact S2).
  set (b4 := pin_mode b3 (n_d5 x) true). assert (S4 : sane timer b4) by (apply sane_mode; exact S3).
  set (b5 := pin_mode b4 (n_d6 x) true). assert (S5 : sane timer b5) by (apply sane_mode; exact S4).
  set (b6 := pin_mode b5 (n_d7 x) true). assert (S6 : sane timer b6) by (apply sane_mode; exact S5).
  assert (V : forall m, b6 m = if m =? n_en x then mkPin true true None else if existsb (Z.eqb m) (lcd_list x) then mkPin true (p_latch (b m)) (p_pwm (b m)) else b m).
  { intros m. unfold b6, b5, b4, b3. rewrite !mode_at. unfold b2. rewrite !write_at by (apply sane_mode; exact S1). rewrite !mode_at. unfold b1. rewrite !mode_at. 
    unfold lcd_list. cbn [existsb]. clear - D. decompose [and] D. clear D.
    destruct (Z.eqb_spec m (n_en x)) as [->|E0].
    - repeat match goal with |- context [?p =? ?q] => first [rewrite (Z.eqb_refl p) | rewrite (proj2 (Z.eqb_neq p q)) by congruence] end. reflexivity.
    - destruct (Z.eqb_spec m (n_d7 x)) as [->|E1]; [|destruct (Z.eqb_spec m (n_d6 x)) as [->|E2]; [|destruct (Z.eqb_spec m (n_d5 x)) as [->|E3]; [|destruct (Z.eqb_spec m (n_d4 x)) as [->|E4]; [|destruct (Z.eqb_spec m (n_rs x)) as [->|E5]]]]];
      repeat match goal with |- context [?p =? ?q] => first [rewrite (Z.eqb_refl p) | rewrite (proj2 (Z.eqb_neq p q)) by congruence] end; cbn [orb]; try reflexivity. }
  split.
  - split; [exact S6|]. apply Forall_forall. intros n I. rewrite V. destruct (n =? n_en x); [eexists; reflexivity|].
    assert (X : existsb (Z.eqb n) (lcd_list x) = true) by (apply existsb_exists; exists n; split; [exact I|apply Z.eqb_refl]). rewrite X, (P n I). eexists. reflexivity.
  - unfold lcd_lines, level. cbn [en]. rewrite V, Z.eqb_refl. reflexivity.
Qed.
End L.
End P.

Lemma display_pins_l : forall lo timer outside x b os, NoDup (lcd_list x) -> sane timer b -> (forall n, In n (lcd_list x) -> p_pwm (b n) = None) ->
  Forall dop_ok os ->
  let b1 := fst (p_run timer outside b (lcd_new x)) in
  exists l', delivers lo (lcd_lines x b1) (map (lcd_lines x) (p_trace timer outside b1 (flat_map (lcd_op x) os))) (all_nibs (rs (lcd_lines x b1)) os) l'.
Proof.
  intros lo timer outside x b os ND S P F b1. destruct (lcd_new_l timer outside x ND b S P) as [R E]. fold b1 in R, E.
  pose proof (lcd_run_l timer outside x ND os b1 R) as T. unfold tr in T. rewrite T. apply par_run_d; assumption.
Qed.

(** ** Statements as in the theorems *)
Lemma stream_answers_l : forall cap a, (forall k, Forall is_byte (s_in (a_port a k))) ->
  (a_in a = None -> a_step cap a ALength = Some (a, 0) /\ a_step cap a ARead = Some (a, -1) /\ a_step cap a AClear = Some (a, 0)) /\
  (a_out a = None -> forall b, a_step cap a (AWrite b) = Some (a, 0)) /\
  (forall k, a_in a = Some k ->
     (Z.of_nat (length (s_in (a_port a k))) < 65536 -> a_step cap a ALength = Some (a, Z.of_nat (length (s_in (a_port a k))))) /\
     (exists a' v, a_step cap a ARead = Some (a', v) /\ (v = -1 <-> s_in (a_port a k) = [])) /\
     (exists a', a_step cap a AClear = Some (a', 0) /\ s_in (a_port a' k) = [] /\ s_out (a_port a' k) = s_out (a_port a k) /\
        forall j, j <> k -> a_port a' j = a_port a j)).
Proof.
  intros cap a B. split; [|split].
  - intros N. cbn [a_step]. rewrite N. auto.
  - intros N b. cbn [a_step]. rewrite N. reflexivity.
  - intros k A. split; [|split].
    + intros L. cbn [a_step]. rewrite A. unfold available. rewrite u16_small by lia. reflexivity.
    + destruct (a_step cap a ARead) as [[a' v]|] eqn:E.
      2:{ cbn [a_step] in E. rewrite A in E. destruct (read (a_port a k)). discriminate. }
      exists a', v. split; [reflexivity|]. apply (proj2 (proj2 (reached_in cap a ARead a' v E)) k A B). reflexivity.
    + cbn [a_step]. rewrite A, (clear_quiet cap) by (try apply B; try lia; intros; reflexivity).
      eexists. split; [reflexivity|]. rewrite port_set, Nat.eqb_refl. split; [reflexivity|]. split; [reflexivity|].
      intros j J. rewrite port_set. apply Nat.eqb_neq in J. rewrite J. reflexivity.
Qed.
Lemma flood_l : Forall w_valid (k_written flood) /\
  In (RMsg 144 31 33) (k_reports (k_ops 63 flood)) /\ ~ In (RMsg 144 31 33) (map w_seen (k_written flood)).
Proof.
  assert (W : k_written flood = WType 248 :: map (fun i => WMessage (mkMsg 144 0 (Z.of_nat i) 100)) (seq 1 33)) by reflexivity.
  split; [|split].
  - rewrite W. constructor; [cbn [w_valid]; unfold realtime; lia|]. apply Forall_forall. intros o I. apply in_map_iff in I. destruct I as (i & <- & I).
    apply in_seq in I. left. left. exists 9. cbn [m_type m_b0 m_b1 m_b2]. lia.
  - assert (R : k_reports (k_ops 63 flood) = ROne 248 :: map (fun i => RMsg 144 (Z.of_nat i) 100) (seq 1 30) ++ [RMsg 144 31 33]) by (lazy; reflexivity).
    rewrite R. right. apply in_or_app. right. left. reflexivity.
  - assert (R : map w_seen (k_written flood) = ROne 248 :: map (fun i => RMsg 144 (Z.of_nat i) 100) (seq 1 33)) by (lazy; reflexivity).
    rewrite R. intros [H|H]; [discriminate H|]. apply in_map_iff in H. destruct H as (i & H & _). injection H as _ H. discriminate H.
Qed.
Lemma i2c_output_l : forall data len acks, 0 <= len <= Z.of_nat (length data) -> len <= 32 ->
  exists got ok, i2c_write_array data len acks = Some (got, ok) /\ (ok = true <-> (Z.to_nat len < acks)%nat) /\
    (ok = true -> got = firstn (Z.to_nat len) data) /\ (ok = false -> got = firstn (acks - 1) data).
Proof.
  intros data len acks L M. destruct (i2c_array_l data len acks L) as (got & E & G). exists got, (Nat.min (Z.to_nat len) 32 <? acks)%nat.
  split; [exact E|]. subst got. split; [lia|]. split; intros H; f_equal; lia.
Qed.
Lemma i2c_long_l : forall data len acks, 32 < len <= Z.of_nat (length data) -> len < 256 -> (33 <= acks)%nat ->
  i2c_write_array data len acks = Some (firstn 32 data, true).
Proof.
  intros data len acks L M A. destruct (i2c_array_l data len acks) as (got & E & G); [lia|]. rewrite E, G. f_equal. f_equal; [f_equal; lia|lia].
Qed.
Lemma pins_frame_l : forall timer outside ops b n, sane timer b -> (forall o, In o ops -> pin_of o <> n) ->
  sane timer (fst (p_run timer outside b ops)) /\ fst (p_run timer outside b ops) n = b n.
Proof.
  intros timer outside. induction ops as [|o ops IH]; intros b n S F; [split; [exact S|reflexivity]|].
  destruct (step_frame timer outside b o S) as [S1 F1]. cbn [p_run]. destruct (p_step timer outside b o) as [b1 v]. cbn [fst] in *.
  destruct (IH b1 n S1) as [S2 F2]; [intros; apply F; right; assumption|]. destruct (p_run timer outside b1 ops). cbn [fst] in *.
  split; [exact S2|]. rewrite F2. apply F1. intros ->. eapply F; [left; reflexivity|reflexivity].
Qed.
Lemma pins_new_l : forall timer outside b n, sane timer b ->
  (forall v, signal_of (fst (p_step timer outside b (POutInit n v)) n) = SLevel v) /\
  (p_pwm (b n) = None -> signal_of (fst (p_step timer outside b (POut n)) n) = SLevel (p_latch (b n))) /\
  (let b1 := fst (p_step timer outside b (PIn n)) in signal_of (b1 n) = SInput false /\
   snd (p_step timer outside b1 (PRead n)) = outside n false /\
   forall v, let b2 := fst (p_step timer outside b1 (PPullup n v)) in signal_of (b2 n) = SInput v /\
     snd (p_step timer outside b2 (PRead n)) = outside n v).
Proof.
  intros timer outside b n S. cbn [p_step fst]; unfold out_init; cbn [snd]. split; [|split].
  - intros v. rewrite write_at by (apply sane_mode; exact S). rewrite Z.eqb_refl, mode_at, Z.eqb_refl. reflexivity.
  - intros P. rewrite mode_at, Z.eqb_refl, P. reflexivity.
  - cbv zeta. pose proof (sane_mode timer b n false S) as S1. split; [rewrite mode_at, Z.eqb_refl; reflexivity|]. split.
    + rewrite (proj2 (read_at timer outside _ n n S1)), mode_at, Z.eqb_refl. reflexivity.
    + intros v. pose proof (sane_write timer _ n v S1) as S2. rewrite (proj2 (read_at timer outside _ n n S2)), write_at, Z.eqb_refl, mode_at, Z.eqb_refl by exact S1.
      split; reflexivity.
Qed.
Lemma pins_refuted_l : forall timer outside n, timer n = true ->
  (forall v, exists b, sane timer b /\ signal_of (b n) = SInput (negb v) /\ signal_of (fst (out_init timer b n v) n) = SLevel (negb v)) /\
  (forall b w, sane timer b -> signal_of (b n) = SPwm w -> exists v,
     signal_of (fst (p_step timer outside b (PValue n)) n) = SLevel v /\
     signal_of (fst (p_step timer outside b (PToggle n)) n) = SLevel (negb v)) /\
  (forall b w, sane timer b -> signal_of (b n) = SPwm w ->
     signal_of (fst (p_run timer outside b [PIn n; POut n]) n) = SPwm w) /\
  (forall b, sane timer b -> signal_of (fst (p_step timer outside b (PAnalog n 1)) n) = SPwm 1).
Proof.
  intros timer outside n T. split; [|split; [|split]].
  - intros v. exists (fun _ => mkPin false (negb v) None). split; [intros m _; reflexivity|]. split; [reflexivity|]. unfold out_init. cbn [fst]. rewrite mode_at, Z.eqb_refl. reflexivity.
  - intros b w S H. exists (p_latch (b n)). cbn [p_step].
    assert (D : p_ddr (b n) = true) by (unfold signal_of in H; destruct (p_ddr (b n)); [reflexivity|discriminate]).
    pose proof (read_at timer outside b n n S) as [R1 R2]. pose proof (sane_read timer outside b n S) as S2.
    destruct (digital_read timer outside b n) as [b1 v]. cbn [fst snd] in *.
    split; [rewrite R1, Z.eqb_refl, D; reflexivity|]. rewrite write_at, Z.eqb_refl, R1, Z.eqb_refl, R2, D by exact S2. reflexivity.
  - intros b w S H. unfold signal_of in H. destruct (p_ddr (b n)) eqn:D; [|discriminate]. destruct (p_pwm (b n)) eqn:P; [|discriminate].
    cbn [p_run p_step fst]. rewrite !mode_at, Z.eqb_refl, P. cbn. f_equal. congruence.
  - intros b S. cbn [p_step fst]. change (u8 1) with 1. destruct (analog_l timer b n 1 S) as (_ & _ & A); [lia|]. rewrite A, T. reflexivity.
Qed.
