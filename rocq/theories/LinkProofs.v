(** The serial MIDI link keeps the order and the content of the messages. *)
Require Import ZArith List Bool Lia ZifyBool.
Import ListNotations.
From Verif Require Import Base BaseFacts RingModel RingSpec RingProofs StreamModel StreamSpec StreamProofs
  MidiModel MidiSpec MidiProofs LinkModel LinkSpec.
Open Scope Z_scope.

(** ** The writer's bytes *)
Definition run_after (run : Z) (ops : list w_op) : Z := fold_left (fun r o => fst (write_op r o)) ops run.
Lemma write_all_op : forall run o rest, write_all run (o :: rest) = snd (write_op run o) ++ write_all (fst (write_op run o)) rest.
Proof. intros run [m|t] rest; cbn [write_all write_op]; [destruct (write_msg run m); reflexivity|reflexivity]. Qed.
Lemma write_all_snoc : forall ops run o,
  write_all run (ops ++ [o]) = write_all run ops ++ snd (write_op (run_after run ops) o).
Proof.
  induction ops as [|a ops IH]; intros run o.
  - cbn [app]. rewrite write_all_op. cbn [write_all]. rewrite app_nil_r. reflexivity.
  - cbn [app]. rewrite !write_all_op, IH, app_assoc. reflexivity.
Qed.
Lemma run_after_snoc : forall ops run o, run_after run (ops ++ [o]) = fst (write_op (run_after run ops) o).
Proof. intros. unfold run_after. rewrite fold_left_app. reflexivity. Qed.

Lemma body_byte : forall st d1 d2, data_byte d1 -> data_byte d2 ->
  Forall (fun b => 0 <= b < 256) (map fst (body st d1 d2)).
Proof.
  intros st d1 d2 H1 H2. unfold data_byte in *. unfold body.
  destruct (data_count st =? 1); cbn [map fst]; repeat (apply Forall_cons; [cbn [fst]; lia|]); apply Forall_nil.
Qed.
Lemma stream_byte : forall rs s, stream rs s -> Forall (fun b => 0 <= b < 256) (map fst s).
Proof.
  intros rs s H. induction H as [rs|rs st d1 d2 s H1 H2 H3 H IH|rs d1 d2 s H1 H2 H3 H IH|rs s H IH].
  - constructor.
  - cbn [map fst]. constructor; [cbn [fst]; unfold has_data in H1; lia|]. rewrite map_app. apply Forall_app. split; [now apply body_byte|exact IH].
  - rewrite map_app. apply Forall_app. split; [now apply body_byte|exact IH].
  - constructor; [cbn [fst]; lia|exact IH].
Qed.
Lemma weave_byte : forall s t, weave s t -> Forall (fun b => 0 <= b < 256) (map fst s) -> Forall (fun b => 0 <= b < 256) (map fst t).
Proof.
  intros s t H. induction H as [|x s t H IH|b s t Hb H IH]; intros F; cbn [map] in *.
  - constructor.
  - inversion F; subst. constructor; auto.
  - constructor; [cbn [fst]; unfold realtime in Hb; lia|auto].
Qed.
Lemma written_bytes : forall ops, Forall w_valid ops -> map u8 (write_all 0 ops) = write_all 0 ops.
Proof.
  intros ops V. destruct (writer_legal_l ops V) as (s & t & A & B & C & _). rewrite <- C.
  pose proof (weave_byte _ _ B (stream_byte _ _ A)) as F. revert F. generalize (map fst t). clear.
  induction l as [|x l IH]; intros F; [reflexivity|]. inversion F; subst. cbn [map]. rewrite IH by assumption.
  rewrite u8_small by lia. reflexivity.
Qed.

(** ** The sender alone *)
Definition current (p : txpc) : list Z := match p with TCheck v | TStore v | TInc v | TWrap v => [v] | _ => [] end.
Lemma tx_main_bytes : forall Size s s', tx_main Size s = Some s' ->
  map fst (t_done s') ++ current (t_pc s') = map fst (t_done s) ++ current (t_pc s).
Proof.
  intros Size [r ien pc sent done] s' H. unfold tx_main in H. cbn [t_ring t_pc t_ien t_sent t_done] in H.
  destruct pc as [|v|v|v|v|]; cbn [t_pc t_done current].
  - injection H as <-. reflexivity.
  - match type of H with (if ?c then _ else _) = _ => destruct c end; injection H as <-; cbn [t_pc t_done current].
    + rewrite map_app, app_nil_r. reflexivity.
    + reflexivity.
  - match type of H with (if ?c then _ else _) = _ => destruct c end; [|discriminate]. injection H as <-. reflexivity.
  - injection H as <-. reflexivity.
  - injection H as <-. cbn [t_pc t_done current]. rewrite map_app, app_nil_r. reflexivity.
  - injection H as <-. reflexivity.
Qed.
Lemma tx_isr_bytes : forall Size s s', tx_isr Size s = Some s' -> t_done s' = t_done s /\ t_pc s' = t_pc s.
Proof.
  intros Size s s' H. unfold tx_isr in H. destruct (t_ien s); [|injection H as <-; auto].
  match type of H with (if ?c then _ else _) = _ => destruct c end.
  - destruct (ring_read Size (t_ring s)) as [[r v]|]; [|discriminate]. injection H as <-. auto.
  - injection H as <-. auto.
Qed.
Lemma tx_sent_grows : forall Size s e s', tx_step Size s e = Some s' -> exists m, t_sent s' = t_sent s ++ m.
Proof.
  intros Size s e s' H. destruct e as [v| |]; cbn [tx_step] in H.
  - destruct (t_pc s); injection H as <-; exists []; rewrite app_nil_r; reflexivity.
  - exists []. rewrite app_nil_r. unfold tx_main in H.
    destruct (t_pc s); repeat match type of H with (if ?c then _ else _) = _ => destruct c end;
      try discriminate; injection H as <-; reflexivity.
  - unfold tx_isr in H. destruct (t_ien s); [|injection H as <-; exists []; rewrite app_nil_r; reflexivity].
    match type of H with (if ?c then _ else _) = _ => destruct c end.
    + destruct (ring_read Size (t_ring s)) as [[r v]|]; [|discriminate]. injection H as <-. eexists. reflexivity.
    + injection H as <-. exists []. rewrite app_nil_r. reflexivity.
Qed.

Section L.
Variable SizeT SizeR : Z.
Hypothesis HT : 1 <= SizeT <= 65535.
Hypothesis HR : 1 <= SizeR <= 65535.

Lemma tx_inv_keep : forall s seen q, tx_inv SizeT s seen q ->
  tx_inv SizeT s (tx_in_window SizeT s && tx_in_window SizeT s && (seen || false)) q.
Proof.
  intros s seen q [F H]. split; [exact F|]. unfold tx_in_window. destruct (t_pc s); try exact H.
  destruct H as (A & B & C & D). split; [exact A|]. split; [exact B|]. split; [exact C|].
  intros E. replace (rb_wr (t_ring s) >=? SizeT) with true by lia. cbn [andb]. rewrite orb_false_r. auto.
Qed.
Lemma rx_inv_keep : forall s seen q, rx_inv SizeR s seen q ->
  rx_inv SizeR s (rx_in_window SizeR s && rx_in_window SizeR s && (seen || false)) q.
Proof.
  intros s seen q [F H]. split; [exact F|]. unfold rx_in_window. destruct (r_pc s); try exact H.
  destruct H as (A & B & C & D & E). split; [exact A|]. split; [exact B|]. split; [exact C|]. split; [exact D|].
  intros G. replace (rb_rd (r_ring s) >=? SizeR) with true by lia. cbn [andb]. rewrite orb_false_r. auto.
Qed.

(** The invariant. *)
Definition y_inv (y : sender) (ops : list w_op) : Prop :=
  map fst (t_done (y_tx y)) ++ current (t_pc (y_tx y)) ++ map u8 (y_todo y) = map u8 (write_all 0 ops) /\
  y_run y = run_after 0 ops.
Definition x_inv (x : receiver) : Prop :=
  match x_pc x with MRead => r_pc (x_rx x) <> RIdle | _ => r_pc (x_rx x) = RIdle end /\
  exists ns, read_all r_init (map u8 (vals (r_got (x_rx x)))) = (x_reader x, ns) /\ concat ns = x_notes x.
Definition link_inv (l : link) (ps pr : bool) (ops : list w_op) : Prop :=
  (exists q, tx_inv SizeT (y_tx (l_y l)) ps q) /\ (exists q, rx_inv SizeR (x_rx (l_x l)) pr q) /\
  y_inv (l_y l) ops /\ x_inv (l_x l) /\ (l_taken l <= length (t_sent (y_tx (l_y l))))%nat.

Definition called (l : link) (e : levent) : list w_op :=
  match e with LWrite o => if y_idle (l_y l) then [o] else [] | _ => [] end.

Lemma y_idle_true : forall y, y_idle y = true -> t_pc (y_tx y) = TIdle /\ y_todo y = [].
Proof. intros [t r d]. unfold y_idle. cbn [y_tx y_todo]. destruct (t_pc t), d; try discriminate. auto. Qed.

Lemma y_call_l : forall y o ops, y_inv y ops -> y_inv (y_call y o) (ops ++ if y_idle y then [o] else []).
Proof.
  intros y o ops [H R]. unfold y_call. destruct (y_idle y) eqn:E.
  - destruct (y_idle_true y E) as [P T]. rewrite P, T in H. cbn [current map app] in H.
    destruct (write_op (y_run y) o) as [run out] eqn:W. split; cbn [y_tx y_todo y_run].
    + rewrite P. cbn [current app]. rewrite write_all_snoc, map_app, <- R, W, <- H. cbn [snd].
      rewrite <- app_assoc. reflexivity.
    + rewrite run_after_snoc, <- R, W. reflexivity.
  - rewrite app_nil_r. split; assumption.
Qed.

Lemma y_main_l : forall y seen q ops, tx_inv SizeT (y_tx y) seen q -> y_inv y ops ->
  exists y' q', y_main SizeT y = Some y' /\
    tx_inv SizeT (y_tx y') (tx_in_window SizeT (y_tx y') && tx_in_window SizeT (y_tx y) && (seen || false)) q' /\
    y_inv y' ops /\ (length (t_sent (y_tx y)) <= length (t_sent (y_tx y')))%nat.
Proof.
  intros [t run todo] seen q ops H [B R]. cbn [y_tx y_todo y_run] in *.
  assert (K : t_pc t <> TIdle -> exists y' q', 
     match tx_step SizeT t TxStep with Some t' => Some (mkSender t' run todo) | None => None end = Some y' /\
    tx_inv SizeT (y_tx y') (tx_in_window SizeT (y_tx y') && tx_in_window SizeT t && (seen || false)) q' /\
    y_inv y' ops /\ (length (t_sent t) <= length (t_sent (y_tx y')))%nat).
  { intros _. destruct (tx_step_inv SizeT HT t seen q TxStep H ltac:(destruct (tx_in_window SizeT t); reflexivity)) as (t' & q' & E & I).
    rewrite E. exists (mkSender t' run todo), q'. cbn [y_tx]. split; [reflexivity|]. split; [exact I|].
    split; [|destruct (tx_sent_grows _ _ _ _ E) as [m ->]; rewrite app_length; lia].
    split; [|exact R]. cbn [y_tx y_todo]. cbn [tx_step] in E. rewrite app_assoc, (tx_main_bytes _ _ _ E), <- app_assoc. exact B. }
  unfold y_main. cbn [y_tx y_todo y_run]. destruct (t_pc t) eqn:P; try (apply K; discriminate).
  destruct todo as [|b todo].
  - exists (mkSender t run []), q. cbn [y_tx]. split; [reflexivity|]. split; [apply tx_inv_keep; exact H|].
    split; [|lia]. split; [cbn [y_tx y_todo]; rewrite P; exact B|exact R].
  - destruct (tx_step_inv SizeT HT t seen q (TxStart b) H ltac:(destruct (tx_in_window SizeT t); reflexivity)) as (t' & q' & E & I).
    rewrite E. exists (mkSender t' run todo), q'. cbn [y_tx]. split; [reflexivity|]. split; [exact I|].
    split; [|destruct (tx_sent_grows _ _ _ _ E) as [m ->]; rewrite app_length; lia].
    split; [|exact R]. cbn [y_tx y_todo]. cbn [tx_step] in E. rewrite P in E. injection E as <-.
    cbn [t_done t_pc current map app] in *. exact B.
Qed.

Lemma y_isr_l : forall y seen q ops, tx_inv SizeT (y_tx y) seen q -> y_inv y ops ->
  tx_in_window SizeT (y_tx y) && t_ien (y_tx y) && seen = false ->
  exists y' q', y_isr SizeT y = Some y' /\
    tx_inv SizeT (y_tx y') (tx_in_window SizeT (y_tx y') && tx_in_window SizeT (y_tx y) && (seen || t_ien (y_tx y))) q' /\
    y_inv y' ops /\ (length (t_sent (y_tx y)) <= length (t_sent (y_tx y')))%nat.
Proof.
  intros [t run todo] seen q ops H [B R] G. cbn [y_tx y_todo y_run] in *.
  destruct (tx_step_inv SizeT HT t seen q TxIsr H G) as (t' & q' & E & I). unfold y_isr. cbn [y_tx y_todo y_run]. rewrite E.
  exists (mkSender t' run todo), q'. cbn [y_tx]. split; [reflexivity|]. split; [exact I|].
  split; [|destruct (tx_sent_grows _ _ _ _ E) as [m ->]; rewrite app_length; lia].
  split; [|exact R]. cbn [y_tx y_todo]. cbn [tx_step] in E. destruct (tx_isr_bytes _ _ _ E) as [-> ->]. exact B.
Qed.

(** ** The receiver alone *)
Lemma read_all_snoc : forall l r b r1 ns, read_all r l = (r1, ns) ->
  read_all r (l ++ [b]) = (let '(r2, n, _) := dispatch r1 b in (r2, ns ++ [n])).
Proof.
  intros l r b r1 ns H. rewrite read_all_app, H. cbn [read_all]. destruct (dispatch r1 b) as [[r2 n] ok]. reflexivity.
Qed.

Lemma x_main_l : forall x seen q, rx_inv SizeR (x_rx x) seen q -> x_inv x ->
  exists x' q', x_main SizeR x = Some x' /\
    rx_inv SizeR (x_rx x') (rx_in_window SizeR (x_rx x') && rx_in_window SizeR (x_rx x) && (seen || false)) q' /\ x_inv x'.
Proof.
  intros [rx pc rd notes] seen q H [P (ns & E & N)]. cbn [x_rx x_pc x_reader x_notes] in *.
  unfold x_main. cbn [x_rx x_pc x_reader x_notes]. destruct pc as [| |ge|].
  - eexists. exists q. split; [reflexivity|]. cbn [x_rx]. split; [apply rx_inv_keep; exact H|].
    split; [exact P|]. exists ns. auto.
  - eexists. exists q. split; [reflexivity|]. cbn [x_rx]. split; [apply rx_inv_keep; exact H|].
    split; [exact P|]. exists ns. auto.
  - cbv zeta. match goal with |- context [if ?c >? 0 then _ else _] => destruct (c >? 0) end.
    + destruct (rx_step_inv SizeR HR rx seen q RxStart H ltac:(destruct (rx_in_window SizeR rx); reflexivity)) as (r' & q' & S1 & I).
      rewrite S1. eexists. exists q'. split; [reflexivity|]. cbn [x_rx]. split; [exact I|].
      cbn [rx_step] in S1. rewrite P in S1. injection S1 as <-. split; [discriminate|]. exists ns. cbn [x_rx x_reader x_notes r_got]. auto.
    + eexists. exists q. split; [reflexivity|]. cbn [x_rx]. split; [apply rx_inv_keep; exact H|].
      split; [exact P|]. exists ns. auto.
  - destruct (rx_step_inv SizeR HR rx seen q RxStep H ltac:(destruct (rx_in_window SizeR rx); reflexivity)) as (r' & q' & S1 & I).
    rewrite S1.
    assert (C : (r_pc r' <> RIdle /\ r_got r' = r_got rx) \/
                (r_pc r' = RIdle /\ (r_got r' = r_got rx ++ [-1] \/ exists v, is_byte v /\ r_got r' = r_got rx ++ [v]))).
    { cbn [rx_step] in S1. unfold rx_main in S1. destruct H as [_ H]. destruct (r_pc rx) eqn:Q.
      - congruence.
      - injection S1 as <-. left. split; [discriminate|reflexivity].
      - injection S1 as <-. left. cbn [r_pc r_got]. split; [|reflexivity].
        match goal with |- (if ?c then _ else _) <> _ => destruct c end; discriminate.
      - match type of S1 with (if ?c then _ else _) = _ => destruct c end; [|discriminate].
        injection S1 as <-. left. split; [discriminate|reflexivity].
      - injection S1 as <-. left. split; [discriminate|reflexivity].
      - injection S1 as <-. right. split; [reflexivity|]. right. exists v. destruct H as [V _]. split; [exact V|].
        cbn [r_got]. unfold is_byte in V. rewrite s16_small by lia. reflexivity.
      - injection S1 as <-. right. split; [reflexivity|]. left. reflexivity. }
    destruct C as [[C1 C2]|[C1 C2]].
    + assert (X : match r_pc r' with RIdle => Some (x_answer (mkReceiver rx MRead rd notes) r' (last (r_got r') (-1)))
        | _ => Some (mkReceiver r' MRead rd notes) end = Some (mkReceiver r' MRead rd notes)) by (destruct (r_pc r'); congruence).
      rewrite X. eexists. exists q'. split; [reflexivity|]. split; [exact I|]. split; [exact C1|].
      exists ns. cbn [x_rx x_reader x_notes]. rewrite C2. auto.
    + rewrite C1. destruct C2 as [C2|(v & V & C2)]; rewrite C2, last_last.
      * unfold x_answer. cbn [Z.eqb Pos.eqb x_reader x_notes]. eexists. exists q'. split; [reflexivity|].
        split; [exact I|]. split; [exact C1|]. exists ns. cbn [x_rx x_reader x_notes]. rewrite C2, vals_app.
        cbn [vals filter]. change (0 <=? -1) with false. cbv iota. rewrite app_nil_r. auto.
      * unfold is_byte in V. unfold x_answer. replace (v =? -1) with false by lia. cbn [x_reader x_notes].
        destruct (dispatch rd (u8 v)) as [[rd' n] ok] eqn:D. eexists. exists q'. split; [reflexivity|].
        split; [exact I|]. split; [exact C1|]. exists (ns ++ [n]). cbn [x_rx x_reader x_notes].
        rewrite C2, vals_app. cbn [vals filter]. replace (0 <=? v) with true by lia. rewrite map_app. cbn [map].
        rewrite (read_all_snoc _ _ _ _ _ E), D, concat_app, N. cbn [concat]. rewrite app_nil_r. auto.
Qed.

Lemma rx_isr_pc : forall Size s d ok s', rx_isr Size s d ok = Some s' -> r_pc s' = r_pc s /\ r_got s' = r_got s /\ r_ien s' = r_ien s.
Proof.
  intros Size s d ok s' H. unfold rx_isr in H. destruct (r_ien s && ok); [|injection H as <-; auto].
  destruct (ring_write Size (r_ring s) (u8 d)) as [[r b]|]; [|discriminate]. injection H as <-. auto.
Qed.
Lemma x_isr_l : forall x seen q d ok, rx_inv SizeR (x_rx x) seen q -> x_inv x ->
  rx_in_window SizeR (x_rx x) && true && seen = false ->
  exists x' q', x_isr SizeR x d ok = Some x' /\
    rx_inv SizeR (x_rx x') (rx_in_window SizeR (x_rx x') && rx_in_window SizeR (x_rx x) && (seen || true)) q' /\ x_inv x'.
Proof.
  intros [rx pc rd notes] seen q d ok H [P (ns & E & N)] G. cbn [x_rx x_pc x_reader x_notes] in *.
  destruct (rx_step_inv SizeR HR rx seen q (RxIsr d ok) H G) as (r' & q' & S1 & I). unfold x_isr. cbn [x_rx x_pc x_reader x_notes].
  rewrite S1. eexists. exists q'. split; [reflexivity|]. split; [exact I|]. cbn [rx_step] in S1.
  destruct (rx_isr_pc _ _ _ _ _ S1) as (A & B & _). unfold x_inv. cbn [x_rx x_pc x_reader x_notes]. rewrite A, B.
  split; [exact P|]. exists ns. auto.
Qed.

(** ** Both *)
Lemma step_inv : forall l ps pr ops e, link_inv l ps pr ops ->
  (win_t SizeT l && sends_isr l e && ps) || (win_r SizeR l && takes_isr l e && pr) = false ->
  exists l', l_step SizeT SizeR l e = Some l' /\
    link_inv l' (win_t SizeT l' && win_t SizeT l && (ps || sends_isr l e))
                (win_r SizeR l' && win_r SizeR l && (pr || takes_isr l e)) (ops ++ called l e).
Proof.
  intros [y x k] ps pr ops e ((qt & T) & (qr & R) & Y & X & K) G. unfold win_t, win_r in *. cbn [l_y l_x l_taken] in *.
  apply orb_false_iff in G. destruct G as [G1 G2].
  destruct e as [o| | | | |ok]; cbn [sends_isr takes_isr called l_step l_y l_x l_taken] in *.
  - eexists. split; [reflexivity|]. cbn [l_y l_x l_taken].
    assert (Ey : y_tx (y_call y o) = y_tx y) by (unfold y_call; destruct (y_idle y); [destruct (write_op (y_run y) o)|]; reflexivity).
    split; [exists qt; cbn [l_y]; rewrite Ey; apply tx_inv_keep; exact T|].
    split; [exists qr; apply rx_inv_keep; exact R|]. split; [apply y_call_l; exact Y|]. split; [exact X|]. cbn [l_y l_taken]. rewrite Ey. exact K.
  - destruct (y_main_l y ps qt ops T Y) as (y' & q' & E & I & Y' & L). rewrite E. eexists. split; [reflexivity|].
    rewrite app_nil_r. split; [exists q'; exact I|]. split; [exists qr; apply rx_inv_keep; exact R|]. split; [exact Y'|]. split; [exact X|].
    cbn [l_y l_taken]. lia.
  - destruct (y_isr_l y ps qt ops T Y G1) as (y' & q' & E & I & Y' & L). rewrite E. eexists. split; [reflexivity|].
    rewrite app_nil_r. split; [exists q'; exact I|]. split; [exists qr; apply rx_inv_keep; exact R|]. split; [exact Y'|]. split; [exact X|].
    cbn [l_y l_taken]. lia.
  - eexists. split; [reflexivity|]. rewrite app_nil_r. split; [exists qt; apply tx_inv_keep; exact T|].
    assert (Ex : x_rx (x_call x) = x_rx x) by (unfold x_call; destruct (x_pc x); reflexivity).
    split; [exists qr; cbn [l_x]; rewrite Ex; apply rx_inv_keep; exact R|]. split; [exact Y|]. split; [|exact K]. cbn [l_x].
    unfold x_call. destruct X as [P X]. unfold x_inv. destruct (x_pc x) eqn:Q; cbn [x_pc x_rx x_reader x_notes]; rewrite ?Q; auto.
  - destruct (x_main_l x pr qr R X) as (x' & q' & E & I & X'). rewrite E. eexists. split; [reflexivity|].
    rewrite app_nil_r. split; [exists qt; apply tx_inv_keep; exact T|]. split; [exists q'; exact I|]. split; [exact Y|]. split; [exact X'|]. exact K.
  - unfold on_line in *. cbn [l_x l_y l_taken] in *.
    destruct (if r_ien (x_rx x) then nth_error (t_sent (y_tx y)) k else None) as [d|] eqn:D.
    + destruct (x_isr_l x pr qr d ok R X G2) as (x' & q' & E & I & X'). rewrite E. eexists. split; [reflexivity|].
      rewrite app_nil_r. split; [exists qt; apply tx_inv_keep; exact T|]. split; [exists q'; exact I|]. split; [exact Y|]. split; [exact X'|].
      cbn [l_taken l_y]. destruct (r_ien (x_rx x)); [|discriminate].
      assert (nth_error (t_sent (y_tx y)) k <> None) by congruence. apply nth_error_Some in H. lia.
    + eexists. split; [reflexivity|]. rewrite app_nil_r. split; [exists qt; apply tx_inv_keep; exact T|].
      split; [exists qr; apply rx_inv_keep; exact R|]. split; [exact Y|]. split; [exact X|]. exact K.
Qed.

Lemma run_inv : forall evs l ps pr ops, link_inv l ps pr ops -> l_polite SizeT SizeR l ps pr evs = true ->
  exists l' ps' pr', l_run SizeT SizeR l evs = Some l' /\ link_inv l' ps' pr' (ops ++ written SizeT SizeR l evs) /\
    (forall more, l_polite SizeT SizeR l ps pr (evs ++ more) = l_polite SizeT SizeR l' ps' pr' more) /\
    (forall more, written SizeT SizeR l (evs ++ more) = written SizeT SizeR l evs ++ written SizeT SizeR l' more) /\
    (forall more, l_run SizeT SizeR l (evs ++ more) = l_run SizeT SizeR l' more).
Proof.
  induction evs as [|e evs IH]; intros l ps pr ops H P.
  - exists l, ps, pr. cbn [l_run written app]. rewrite app_nil_r. auto.
  - cbn [l_polite l_run written app] in *.
    destruct ((win_t SizeT l && sends_isr l e && ps) || (win_r SizeR l && takes_isr l e && pr)) eqn:G; [discriminate|].
    destruct (step_inv l ps pr ops e H G) as (l1 & E & I). rewrite E in *.
    destruct (IH l1 _ _ _ I P) as (l' & ps' & pr' & E1 & I1 & M1 & M2 & M3). exists l', ps', pr'.
    split; [exact E1|]. split; [fold (called l e); rewrite app_assoc; exact I1|]. split; [exact M1|]. split; [|exact M3].
    intros more. rewrite M2, app_assoc. reflexivity.
Qed.

Lemma start_inv : forall on mT mR, link_inv (l_start on mT mR) false false [].
Proof.
  intros on mT mR. split; [exists []; apply tx_init_inv; exact HT|]. split.
  - exists []. cbn [l_start l_x x_rx]. split; [constructor|]. cbn [r_pc r_ring r_acc r_got].
    split; [apply (holds_clear SizeR HR (mkRing mR 0 0))|reflexivity].
  - split; [split; reflexivity|]. split; [|cbn; lia]. split; [reflexivity|]. exists []. split; reflexivity.
Qed.

(** ** What the receiver has reported *)
Lemma all_done : forall d, Forall (fun x => snd x = true) d -> accepted d = map fst d.
Proof.
  induction d as [|[v b] d IH]; intros F; [reflexivity|]. inversion F; subst. cbn [snd] in *. subst b.
  unfold accepted in *. cbn [filter snd map fst]. rewrite IH by assumption. reflexivity.
Qed.
Lemma vals_u8 : forall l rest, Forall (fun v => 0 <= v < 256) (l ++ rest) -> map u8 l = l.
Proof.
  induction l as [|x l IH]; intros rest F; [reflexivity|]. inversion F; subst. cbn [map]. rewrite (IH rest) by assumption.
  rewrite u8_small by lia. reflexivity.
Qed.

(** The bytes the receiver has dispatched are a prefix of those written; what is left is named. *)
Lemma link_bytes : forall l ps pr ops, link_inv l ps pr ops -> lossless l ->
  exists qr qt, 
    r_acc (x_rx (l_x l)) = vals (r_got (x_rx (l_x l))) ++ qr /\
    map u8 (write_all 0 ops) = t_sent (y_tx (l_y l)) ++ qt /\
    (x_pc (l_x l) = MIdle -> holds SizeR (r_ring (x_rx (l_x l))) qr) /\
    (y_idle (l_y l) = true -> holds SizeT (t_ring (y_tx (l_y l))) qt).
Proof.
  intros l ps pr ops ((qt & _ & T) & (qr & _ & R) & (B & _) & (P & _) & K) (D & A).
  pose proof (all_done _ D) as AD.
  assert (XR : exists qr', r_acc (x_rx (l_x l)) = vals (r_got (x_rx (l_x l))) ++ qr' /\ (x_pc (l_x l) = MIdle -> holds SizeR (r_ring (x_rx (l_x l))) qr')).
  { destruct (r_pc (x_rx (l_x l))) eqn:Q.
    - exists qr. tauto.
    - exists qr. split; [tauto|]. intros E. rewrite E in P. discriminate.
    - exists qr. split; [tauto|]. intros E. rewrite E in P. discriminate.
    - exists qr. split; [tauto|]. intros E. rewrite E in P. discriminate.
    - exists qr. split; [tauto|]. intros E. rewrite E in P. discriminate.
    - exists (v :: qr). split; [tauto|]. intros E. rewrite E in P. discriminate.
    - exists qr. split; [tauto|]. intros E. rewrite E in P. discriminate. }
  destruct XR as (qr' & X1 & X2).
  assert (XT : exists qt', map u8 (write_all 0 ops) = t_sent (y_tx (l_y l)) ++ qt' /\ (y_idle (l_y l) = true -> holds SizeT (t_ring (y_tx (l_y l))) qt')).
  { rewrite <- B, <- AD. destruct (t_pc (y_tx (l_y l))) eqn:Q; cbn [current].
    - destruct T as (T1 & T2 & _). exists (qt ++ map u8 (y_todo (l_y l))). split; [rewrite T2, <- app_assoc; reflexivity|].
      intros E. destruct (y_idle_true _ E) as [_ ->]. cbn [map]. rewrite app_nil_r. exact T1.
    - destruct T as (_ & _ & T2 & _). eexists. split; [rewrite T2, <- app_assoc; reflexivity|].
      intros E. destruct (y_idle_true _ E) as [W _]. congruence.
    - destruct T as (_ & _ & T2 & _). eexists. split; [rewrite T2, <- app_assoc; reflexivity|].
      intros E. destruct (y_idle_true _ E) as [W _]. congruence.
    - destruct T as (_ & _ & T2 & _). eexists. split; [rewrite T2, <- app_assoc; reflexivity|].
      intros E. destruct (y_idle_true _ E) as [W _]. congruence.
    - destruct T as (_ & _ & T2 & _). eexists. split; [rewrite app_assoc, T2, <- app_assoc; reflexivity|].
      intros E. destruct (y_idle_true _ E) as [W _]. congruence.
    - destruct T as (_ & T2). eexists. split; [rewrite T2, <- app_assoc; reflexivity|].
      intros E. destruct (y_idle_true _ E) as [W _]. congruence. }
  destruct XT as (qt' & T1 & T2). exists qr', qt'. auto.
Qed.

Lemma app_inj_len : forall A (a b c d : list A), length a = length b -> a ++ c = b ++ d -> a = b.
Proof.
  intros A. induction a as [|x a IH]; intros [|y b] c d L E; cbn [length app] in *; try discriminate; [reflexivity|].
  injection E as -> E. f_equal. eapply IH; [|exact E]. congruence.
Qed.

Lemma reports_rest : forall l ps pr ops, link_inv l ps pr ops -> lossless l -> Forall w_valid ops ->
  exists rest tail qr qt, map w_seen ops = reports l ++ rest /\ (tail = [] -> rest = []) /\
    r_acc (x_rx (l_x l)) = vals (r_got (x_rx (l_x l))) ++ qr /\ 
    tail = qr ++ skipn (l_taken l) (t_sent (y_tx (l_y l))) ++ qt /\
    (x_pc (l_x l) = MIdle -> holds SizeR (r_ring (x_rx (l_x l))) qr) /\
    (y_idle (l_y l) = true -> holds SizeT (t_ring (y_tx (l_y l))) qt).
Proof.
  intros l ps pr ops H L V. pose proof (link_bytes l ps pr ops H L) as (qr & qt & A & B & C1 & C2).
  destruct H as (_ & _ & _ & (_ & ns & E & N) & K). destruct L as (_ & LA).
  rewrite written_bytes in B by exact V.
  assert (S1 : write_all 0 ops = vals (r_got (x_rx (l_x l))) ++ (qr ++ skipn (l_taken l) (t_sent (y_tx (l_y l))) ++ qt)).
  { rewrite B, app_assoc, <- A, LA, app_assoc, firstn_skipn. reflexivity. }
  pose proof (written_bytes ops V) as WB. rewrite S1, map_app in WB.
  assert (WV : map u8 (vals (r_got (x_rx (l_x l)))) = vals (r_got (x_rx (l_x l)))).
  { eapply app_inj_len; [|exact WB]. apply map_length. }
  rewrite WV in E.
  pose proof (writer_reader_l ops V) as WR. rewrite S1, read_all_app, E in WR.
  remember (qr ++ skipn (l_taken l) (t_sent (y_tx (l_y l))) ++ qt) as tail eqn:TL.
  destruct (read_all (x_reader (l_x l)) tail) as [r2 n2] eqn:E2. cbn [snd] in WR. rewrite concat_app, map_app, N in WR.
  exists (map seen (concat n2)), tail, qr, qt. split; [symmetry; exact WR|]. split; [|auto].
  intros ->. cbn [read_all] in E2. injection E2 as _ <-. reflexivity.
Qed.

Lemma holds_nil : forall (T : Type) Size (r : ring T) q, 1 <= Size <= 65535 -> holds Size r q -> ring_length Size r = 0 -> q = [].
Proof. intros T Size r q HS H E. rewrite (holds_length Size HS r q H) in E. destruct q; [reflexivity|cbn [length] in E; lia]. Qed.

Lemma reports_quiet : forall l ps pr ops, link_inv l ps pr ops -> lossless l -> Forall w_valid ops ->
  quiet SizeT SizeR l -> reports l = map w_seen ops.
Proof.
  intros l ps pr ops H L V (Q1 & Q2 & Q3 & Q4 & Q5).
  destruct (reports_rest l ps pr ops H L V) as (rest & tail & qr & qt & A & B & _ & C & D1 & D2).
  specialize (D1 Q4). specialize (D2 Q1).
  apply holds_nil in D1; [|exact HR|exact Q5]. apply holds_nil in D2; [|exact HT|exact Q2]. subst qr qt.
  rewrite Q3, skipn_all in C. cbn [app] in C. rewrite (B C), app_nil_r in A. symmetry. exact A.
Qed.

(** ** Everything arrives *)
Definition reach (l : link) (ps pr : bool) (l' : link) (ps' pr' : bool) : Prop :=
  exists evs, Forall no_write evs /\ l_polite SizeT SizeR l ps pr evs = true /\ l_run SizeT SizeR l evs = Some l' /\
    (forall more, l_polite SizeT SizeR l ps pr (evs ++ more) = l_polite SizeT SizeR l' ps' pr' more) /\
    (forall more, l_run SizeT SizeR l (evs ++ more) = l_run SizeT SizeR l' more).
Lemma reach_refl : forall l ps pr, reach l ps pr l ps pr.
Proof. intros. exists []. cbn. auto. Qed.
Lemma reach_trans : forall l ps pr l1 ps1 pr1 l2 ps2 pr2, reach l ps pr l1 ps1 pr1 -> reach l1 ps1 pr1 l2 ps2 pr2 -> reach l ps pr l2 ps2 pr2.
Proof.
  intros l ps pr l1 ps1 pr1 l2 ps2 pr2 (a & A1 & A2 & A3 & A4 & A5) (b & B1 & B2 & B3 & B4 & B5).
  exists (a ++ b). split; [apply Forall_app; auto|]. split; [rewrite A4; exact B2|]. split; [rewrite A5; exact B3|].
  split; intros more; rewrite <- app_assoc; [rewrite A4; apply B4|rewrite A5; apply B5].
Qed.
Lemma written_none : forall evs l, Forall no_write evs -> written SizeT SizeR l evs = [].
Proof.
  induction evs as [|e evs IH]; intros l F; [reflexivity|]. inversion F; subst. cbn [written].
  destruct e; cbn [no_write] in *; try contradiction; destruct (l_step SizeT SizeR l _); cbn [app]; auto.
Qed.
Lemma go : forall evs l ps pr ops l', link_inv l ps pr ops -> Forall no_write evs -> l_polite SizeT SizeR l ps pr evs = true ->
  l_run SizeT SizeR l evs = Some l' -> exists ps' pr', reach l ps pr l' ps' pr' /\ link_inv l' ps' pr' ops.
Proof.
  intros evs l ps pr ops l' H F P E. destruct (run_inv evs l ps pr ops H P) as (l1 & ps' & pr' & E1 & I & M1 & _ & M3).
  rewrite E in E1. injection E1 as <-. rewrite written_none, app_nil_r in I by exact F.
  exists ps', pr'. split; [|exact I]. exists evs. auto.
Qed.
Definition main_ev (e : levent) : Prop := match e with LRead | LTake | LSend => True | _ => False end.
Lemma main_polite : forall evs l ps pr, Forall main_ev evs -> l_polite SizeT SizeR l ps pr evs = true.
Proof.
  induction evs as [|e evs IH]; intros l ps pr F; [reflexivity|]. inversion F as [|? ? M F']; subst. cbn [l_polite].
  destruct e; cbn [main_ev] in M; try contradiction; cbn [sends_isr takes_isr];
    rewrite !andb_false_r; cbn [orb andb]; destruct (l_step SizeT SizeR l _); auto.
Qed.
Lemma main_no_write : forall evs, Forall main_ev evs -> Forall no_write evs.
Proof. intros evs F. eapply Forall_impl; [|exact F]. intros [] H; cbn in *; auto; contradiction. Qed.

(** Finishing the Read call in progress. *)
Definition x_rank (x : receiver) : nat :=
  match x_pc x with
  | MIdle => 0 | MCmp => 9 | MSub _ => 8
  | MRead => match r_pc (x_rx x) with RIdle => 8 | RCmp => 7 | RSub _ => 6 | RLoad => 5 | RInc _ => 4 | RWrap _ => 3 | REnable => 3 end
  end.
Lemma x_main_rank : forall x x', x_inv x -> x_main SizeR x = Some x' ->
  r_acc (x_rx x') = r_acc (x_rx x) /\ (r_ien (x_rx x) = true -> r_ien (x_rx x') = true) /\
  (x_pc x <> MIdle -> (x_rank x' < x_rank x)%nat).
Proof.
  intros [[r ien rpc got acc] pc rd notes] x' [P _] E. unfold x_main in E. cbn [x_rx x_pc x_reader x_notes r_pc] in *.
  destruct pc as [| |ge|].
  - injection E as <-. split; [reflexivity|]. split; [auto|]. intros N. now elim N.
  - injection E as <-. split; [reflexivity|]. split; [auto|]. intros _. cbn. lia.
  - cbv zeta in E. match type of E with (if ?c then _ else _) = _ => destruct c end.
    + subst rpc. cbn [rx_step r_pc r_ring r_ien r_got r_acc] in E. injection E as <-. split; [reflexivity|]. split; [auto|]. intros _. cbn. lia.
    + injection E as <-. split; [reflexivity|]. split; [auto|]. intros _. cbn. lia.
  - cbn [rx_step] in E. unfold rx_main in E. cbn [r_pc r_ring r_ien r_got r_acc] in E. destruct rpc; try congruence.
    + cbn [r_pc] in E. injection E as <-. split; [reflexivity|]. split; [auto|]. intros _. cbn. lia.
    + cbv zeta in E. match type of E with context [if ?c >? 0 then _ else _] => destruct (c >? 0) end;
        cbn [r_pc] in E; injection E as <-; (split; [reflexivity|]); (split; [auto|]); intros _; cbn; lia.
    + match type of E with context [if ?c then _ else _] => destruct c end; [|discriminate].
      cbn [r_pc] in E; injection E as <-; (split; [reflexivity|]); (split; [auto|]); intros _; cbn; lia.
    + cbn [r_pc] in E; injection E as <-; (split; [reflexivity|]); (split; [auto|]); intros _; cbn; lia.
    + cbn [r_pc] in E; injection E as <-. unfold x_answer. match goal with |- context [if ?c =? -1 then _ else _] => destruct (c =? -1) end.
      * split; [reflexivity|]. split; [auto|]. intros _. cbn. lia.
      * match goal with |- context [dispatch ?a ?b] => destruct (dispatch a b) as [[? ?] ?] end. cbn [x_rx r_acc r_ien].
        split; [reflexivity|]. split; [auto|]. intros _. cbn. lia.
    + cbn [r_pc] in E; injection E as <-. unfold x_answer. match goal with |- context [if ?c =? -1 then _ else _] => destruct (c =? -1) end.
      * split; [reflexivity|]. split; [auto|]. intros _. cbn. lia.
      * match goal with |- context [dispatch ?a ?b] => destruct (dispatch a b) as [[? ?] ?] end. cbn [x_rx r_acc r_ien].
        split; [reflexivity|]. split; [auto|]. intros _. cbn. lia.
Qed.

(** What stays the same while the receiver reads. *)
Definition same_line (l l' : link) : Prop :=
  l_y l' = l_y l /\ l_taken l' = l_taken l /\ r_acc (x_rx (l_x l')) = r_acc (x_rx (l_x l)) /\
  (r_ien (x_rx (l_x l)) = true -> r_ien (x_rx (l_x l')) = true).
Lemma same_lossless : forall l l', same_line l l' -> lossless l -> lossless l'.
Proof. intros l l' (A & B & C & _) (D & E). unfold lossless. rewrite A, B, C. auto. Qed.
Lemma same_trans : forall a b c, same_line a b -> same_line b c -> same_line a c.
Proof. intros a b c (A & B & C & D) (E & F & G & H). unfold same_line. rewrite E, F, G, A, B, C. auto 8. Qed.

Lemma finish_call : forall n l ps pr ops, (x_rank (l_x l) <= n)%nat -> link_inv l ps pr ops ->
  exists l' ps' pr', reach l ps pr l' ps' pr' /\ link_inv l' ps' pr' ops /\ x_pc (l_x l') = MIdle /\ same_line l l'.
Proof.
  induction n as [|n IH]; intros l ps pr ops N H.
  - exists l, ps, pr. split; [apply reach_refl|]. split; [exact H|]. split; [|unfold same_line; auto].
    unfold x_rank in N. destruct (x_pc (l_x l)); try lia; [reflexivity|]. destruct (r_pc (x_rx (l_x l))); lia.
  - destruct (x_pc (l_x l)) eqn:Q.
    { exists l, ps, pr. split; [apply reach_refl|]. split; [exact H|]. split; [exact Q|unfold same_line; auto]. }
    all: assert (NQ : x_pc (l_x l) <> MIdle) by congruence.
    all: pose proof H as (_ & (qr & R) & _ & X & _); destruct (x_main_l (l_x l) pr qr R X) as (x' & q' & E & _ & _).
    all: destruct (x_main_rank _ _ X E) as (A & B & C); specialize (C NQ).
    all: assert (E1 : l_run SizeT SizeR l [LTake] = Some (mkLink (l_y l) x' (l_taken l))) by (cbn [l_run l_step]; rewrite E; reflexivity).
    all: assert (F : Forall main_ev [LTake]) by (constructor; [exact I|constructor]).
    all: destruct (go [LTake] l ps pr ops _ H (main_no_write _ F) (main_polite _ l ps pr F) E1) as (ps1 & pr1 & R1 & I1).
    all: destruct (IH (mkLink (l_y l) x' (l_taken l)) ps1 pr1 ops ltac:(cbn [l_x]; lia) I1) as (l2 & ps2 & pr2 & R2 & I2 & M2 & S2).
    all: exists l2, ps2, pr2; split; [eapply reach_trans; eassumption|]; split; [exact I2|]; split; [exact M2|].
    all: eapply same_trans; [|exact S2]; unfold same_line; cbn [l_y l_x l_taken]; auto.
Qed.

(** One undisturbed Read takes one byte out of the buffer. *)
Definition read_evs : list levent := [LRead; LTake; LTake; LTake; LTake; LTake; LTake; LTake].
Lemma read_one : forall l ps pr ops v q, link_inv l ps pr ops -> x_pc (l_x l) = MIdle -> holds SizeR (r_ring (x_rx (l_x l))) (v :: q) ->
  exists l' ps' pr', reach l ps pr l' ps' pr' /\ link_inv l' ps' pr' ops /\ x_pc (l_x l') = MIdle /\ same_line l l' /\
    holds SizeR (r_ring (x_rx (l_x l'))) q.
Proof.
  intros l ps pr ops v q H Q HH.
  assert (F : Forall main_ev read_evs) by (repeat constructor).
  assert (K : exists x', l_run SizeT SizeR l read_evs = Some (mkLink (l_y l) x' (l_taken l)) /\ x_pc x' = MIdle /\
      r_acc (x_rx x') = r_acc (x_rx (l_x l)) /\ (r_ien (x_rx (l_x l)) = true -> r_ien (x_rx x') = true) /\
      holds SizeR (r_ring (x_rx x')) q).
  { pose proof H as (_ & (qr & R) & _ & (P & _) & _). rewrite Q in P.
    destruct l as [y [[r ien rpc got acc] pc rd notes] k]. cbn [l_x l_y l_taken x_rx x_pc r_pc r_ring r_acc r_got r_ien] in *. subst pc rpc.
    assert (ge : forall g, g = (rb_wr r >=? rb_rd r) -> ((if g then u16 (rb_wr r - rb_rd r) else u16 (SizeR - (rb_rd r - rb_wr r))) >? 0) = true).
    { intros g ->. apply (sub_length SizeR HR r (v :: q)); [exact HH|]. intros. lia. }
    pose proof (ge _ eq_refl) as G. clear ge.
    destruct (holds_read SizeR HR r v q HH) as (r' & ER & H').
    assert (IB : inb (rb_rd r) SizeR = true) by (apply inb_true; destruct HH; lia).
    unfold ring_read in ER. rewrite IB in ER. injection ER as <- EV.
    unfold read_evs. cbn [l_run l_step x_call l_x l_y l_taken x_pc x_rx x_reader x_notes x_main r_ring].
    cbv zeta. rewrite G.
    cbn [l_run l_step x_call l_x l_y l_taken x_pc x_rx x_reader x_notes x_main rx_step rx_main r_pc r_ring r_ien r_got r_acc].
    cbv zeta. rewrite G.
    cbn [l_run l_step x_call l_x l_y l_taken x_pc x_rx x_reader x_notes x_main rx_step rx_main r_pc r_ring r_ien r_got r_acc].
    rewrite IB.
    cbn [l_run l_step x_call l_x l_y l_taken x_pc x_rx x_reader x_notes x_main rx_step rx_main r_pc r_ring r_ien r_got r_acc rb_mem rb_wr rb_rd].
    unfold x_answer. match goal with |- context [if ?c =? -1 then _ else _] => destruct (c =? -1) end.
    - eexists. split; [reflexivity|]. cbn [x_rx x_pc r_acc r_ien r_ring]. auto.
    - match goal with |- context [dispatch ?a ?b] => destruct (dispatch a b) as [[? ?] ?] end.
      eexists. split; [reflexivity|]. cbn [x_rx x_pc r_acc r_ien r_ring]. auto. }
  destruct K as (x' & E & K1 & K2 & K3 & K4).
  destruct (go read_evs l ps pr ops _ H (main_no_write _ F) (main_polite _ l ps pr F) E) as (ps1 & pr1 & R1 & I1).
  exists (mkLink (l_y l) x' (l_taken l)), ps1, pr1. split; [exact R1|]. split; [exact I1|]. split; [exact K1|]. split; [|exact K4].
  unfold same_line. cbn [l_y l_x l_taken]. auto.
Qed.


Lemma read_out : forall q l ps pr ops, link_inv l ps pr ops -> x_pc (l_x l) = MIdle -> holds SizeR (r_ring (x_rx (l_x l))) q ->
  exists l' ps' pr', reach l ps pr l' ps' pr' /\ link_inv l' ps' pr' ops /\ x_pc (l_x l') = MIdle /\ same_line l l' /\
    holds SizeR (r_ring (x_rx (l_x l'))) [].
Proof.
  induction q as [|v q IH]; intros l ps pr ops H Q HH.
  - exists l, ps, pr. split; [apply reach_refl|]. split; [exact H|]. split; [exact Q|]. split; [unfold same_line; auto|exact HH].
  - destruct (read_one l ps pr ops v q H Q HH) as (l1 & ps1 & pr1 & R1 & I1 & Q1 & S1 & H1).
    destruct (IH l1 ps1 pr1 ops I1 Q1 H1) as (l2 & ps2 & pr2 & R2 & I2 & Q2 & S2 & H2).
    exists l2, ps2, pr2. split; [eapply reach_trans; eassumption|]. split; [exact I2|]. split; [exact Q2|].
    split; [eapply same_trans; eassumption|exact H2].
Qed.

(** The sender's handler empties the transmit buffer. *)
Lemma send_out : forall q l ps pr ops, link_inv l ps pr ops -> lossless l -> y_idle (l_y l) = true -> holds SizeT (t_ring (y_tx (l_y l))) q ->
  exists l' ps' pr', reach l ps pr l' ps' pr' /\ link_inv l' ps' pr' ops /\ lossless l' /\ y_idle (l_y l') = true /\
    holds SizeT (t_ring (y_tx (l_y l'))) [] /\ l_x l' = l_x l.
Proof.
  induction q as [|v q IH]; intros l ps pr ops H L Y HH.
  - exists l, ps, pr. split; [apply reach_refl|]. auto 6.
  - destruct (y_idle_true _ Y) as [P TD].
    assert (IEN : t_ien (y_tx (l_y l)) = true).
    { destruct H as ((qt & _ & T) & _). rewrite P in T. destruct T as (T1 & _ & T3). apply T3. intros ->.
      pose proof (holds_length SizeT HT _ _ T1). pose proof (holds_length SizeT HT _ _ HH). cbn [length] in *. lia. }
    destruct (holds_read SizeT HT _ v q HH) as (r' & ER & H').
    assert (E : l_run SizeT SizeR l [LSendIsr] = Some (mkLink (mkSender (mkTx r' true TIdle (t_sent (y_tx (l_y l)) ++ [u8 v]) (t_done (y_tx (l_y l)))) (y_run (l_y l)) []) (l_x l) (l_taken l))).
    { cbn [l_run l_step]. unfold y_isr. cbn [tx_step]. unfold tx_isr. rewrite IEN, (holds_length SizeT HT _ _ HH).
      replace (Z.of_nat (length (v :: q)) =? 0) with false by (cbn [length]; lia). cbn [negb]. rewrite ER, P, TD. reflexivity. }
    assert (PL : l_polite SizeT SizeR l ps pr [LSendIsr] = true).
    { cbn [l_polite]. unfold win_t at 1. unfold tx_in_window. rewrite P. cbn [takes_isr andb]. rewrite andb_false_r. cbn [orb andb].
      destruct (l_step SizeT SizeR l LSendIsr); reflexivity. }
    destruct (go [LSendIsr] l ps pr ops _ H ltac:(constructor; [exact I|constructor]) PL E) as (ps1 & pr1 & R1 & I1).
    assert (L1 : lossless (mkLink (mkSender (mkTx r' true TIdle (t_sent (y_tx (l_y l)) ++ [u8 v]) (t_done (y_tx (l_y l)))) (y_run (l_y l)) []) (l_x l) (l_taken l))).
    { destruct L as [LA LB]. split; cbn [l_y l_x l_taken y_tx t_done t_sent]; [exact LA|]. rewrite LB. destruct H as (_ & _ & _ & _ & K).
      rewrite firstn_app. replace (l_taken l - length (t_sent (y_tx (l_y l))))%nat with 0%nat by lia. cbn [firstn]. rewrite app_nil_r. reflexivity. }
    destruct (IH _ ps1 pr1 ops I1 L1 eq_refl H') as (l2 & ps2 & pr2 & R2 & I2 & L2 & Y2 & H2 & X2).
    exists l2, ps2, pr2. split; [eapply reach_trans; eassumption|]. auto 6.
Qed.

(** A byte on the line is taken into the empty receive buffer. *)
Lemma take_one : forall l ps pr ops d, 2 <= SizeR -> link_inv l ps pr ops -> lossless l -> x_pc (l_x l) = MIdle ->
  holds SizeR (r_ring (x_rx (l_x l))) [] -> r_ien (x_rx (l_x l)) = true -> nth_error (t_sent (y_tx (l_y l))) (l_taken l) = Some d ->
  exists l' ps' pr', reach l ps pr l' ps' pr' /\ link_inv l' ps' pr' ops /\ lossless l' /\ x_pc (l_x l') = MIdle /\
    l_y l' = l_y l /\ l_taken l' = Datatypes.S (l_taken l) /\ r_ien (x_rx (l_x l')) = true /\ holds SizeR (r_ring (x_rx (l_x l'))) [u8 d].
Proof.
  intros l ps pr ops d H2 H L Q HH IEN D.
  pose proof H as (_ & _ & _ & (P & _) & _). rewrite Q in P.
  destruct (holds_write SizeR HR _ [] (u8 d) HH) as (r' & EW & H'). cbn [length Z.of_nat] in *.
  replace (0 <? SizeR - 1) with true in * by lia. cbn [app] in *.
  assert (DB : u8 d = d).
  { destruct (link_bytes l ps pr ops H L) as (_ & qt & _ & B & _). apply nth_error_In in D.
    assert (I1 : In d (map u8 (write_all 0 ops))) by (rewrite B; apply in_or_app; auto). apply in_map_iff in I1.
    destruct I1 as (b & <- & _). unfold u8. rewrite Z.mod_mod by lia. reflexivity. }
  assert (E : l_run SizeT SizeR l [LTakeIsr true] = Some (mkLink (l_y l) (mkReceiver (mkRx r' true RIdle (r_got (x_rx (l_x l))) (r_acc (x_rx (l_x l)) ++ [u8 d])) MIdle (x_reader (l_x l)) (x_notes (l_x l))) (Datatypes.S (l_taken l)))).
  { cbn [l_run l_step]. unfold on_line. rewrite IEN, D. unfold x_isr. cbn [rx_step]. unfold rx_isr. rewrite IEN, EW, P, Q. reflexivity. }
  assert (PL : l_polite SizeT SizeR l ps pr [LTakeIsr true] = true).
  { cbn [l_polite]. unfold win_r at 1. unfold rx_in_window. rewrite P. cbn [sends_isr andb]. rewrite andb_false_r. cbn [orb andb].
    destruct (l_step SizeT SizeR l (LTakeIsr true)); reflexivity. }
  destruct (go [LTakeIsr true] l ps pr ops _ H ltac:(constructor; [exact I|constructor]) PL E) as (ps1 & pr1 & R1 & I1).
  eexists. exists ps1, pr1. split; [exact R1|]. split; [exact I1|]. cbn [l_x l_y l_taken x_pc x_rx r_ien r_ring]. split; [|auto 6].
  destruct L as [LA LB]. split; cbn [l_y l_x l_taken x_rx r_acc]; [exact LA|]. rewrite LB, DB. 
  revert D. generalize (t_sent (y_tx (l_y l))), (l_taken l). clear. intros s k. revert s.
  induction k as [|k IH]; intros [|a s] D; cbn [nth_error firstn app] in *; try discriminate; [injection D as ->; reflexivity|].
  f_equal. apply IH. exact D.
Qed.

Lemma all_taken : forall n l ps pr ops, 2 <= SizeR -> link_inv l ps pr ops -> lossless l -> x_pc (l_x l) = MIdle ->
  holds SizeR (r_ring (x_rx (l_x l))) [] -> r_ien (x_rx (l_x l)) = true ->
  n = (length (t_sent (y_tx (l_y l))) - l_taken l)%nat ->
  exists l' ps' pr', reach l ps pr l' ps' pr' /\ link_inv l' ps' pr' ops /\ lossless l' /\ x_pc (l_x l') = MIdle /\
    l_y l' = l_y l /\ l_taken l' = length (t_sent (y_tx (l_y l))) /\ holds SizeR (r_ring (x_rx (l_x l'))) [].
Proof.
  induction n as [|n IH]; intros l ps pr ops H2 H L Q HH IEN N.
  - exists l, ps, pr. split; [apply reach_refl|]. split; [exact H|]. split; [exact L|]. split; [exact Q|]. split; [reflexivity|].
    split; [|exact HH]. destruct H as (_ & _ & _ & _ & K). lia.
  - destruct (nth_error (t_sent (y_tx (l_y l))) (l_taken l)) as [d|] eqn:D.
    2:{ apply nth_error_None in D. lia. }
    destruct (take_one l ps pr ops d H2 H L Q HH IEN D) as (l1 & ps1 & pr1 & R1 & I1 & L1 & Q1 & Y1 & T1 & IEN1 & H1).
    destruct (read_one l1 ps1 pr1 ops _ _ I1 Q1 H1) as (l2 & ps2 & pr2 & R2 & I2 & Q2 & S2 & HH2).
    pose proof S2 as (SA & SB & SC & SD).
    destruct (IH l2 ps2 pr2 ops H2 I2 (same_lossless _ _ S2 L1) Q2 HH2 (SD IEN1)) as (l3 & ps3 & pr3 & R3 & I3 & L3 & Q3 & Y3 & T3 & H3).
    { rewrite SA, SB, Y1, T1. lia. }
    exists l3, ps3, pr3. split; [eapply reach_trans; [exact R1|]; eapply reach_trans; [exact R2|exact R3]|].
    split; [exact I3|]. split; [exact L3|]. split; [exact Q3|]. split; [rewrite Y3, SA, Y1; reflexivity|].
    split; [rewrite T3, SA, Y1; reflexivity|exact H3].
Qed.

Lemma all_arrives : forall l ps pr ops, 2 <= SizeR -> link_inv l ps pr ops -> lossless l -> y_idle (l_y l) = true ->
  r_ien (x_rx (l_x l)) = true -> Forall w_valid ops ->
  exists l' ps' pr', reach l ps pr l' ps' pr' /\ lossless l' /\ quiet SizeT SizeR l' /\ reports l' = map w_seen ops.
Proof.
  intros l ps pr ops H2 H L Y IEN V.
  destruct (finish_call _ l ps pr ops (le_n _) H) as (l1 & ps1 & pr1 & R1 & I1 & Q1 & S1).
  pose proof S1 as (SA & SB & SC & SD). pose proof (same_lossless _ _ S1 L) as L1.
  destruct (link_bytes l1 ps1 pr1 ops I1 L1) as (qr & qt & _ & _ & BR & BT). specialize (BR Q1).
  rewrite SA in BT. specialize (BT Y). rewrite <- SA in BT, Y.
  destruct (read_out qr l1 ps1 pr1 ops I1 Q1 BR) as (l2 & ps2 & pr2 & R2 & I2 & Q2 & S2 & HH2).
  pose proof S2 as (TA & TB & TC & TD). pose proof (same_lossless _ _ S2 L1) as L2. rewrite <- TA in BT, Y.
  destruct (send_out qt l2 ps2 pr2 ops I2 L2 Y BT) as (l3 & ps3 & pr3 & R3 & I3 & L3 & Y3 & HT3 & X3).
  rewrite <- X3 in Q2, HH2. specialize (TD (SD IEN)). rewrite <- X3 in TD.
  destruct (all_taken _ l3 ps3 pr3 ops H2 I3 L3 Q2 HH2 TD eq_refl) as (l4 & ps4 & pr4 & R4 & I4 & L4 & Q4 & Y4 & T4 & H4).
  exists l4, ps4, pr4. split; [eapply reach_trans; [exact R1|]; eapply reach_trans; [exact R2|]; eapply reach_trans; [exact R3|exact R4]|].
  split; [exact L4|].
  assert (QU : quiet SizeT SizeR l4).
  { unfold quiet. rewrite Y4, T4, Q4. split; [exact Y3|]. split; [rewrite (holds_length SizeT HT _ _ HT3); reflexivity|].
    split; [reflexivity|]. split; [reflexivity|]. rewrite (holds_length SizeR HR _ _ H4). reflexivity. }
  split; [exact QU|]. eapply reports_quiet; eassumption.
Qed.
End L.

(** ** Without the receive interrupt *)
Section Deaf.
Variable SizeT SizeR : Z.
Definition deaf (x : receiver) : Prop :=
  r_ien (x_rx x) = false /\ rb_wr (r_ring (x_rx x)) = 0 /\ rb_rd (r_ring (x_rx x)) = 0 /\ r_pc (x_rx x) = RIdle /\
  r_got (x_rx x) = [] /\ x_notes x = [] /\ (x_pc x = MIdle \/ x_pc x = MCmp \/ x_pc x = MSub true).
Lemma deaf_step : forall l e l', deaf (l_x l) -> l_step SizeT SizeR l e = Some l' -> deaf (l_x l').
Proof.
  intros [y x k] e l' (A & B & C & D & E & N & P) H. cbn [l_x l_y l_taken] in *.
  destruct e as [o| | | | |ok]; cbn [l_step l_x l_y l_taken] in H.
  - injection H as <-. unfold deaf. auto 8.
  - destruct (y_main SizeT y); [|discriminate]. injection H as <-. unfold deaf. auto 8.
  - destruct (y_isr SizeT y); [|discriminate]. injection H as <-. unfold deaf. auto 8.
  - injection H as <-. unfold deaf, x_call. cbn [l_x]. destruct P as [P|[P|P]]; rewrite P; cbn [x_rx x_pc x_notes]; auto 10.
    all: rewrite P; auto 10.
  - unfold x_main in H. rewrite B, C in H. destruct P as [P|[P|P]]; rewrite P in H; cbn in H; injection H as <-;
      unfold deaf; cbn [l_x x_rx x_pc x_notes]; auto 10.
  - unfold on_line in H. cbn [l_x] in H. rewrite A in H. injection H as <-. unfold deaf. auto 8.
Qed.
Lemma deaf_run : forall evs l l', deaf (l_x l) -> l_run SizeT SizeR l evs = Some l' -> deaf (l_x l').
Proof.
  induction evs as [|e evs IH]; intros l l' D H; cbn [l_run] in H.
  - injection H as <-. exact D.
  - destruct (l_step SizeT SizeR l e) as [l1|] eqn:E; [|discriminate]. eapply IH; [|exact H]. eapply deaf_step; eassumption.
Qed.
End Deaf.

(** The receive interrupt is never turned off. *)
Lemma ien_step : forall ST SR l e l', r_ien (x_rx (l_x l)) = true -> l_step ST SR l e = Some l' -> r_ien (x_rx (l_x l')) = true.
Proof.
  intros ST SR [y x k] e l' A H. cbn [l_x l_y l_taken] in *. destruct e as [o| | | | |ok]; cbn [l_step l_x l_y l_taken] in H.
  - injection H as <-. exact A.
  - destruct (y_main ST y); [|discriminate]. injection H as <-. exact A.
  - destruct (y_isr ST y); [|discriminate]. injection H as <-. exact A.
  - injection H as <-. unfold x_call. cbn [l_x]. destruct (x_pc x); exact A.
  - destruct (x_main SR x) as [x'|] eqn:E; [|discriminate]. injection H as <-. cbn [l_x]. unfold x_main in E.
    destruct (x_pc x).
    + injection E as <-. exact A.
    + injection E as <-. exact A.
    + cbv zeta in E. match type of E with (if ?c then _ else _) = _ => destruct c end.
      * cbn [rx_step] in E. destruct (r_pc (x_rx x)); injection E as <-; exact A.
      * injection E as <-. exact A.
    + destruct (rx_step SR (x_rx x) RxStep) as [r|] eqn:R; [|discriminate].
      assert (B : r_ien r = true).
      { cbn [rx_step] in R. unfold rx_main in R.
        destruct (r_pc (x_rx x)); repeat match type of R with (if ?c then _ else _) = _ => destruct c end; try discriminate; injection R as <-; try exact A; reflexivity. }
      destruct (r_pc r); injection E as <-; try exact B. unfold x_answer.
      match goal with |- context [if ?c =? -1 then _ else _] => destruct (c =? -1) end; [exact B|].
      match goal with |- context [dispatch ?a ?b] => destruct (dispatch a b) as [[? ?] ?] end. exact B.
  - destruct (on_line (mkLink y x k)) as [d|]; [|injection H as <-; exact A].
    destruct (x_isr SR x d ok) as [x'|] eqn:E; [|discriminate]. injection H as <-. cbn [l_x]. unfold x_isr in E.
    destruct (rx_step SR (x_rx x) (RxIsr d ok)) as [r|] eqn:R; [|discriminate]. injection E as <-. cbn [x_rx rx_step] in *.
    destruct (rx_isr_pc _ _ _ _ _ R) as (_ & _ & ->). exact A.
Qed.
Lemma ien_run : forall ST SR evs l l', r_ien (x_rx (l_x l)) = true -> l_run ST SR l evs = Some l' -> r_ien (x_rx (l_x l')) = true.
Proof.
  intros ST SR. induction evs as [|e evs IH]; intros l l' A H; cbn [l_run] in H.
  - injection H as <-. exact A.
  - destruct (l_step ST SR l e) as [l1|] eqn:E; [|discriminate]. eapply IH; [|exact H]. eapply ien_step; eassumption.
Qed.

Lemma midi_link_l : forall ST SR on mT mR evs, 1 <= ST <= 65535 -> 1 <= SR <= 65535 ->
  l_polite ST SR (l_start on mT mR) false false evs = true ->
  let ops := written ST SR (l_start on mT mR) evs in
  exists l, l_run ST SR (l_start on mT mR) evs = Some l /\
    (Forall w_valid ops -> lossless l ->
       (exists rest, map w_seen ops = reports l ++ rest) /\
       (quiet ST SR l -> reports l = map w_seen ops)).
Proof.
  intros ST SR on mT mR evs H1 H2 P ops.
  destruct (run_inv ST SR H1 H2 evs _ _ _ _ (start_inv ST SR H1 H2 on mT mR) P) as (l & ps & pr & E & I & _).
  cbn [app] in I. exists l. split; [exact E|]. intros V L. split.
  - destruct (reports_rest ST SR H1 H2 l ps pr _ I L V) as (rest & _ & _ & _ & R & _). exists rest. exact R.
  - intros Q. exact (reports_quiet ST SR H1 H2 l ps pr _ I L V Q).
Qed.

Lemma midi_arrives_l : forall ST SR mT mR evs l, 1 <= ST <= 65535 -> 2 <= SR <= 65535 ->
  l_polite ST SR (l_start true mT mR) false false evs = true ->
  let ops := written ST SR (l_start true mT mR) evs in
  l_run ST SR (l_start true mT mR) evs = Some l -> Forall w_valid ops -> lossless l -> y_idle (l_y l) = true ->
  exists more l', Forall no_write more /\ l_polite ST SR (l_start true mT mR) false false (evs ++ more) = true /\
    l_run ST SR (l_start true mT mR) (evs ++ more) = Some l' /\ lossless l' /\ quiet ST SR l' /\ reports l' = map w_seen ops.
Proof.
  intros ST SR mT mR evs l H1 H2 P ops E V L Y. assert (H3 : 1 <= SR <= 65535) by lia.
  destruct (run_inv ST SR H1 H3 evs _ _ _ _ (start_inv ST SR H1 H3 true mT mR) P) as (l1 & ps & pr & E1 & I & M1 & _ & M3).
  rewrite E in E1. injection E1 as <-. cbn [app] in I.
  assert (IEN : r_ien (x_rx (l_x l)) = true) by (eapply ien_run; [|exact E]; reflexivity).
  destruct (all_arrives ST SR H1 H3 l ps pr _ ltac:(lia) I L Y IEN V) as (l2 & ps2 & pr2 & (more & R1 & R2 & R3 & _) & L2 & Q2 & RR).
  exists more, l2. split; [exact R1|]. split; [rewrite M1; exact R2|]. split; [rewrite M3; exact R3|]. auto.
Qed.

Lemma midi_deaf_l : forall ST SR mT mR evs l, l_run ST SR (l_start false mT mR) evs = Some l ->
  reports l = [] /\ r_got (x_rx (l_x l)) = [] /\ l_taken l = 0%nat /\ r_ien (x_rx (l_x l)) = false.
Proof.
  intros ST SR mT mR evs.
  assert (K : forall evs l l', deaf (l_x l) -> l_taken l = 0%nat -> l_run ST SR l evs = Some l' -> deaf (l_x l') /\ l_taken l' = 0%nat).
  { clear. induction evs as [|e evs IH]; intros l l' D T H; cbn [l_run] in H.
    - injection H as <-. auto.
    - destruct (l_step ST SR l e) as [l1|] eqn:E; [|discriminate]. eapply IH; [eapply deaf_step; eassumption| |exact H].
      destruct e as [o| | | | |ok]; cbn [l_step] in E.
      + injection E as <-. exact T.
      + destruct (y_main ST (l_y l)); [|discriminate]. injection E as <-. exact T.
      + destruct (y_isr ST (l_y l)); [|discriminate]. injection E as <-. exact T.
      + injection E as <-. exact T.
      + destruct (x_main SR (l_x l)); [|discriminate]. injection E as <-. exact T.
      + unfold on_line in E. destruct D as (D & _). rewrite D in E. injection E as <-. exact T. }
  intros l H. destruct (K evs (l_start false mT mR) l) as [D T]; [|reflexivity|exact H|].
  - unfold deaf. cbn. auto 8.
  - destruct D as (A & _ & _ & _ & B & C & _). unfold reports. rewrite C. auto.
Qed.

Lemma midi_overflow_l : exists evs l,
  let s := l_start true (fun _ => 0) (fun _ => 0) in
  l_polite 3 16 s false false evs = true /\ l_run 3 16 s evs = Some l /\ quiet 3 16 l /\
  map w_seen (written 3 16 s evs) = [RMsg 144 60 100; RMsg 144 61 101] /\ reports l = [RMsg 144 60 61].
Proof.
  exists ([LWrite (WMessage (mkMsg 144 0 60 100))] ++ repeat LSend 17 ++ [LSendIsr; LSendIsr] ++
          [LWrite (WMessage (mkMsg 144 0 61 101))] ++ repeat LSend 14 ++ [LSendIsr; LSendIsr; LSendIsr] ++ repeat (LTakeIsr true) 4 ++
          concat (repeat (LRead :: repeat LTake 7) 4)).
  eexists. cbv zeta. split; [lazy; reflexivity|]. split; [lazy; reflexivity|]. split; [lazy; repeat split|]. split; lazy; reflexivity.
Qed.
