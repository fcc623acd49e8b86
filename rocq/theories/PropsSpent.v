(** * PropsSpent: the end of a session in a build with overflow checks (C117) *)
From Coq Require Import List NArith Bool Lia ZifyN.
From Coq.Strings Require Import Byte.
From Verif Require Import Base BaseFacts Env Toy FsChacha Cipher CipherFacts Histories CipherProofs Handshake Transport Io Futures SpecIo Sessions
  SessionProofs EndpointProofs Traffic TrafficIo TrafficFutures SpecTraffic TrafficProofs TrafficIoProofs TrafficLiveProofs TrafficFuturesProofs
  PropsCipher PropsHandshake PropsIo PropsTraffic TrafficTask SpecTask TrafficTaskProofs SpecSpent.
Import ListNotations.
Local Open Scope N_scope.

Section Spent.
Context {E : Env}.

Lemma spent_sync p pl : spent (pw_cipher p) -> sync_write p pl = Panic \/ sync_write p pl = NoFuel.
Proof.
  intros S. unfold sync_write. destruct (payload_contents pl) as [ct| |]; cbn [bind]; auto.
  destruct (payload_type pl) as [t| |]; cbn [bind]; auto. destruct (S ct t None) as [-> _]. auto.
Qed.
Lemma spent_start p pl : spent (pw_cipher p) -> start_write p pl = Panic \/ start_write p pl = NoFuel.
Proof.
  intros S. unfold start_write. destruct (payload_contents pl) as [ct| |]; cbn [bind]; auto.
  destruct (payload_type pl) as [t| |]; cbn [bind]; auto. cbn zeta. destruct (S ct t None) as [_ Q]. rewrite Q; auto.
  rewrite len_zeros. apply N.le_refl.
Qed.
Lemma spent_tokio p pl : spent (pw_cipher p) -> tokio_write p pl = Panic \/ tokio_write p pl = NoFuel.
Proof.
  intros S. unfold tokio_write. destruct (payload_contents pl) as [ct| |]; cbn [bind]; auto.
  destruct (payload_type pl) as [t| |]; cbn [bind]; auto. cbn zeta. destruct (S ct t None) as [_ Q]. rewrite Q; auto.
  rewrite len_zeros. apply N.le_refl.
Qed.

(** ** The blocking driver *)
Context {G : Type} {R : Rng G}.

Lemma spent_move (s : @shared G) m s' : spent (pw_cipher (st_writer s)) -> do_move s m = Some s' ->
  st_writer s' = st_writer s /\ returned s' = returned s.
Proof.
  intros S H. destruct s as [w sh lk po sd a t rc rt]. cbn [st_writer app_at thread_at] in *.
  destruct m as [pl| | |]; cbn [do_move app_at] in H.
  - destruct a; inversion H; subst; cbn; auto.
  - destruct a; inversion H; subst; cbn; auto.
  - unfold app_step in H. cbn [app_at lock poisoned st_shaper st_writer thread_at] in H. destruct a as [|pl|pl|d pl|pl| | |]; try discriminate.
    + destruct lk; try discriminate. destruct po; injection H as <-; cbn; auto.
    + injection H as <-. destruct (shaper_pad sh pl) as [[[[d|] sh'] rec']| |]; cbn; auto.
    + injection H as <-. destruct (spent_sync w d S) as [-> | ->]; cbn; auto.
    + injection H as <-. destruct (spent_sync w pl S) as [-> | ->]; cbn; auto.
    + destruct t; inversion H; subst; cbn; auto.
  - unfold thread_step in H. cbn [thread_at lock poisoned st_shaper st_writer shutdown] in H. destruct t; try discriminate; injection H as <-; cbn; auto.
    + destruct lk; [destruct po|..]; cbn; auto.
    + destruct (shaper_decoy sh) as [[[d|] sh'] rec']; cbn; auto.
    + match goal with |- context [sync_write w ?d] => destruct (spent_sync w d S) as [-> | ->] end; cbn; auto.
Qed.

(** An application inside [write], with the mutex. *)
Lemma spent_app (s : @shared G) : spent (pw_cipher (st_writer s)) ->
  (exists d pl, app_at s = AppWritePad d pl) \/ (exists pl, app_at s = AppWrite pl) ->
  exists s', play s [App] = Some s' /\ app_at s' = AppPanicked /\ poisoned s' = true /\ lock s' = Free.
Proof.
  intros S A. cbn [play do_move]. unfold app_step. destruct A as [(d & pl & ->) | (pl & ->)].
  - destruct (spent_sync (st_writer s) d S) as [-> | ->]; eexists; cbn; auto.
  - destruct (spent_sync (st_writer s) pl S) as [-> | ->]; eexists; cbn; auto.
Qed.

Lemma spent_play : forall ms (s s' : @shared G), spent (pw_cipher (st_writer s)) -> play s ms = Some s' ->
  st_writer s' = st_writer s /\ returned s' = returned s.
Proof.
  induction ms as [|m ms IH]; intros s s' S H; cbn [play] in H; [injection H as <-; auto|].
  destruct (do_move s m) as [s1|] eqn:M; [|discriminate]. destruct (spent_move _ _ _ S M) as (W & Rt).
  rewrite <- W in S. destruct (IH _ _ S H). split; congruence.
Qed.

(** ** The task *)
Lemma spent_begin p pl : spent (pw_cipher p) -> begin_write p pl = Panic \/ begin_write p pl = NoFuel.
Proof. intros S. unfold begin_write. destruct (spent_start p pl S) as [-> | ->]; auto. Qed.

Lemma spent_handle (t : @task G) c q : spent (pw_cipher (tk_writer t)) ->
  let s := split_handle t c q in
  running (sp_task s) = false /\ sp_place s = AtSelect /\ tk_writer (sp_task s) = tk_writer t /\ answers (sp_task s) = answers t.
Proof.
  intros S. unfold split_handle. destruct (shaper_pad _ _) as [[[[d|] sh] rc]| |]; [..|cbn; auto|cbn; auto].
  - cbn [tk_writer]. destruct (spent_begin (tk_writer t) d S) as [-> | ->]; cbn; auto.
  - unfold write_payload. cbn [tk_writer]. destruct (spent_begin (tk_writer t) (cmd_payload c) S) as [-> | ->]; cbn; auto.
Qed.

Lemma spent_tick (t : @task G) : spent (pw_cipher (tk_writer t)) ->
  let s := split_tick t in
  sp_place s = AtSelect /\ tk_writer (sp_task s) = tk_writer t /\ answers (sp_task s) = answers t /\
  (forall d sh recs, shaper_decoy (tk_shaper t) = (Some d, sh, recs) -> running (sp_task s) = false).
Proof.
  intros S. unfold split_tick. destruct (shaper_decoy _) as [[[d|] sh] rc].
  - cbn [tk_writer]. destruct (spent_begin (tk_writer t) d S) as [-> | ->]; cbn; auto.
  - cbn. rewrite app_nil_r. repeat split; auto. discriminate.
Qed.

Lemma spent_step (s : @split_task G) e : spent (pw_cipher (tk_writer (sp_task s))) -> sp_place s = AtSelect ->
  let s' := split_step s e in
  sp_place s' = AtSelect /\ tk_writer (sp_task s') = tk_writer (sp_task s) /\ answers (sp_task s') = answers (sp_task s).
Proof.
  destruct s as [t pl]. cbn [sp_task sp_place]. intros S ->. destruct e as [[c| |tf el|]|]; cbn [split_step sp_task sp_place task_step].
  - destruct (senders t && running t); auto.
  - auto.
  - unfold split_poll. cbn [sp_task sp_place]. destruct (running t) eqn:Rn; [|auto]. destruct (select _ _ _) as [[|i]| |d]; auto.
    + destruct (queue t) as [|c q]; [auto|]. destruct (spent_handle t c q S) as (_ & ? & ? & ?). auto.
    + destruct (spent_tick t S) as (? & ? & ? & _). auto.
  - destruct (running t); auto.
  - auto.
Qed.

Lemma spent_run : forall es (s : @split_task G), spent (pw_cipher (tk_writer (sp_task s))) -> sp_place s = AtSelect ->
  let s' := split_run s es in
  sp_place s' = AtSelect /\ tk_writer (sp_task s') = tk_writer (sp_task s) /\ answers (sp_task s') = answers (sp_task s).
Proof.
  induction es as [|e es IH]; intros s S P; [auto|]. unfold split_run in *. cbn [fold_left]. cbn zeta in *.
  destruct (spent_step s e S P) as (Q1 & Q2 & Q3). cbn zeta in *. rewrite <- Q2 in S. destruct (IH _ S Q1) as (I1 & I2 & I3). repeat split; congruence.
Qed.
End Spent.

(** ** C117 *)

(** In a build with overflow checks a direction of a session has 2^32 - 1 packets, whatever is in them, and then is spent. *)
Theorem C117_how_many : forall (E : Env) (EL : EnvLaws E) m r ms,
  overflow_checks = true ->
  (len ms < 2 ^ 32 -> exists ps c', send_all (outbound (session_new m r)) ms = Ret (ps, c') /\ (len ms = 2 ^ 32 - 1 -> spent c')) /\
  (2 ^ 32 <= len ms -> send_all (outbound (session_new m r)) ms = Panic).
Proof.
  intros E EL m r ms Ho. split.
  - intros L. destruct (send_all_ret ms 0 (outbound (session_new m r))) as (ps & c' & S & _); [apply session_counted|lia|].
    exists ps, c'. split; [exact S|]. intros Q. destruct (C04_length_counter_debug E EL m r ms Ho Q) as (ps2 & c2 & S2 & A & B).
    rewrite S in S2. injection S2 as <- <-. intros ct t aad. split; [apply A|]. intros buf Lb. now apply B.
  - intros L. set (a := take (2 ^ 32 - 1) ms). set (b := drop (2 ^ 32 - 1) ms).
    assert (Q : ms = a ++ b) by (symmetry; apply take_drop).
    assert (La : len a = 2 ^ 32 - 1) by (unfold a; rewrite len_take; lia).
    assert (Lb : 1 <= len b) by (rewrite Q, len_app in L; lia).
    destruct (C04_length_counter_debug E EL m r a Ho La) as (ps & c' & S & A & _). rewrite Q. clearbody a b. clear Q L La.
    revert S. generalize (outbound (session_new m r)) as c. revert ps. induction a as [|x a IH]; intros ps c S; cbn [app send_all] in *.
    + injection S as <- <-. destruct b as [|y b]; [cbn in Lb; lia|]. cbn [send_all]. now rewrite A.
    + apply bind_ret_inv in S. destruct S as ([p1 c1] & Q & S). rewrite Q. cbn [bind].
      apply bind_ret_inv in S. destruct S as ([ps2 c2] & Q2 & S). injection S as <- <-. now rewrite (IH _ _ Q2).
Qed.
Print Assumptions C117_how_many.

(** Plain writers: every call panics, with nothing given to the transport. *)
Theorem C117_plain : forall (E : Env) p pl, spent (pw_cipher p) -> sound_payload pl ->
  sync_write p pl = Panic /\ tokio_write p pl = Panic /\ start_write p pl = Panic.
Proof.
  intros E p pl S [x Q]. unfold payload_view in Q. apply bind_ret_inv in Q. destruct Q as (t & Qt & Q).
  apply bind_ret_inv in Q. destruct Q as (ct & Qc & _).
  unfold sync_write, tokio_write, start_write. rewrite Qt, Qc. cbn [bind]. cbn zeta. destruct (S ct t None) as [-> Qb].
  rewrite Qb by (rewrite len_zeros; apply N.le_refl). auto.
Qed.
Print Assumptions C117_plain.

(** The blocking shaped writer.  Nothing more is given to the transport and no call returns.  A call of [write] that gets the mutex, or
    finds it poisoned, panics in at most three moves, whether its block starts with padding or not; a decoy that is due poisons the mutex. *)
Theorem C117_blocking : forall (E : Env) (G : Type) (R : Rng G) (s : @shared G), spent (pw_cipher (st_writer s)) ->
  (forall ms s', play s ms = Some s' -> st_writer s' = st_writer s /\ returned s' = returned s) /\
  (forall pl, app_at s = AppOut -> lock s = Free ->
    exists n s', (n <= 3)%nat /\ play s (CallWrite pl :: repeat App n) = Some s' /\ app_at s' = AppPanicked /\ poisoned s' = true /\ lock s' = Free) /\
  (forall d, thread_at s = ThWrite d ->
    exists s', play s [Thread] = Some s' /\ thread_at s' = ThPanicked /\ poisoned s' = true /\ lock s' = Free /\ app_at s' = app_at s).
Proof.
  intros E G R s S. split; [intros ms s'; now apply spent_play|]. split.
  - intros pl A L. destruct s as [w sh lk po sd a t rc rt]. cbn [st_writer app_at lock] in *. subst a lk.
    destruct po.
    + exists 1%nat. eexists. split; [lia|]. cbn. auto.
    + destruct (shaper_pad sh pl) as [[[[d|] sh'] rc']| |] eqn:P.
      * exists 3%nat. cbn [repeat play do_move app_at set_app app_step lock poisoned set_lock st_shaper]. unfold set_lock, set_app. cbn [app_at st_shaper lock poisoned app_step].
        cbn. rewrite P. cbn. destruct (spent_sync w d S) as [-> | ->]; eexists; (split; [lia|]); cbn; auto.
      * exists 3%nat. cbn. rewrite P. cbn. destruct (spent_sync w pl S) as [-> | ->]; eexists; (split; [lia|]); cbn; auto.
      * exists 2%nat. cbn. rewrite P. eexists. split; [lia|]. cbn. auto.
      * exists 2%nat. cbn. rewrite P. eexists. split; [lia|]. cbn. auto.
  - intros d T. cbn [play do_move]. unfold thread_step. rewrite T. destruct (spent_sync (st_writer s) d S) as [-> | ->]; eexists; cbn; auto.
Qed.
Print Assumptions C117_blocking.

(** The writer task at its [select!].  Nothing more is given to the transport and no caller is answered; the next command or decoy ends the
    task, and then every caller it has not answered gets [UnexpectedEof]. *)
Theorem C117_task : forall (E : Env) (G : Type) (R : Rng G) (s : @split_task G),
  spent (pw_cipher (tk_writer (sp_task s))) -> sp_place s = AtSelect ->
  (forall es, let t := sp_task (split_run s es) in
    tk_writer t = tk_writer (sp_task s) /\ answers t = answers (sp_task s) /\
    (running t = false -> forall id, ~ In id (map fst (answers t)) -> answer_to t id = Some (Err (Io UnexpectedEof Abort)))) /\
  (sel (sp_task s) = [false; false] -> forall tick_first elapsed,
    (queue (sp_task s) <> [] /\ (tick_first = false \/ elapsed = false)) \/
    (elapsed = true /\ exists d sh recs, shaper_decoy (tk_shaper (sp_task s)) = (Some d, sh, recs)) ->
    running (sp_task (split_step s (Ev (Poll tick_first elapsed)))) = false).
Proof.
  intros E G R s S P. split.
  - intros es. cbn zeta. destruct (spent_run es s S P) as (_ & W & A). cbn zeta in *. repeat split; auto.
    intros Rn id Ni. unfold answer_to. rewrite Rn. generalize dependent (answers (sp_task (split_run s es))). intros l _ Ni.
    replace (find (fun a => fst a =? id) l) with (@None (N * result perror unit)); [reflexivity|].
    symmetry. revert Ni. clear. induction l as [|[i x] l IH]; intros Ni; [reflexivity|]. cbn [find fst].
    destruct (N.eqb_spec i id) as [->|_]; [exfalso; apply Ni; now left|]. apply IH. intros X. apply Ni. now right.
  - intros Sel tf el H. destruct s as [t pl]. cbn [sp_task sp_place] in *. subst pl. cbn [split_step]. unfold split_poll. cbn [sp_task sp_place].
    destruct (running t) eqn:Rn; [|exact Rn]. rewrite Sel.
    destruct (spent_tick t S) as (_ & _ & _ & Tk).
    assert (Hd : forall c q, running (sp_task (split_handle t c q)) = false) by (intros c q; apply (spent_handle t c q S)).
    unfold poll_recv. destruct H as [[Q H]|[-> (d & sh & recs & D)]].
    + destruct (queue t) as [|c q]; [easy|]. destruct tf, el; cbn; auto. destruct H; discriminate.
    + specialize (Tk _ _ _ D). destruct (queue t) as [|c q]; destruct tf; cbn; auto. all: destruct (senders t); cbn; auto.
Qed.
Print Assumptions C117_task.

Lemma list_of_length (n : N) (x : msg) : exists ms : list msg, len ms = n.
Proof. exists (repeat x (N.to_nat n)). unfold len. rewrite repeat_length. apply N2Nat.id. Qed.

(** "A call of [write] returns": not after 2^32 - 1 packets in a build with overflow checks. *)
Theorem C117_write_returns_refuted :
  ~ forall (E : Env) (EL : EnvLaws E) m r ms ps c w pl, send_all (outbound (session_new m r)) ms = Ret (ps, c) -> sound_payload pl ->
      exists x, sync_write (PWriter c w) pl = Ret x.
Proof.
  intros H. destruct (list_of_length (2 ^ 32 - 1) (Msg Genuine None [])) as [ms L].
  destruct (C117_how_many (toy true) (toy_laws true) sample_km Initiator ms eq_refl) as [(ps & c & S & Sp) _]; [rewrite L; reflexivity|].
  assert (Sd : sound_payload (genuine [x01])) by (eexists; reflexivity).
  destruct (H (toy true) (toy_laws true) sample_km Initiator ms ps c fresh (genuine [x01]) S Sd) as [x X].
  destruct (@C117_plain (toy true) (PWriter c fresh) (genuine [x01]) (Sp L) Sd) as [Y _]. congruence.
Qed.
Print Assumptions C117_write_returns_refuted.

(** A direction with one packet left.  The application's packet is sent; then a decoy is due, the thread poisons the mutex and the next call panics
    with the transport as it was.  Likewise the writer task: the first caller is answered, the decoy ends it, the second caller gets [UnexpectedEof]. *)
Example C117_example :
  let c := Cipher (FsChaCha (counting 1 32) 0 (2 ^ 32 - 2)) (FsPoly (counting 2 32) (2 ^ 32 - 2)) in
  let p := PWriter c fresh in
  match @play (toy true) _ draws (shared_new p (Shaper (Config Disabled Random) [99; 4]) [])
          [CallWrite (genuine [x01]); App; App; App; Thread; Thread; Thread; Thread; Thread; CallWrite (genuine [x02]); App] with
  | Some s => thread_at s = ThPanicked /\ app_at s = AppPanicked /\ poisoned s = true /\ returned s = [(genuine [x01], Ok tt)] /\
              len (written (pw_writer (st_writer s))) = 21
  | None => False
  end /\
  let t := sp_task (@split_run (toy true) _ draws (split_new p (Shaper (Config Disabled Random) [99; 4]) [])
             (map Ev [Send (Command 1 (genuine [x01])); Poll false false; Send (Command 2 (genuine [x02])); Poll true true])) in
  running t = false /\ answer_to t 1 = Some (Ok tt) /\ answer_to t 2 = Some (Err (Io UnexpectedEof Abort)) /\ len (written (pw_writer (tk_writer t))) = 21.
Proof. vm_compute. repeat split. Qed.
Print Assumptions C117_example.
