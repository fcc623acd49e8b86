(** * Properties C60 and C62: the blocking shaped writer makes progress; shaped reads *)
From Coq Require Import List NArith Bool Lia.
From Coq.Strings Require Import Byte.
From Verif Require Import Base BaseFacts Env FsChacha Cipher Histories CipherProofs Transport Io Futures
  FuturesProofs Sessions SessionProofs ReaderProofs Toy PropsHandshake PropsIo
  Traffic TrafficIo TrafficFutures SpecTraffic TrafficProofs TrafficIoProofs TrafficLiveProofs PropsTraffic.
Import ListNotations.
Local Open Scope N_scope.

(** ** C60 *)
(** While a call of [write] or [drop] is in progress, one of the two threads can move. *)
Theorem C60_never_stuck : forall (E : Env) (G : Type) (R : Rng G) p sh recs ms s,
  play (shared_new p sh recs) ms = Some s ->
  in_flight (app_at s) <> [] \/ app_at s = AppJoin ->
  do_move s App <> None \/ do_move s Thread <> None.
Proof.
  intros E G R p sh recs ms s H A. destruct (never_stuck _ _ _ _ _ H A) as [Q|[Q _]]; auto.
Qed.
Print Assumptions C60_never_stuck.

(** From every reachable state a call returns: after at most two moves of the decoy thread and four of its own. *)
Theorem C60_write_returns : forall (E : Env) (EL : EnvLaws E) (G : Type) (R : Rng G) (RL : RngLaws G R)
    p sh recs k ms s pl,
  counted k (pw_cipher p) -> (overflow_checks = true -> k + len ms + 6 < 2 ^ 32) ->
  Forall sound_payload (calls ms) ->
  play (shared_new p sh recs) ms = Some s -> in_flight (app_at s) = [pl] ->
  exists n m s' x, (n <= 2)%nat /\ (m <= 4)%nat /\ play s (repeat Thread n ++ repeat App m) = Some s' /\
    app_at s' = AppOut /\ returned s' = returned s ++ [(pl, x)].
Proof.
  intros E EL G R RL p sh recs k ms s pl C Hr F H A.
  destruct (write_returns _ _ _ _ _ _ H A) as (n & m & s' & Ln & Lm & P & D).
  destruct D as [D|[D (x & Q)]].
  - exfalso. assert (play (shared_new p sh recs) (ms ++ repeat Thread n ++ repeat App m) = Some s') as P'.
    { rewrite play_app, H. exact P. }
    assert (calls (ms ++ repeat Thread n ++ repeat App m) = calls ms) as Cs.
    { rewrite !calls_app. replace (calls (repeat Thread n)) with (@nil payload) by (clear; induction n; auto).
      replace (calls (repeat App m)) with (@nil payload) by (clear; induction m; auto). now rewrite app_nil_r. }
    destruct (schedule_no_panic p sh recs k (ms ++ repeat Thread n ++ repeat App m) s' C) as (_ & B & _).
    + intros Ho. specialize (Hr Ho). rewrite !len_app.
      assert (len (repeat Thread n) <= 2) by (unfold len; rewrite repeat_length; lia).
      assert (len (repeat App m) <= 4) by (unfold len; rewrite repeat_length; lia). lia.
    + now rewrite Cs.
    + exact P'.
    + contradiction.
  - exists n, m, s', x. auto.
Qed.
Print Assumptions C60_write_returns.

(** Whatever the schedule, a call needs no more than four moves of its own thread. *)
Theorem C60_own_moves : forall (E : Env) (G : Type) (R : Rng G) (ms : list move) (s s' : shared) pl,
  in_flight (app_at s) = [pl] -> calls ms = [] -> ~ In CallDrop ms -> play s ms = Some s' ->
  (length (filter (fun m => match m with App => true | _ => false end) ms) <= 4)%nat.
Proof.
  intros E G R ms s s' pl A C D H. pose proof (few_own_moves _ _ _ _ A C D H) as Q.
  assert (app_left (app_at s) <= 4)%nat by (destruct (app_at s); cbn; lia). lia.
Qed.
Print Assumptions C60_own_moves.

(** A panic under the mutex poisons it: from then on neither thread writes, and no call of [write] returns. *)
Theorem C60_after_panic : forall (E : Env) (G : Type) (R : Rng G) p sh recs ms s ms' s',
  play (shared_new p sh recs) ms = Some s -> poisoned s = true -> play s ms' = Some s' ->
  st_writer s' = st_writer s /\ records s' = records s /\ returned s' = returned s.
Proof. exact @after_panic. Qed.
Print Assumptions C60_after_panic.

(** How long a call waits is up to the scheduler: the code does not bound how often the decoy thread takes the
    mutex first. *)
Theorem C60_bounded_wait_refuted :
  ~ exists bound, forall (E : Env) (G : Type) (R : Rng G) p (sh : shaper G) pl ms s,
      play (shared_new p sh []) (CallWrite pl :: ms) = Some s ->
      Forall (fun m => m = Thread) ms -> (length ms <= bound)%nat.
Proof.
  intros (b & H).
  pose (sh := Shaper (Config Disabled Disabled) tt).
  pose proof (@starved (toy true) unit high (S b) toy_writer sh [] [] (genuine [x01]) eq_refl) as St. cbn zeta in St.
  specialize (H (toy true) unit high toy_writer sh (genuine [x01]) (repeat Thread (4 * S b)) _ St).
  rewrite repeat_length in H. specialize (H ltac:(clear; induction (4 * S b)%nat; constructor; auto)). lia.
Qed.
Print Assumptions C60_bounded_wait_refuted.

(** The call finds the mutex taken by the decoy thread; a panic (an empty decrypted payload) ends everything. *)
Example C60_example :
  match @play (toy true) _ draws (shared_new toy_writer (Shaper all_random [99; 3; 7]) [])
          [Thread; Thread; Thread; CallWrite (genuine [x01])] with
  | Some s =>
      lock s = ByDecoy /\ @play (toy true) _ draws s [App] = None /\
      match @play (toy true) _ draws s [Thread; Thread; App; App; App; App] with
      | Some s' =>
          returned s' = [(genuine [x01], Ok tt)] /\
          match @play (toy true) _ draws s' [CallWrite (Decrypted []); App; App; Thread; Thread; Thread; CallDrop; Thread; App] with
          | Some s'' => poisoned s'' = true /\ app_at s'' = AppDropped /\ thread_at s'' = ThDone /\ st_writer s'' = st_writer s'
          | None => False
          end
      | None => False
      end
  | None => False
  end.
Proof. vm_compute. repeat split. Qed.

(** ** C62 *)
Section Reads.
Context {E : Env} {EL : EnvLaws E}.

Lemma contents_size p : (exists hd l, p = Decrypted (hd :: l)) -> payload_contents p = Ret (snd (seen p)).
Proof.
  intros (hd & l & ->). unfold payload_contents. rewrite slice_ok by (rewrite len_cons; lia).
  rewrite len_cons. change (drop 1 (hd :: l)) with l. now rewrite take_all by lia.
Qed.

Lemma shaped_schedule_is : forall acts f r c wire xs r' f',
  stands r c wire -> future_fits f r -> run_schedule acts f r = Ret (xs, r', f') ->
  shaped_schedule acts f r = Ret (xs, r', f', map size_of (payloads_of xs)).
Proof.
  induction acts as [|[|] acts IH]; intros f r c wire xs r' f' S F H; cbn [run_schedule shaped_schedule] in *.
  - injection H as <- <- <-. reflexivity.
  - apply bind_ret_inv in H. destruct H as ([[x r1] f1] & P & H).
    apply bind_ret_inv in H. destruct H as ([[ys r2] f2] & Q & H).
    destruct (schedule_sound [DoPoll] f r c wire (match x with Ready a => [a] | NotReady => [] end) r1 f1) as
      (c' & rest & _ & S1 & F1 & Pl); try assumption.
    { cbn [run_schedule]. rewrite P. cbn [bind]. reflexivity. }
    unfold poll_shaped_read. rewrite P. cbn [bind].
    pose proof (IH _ _ _ _ _ _ _ S1 F1 Q) as Q'.
    destruct x as [[p|e]|]; cbn [bind].
    + cbn [payloads_of flat_map app] in Pl. inversion Pl as [|? ? B _]; subst. rewrite (contents_size p B).
      cbn [bind]. rewrite Q'. injection H as <- <- <-. reflexivity.
    + rewrite Q'. injection H as <- <- <-. reflexivity.
    + rewrite Q'. injection H as <- <- <-. reflexivity.
  - eapply IH; [eassumption| |eassumption]. exact I.
Qed.

Lemma shaped_reads_is : forall n r xs r',
  read_many n (RSync r) = Ret (xs, r') ->
  exists r1, r' = RSync r1 /\ shaped_reads n r = Ret (xs, r1, map size_of (payloads_of xs)).
Proof.
  induction n as [|n IH]; intros r xs r' H; cbn [read_many shaped_reads] in *.
  - injection H as <- <-. eauto.
  - apply bind_ret_inv in H. destruct H as ([x r1] & P & H). apply bind_ret_inv in H. destruct H as ([ys r2] & Q & H).
    injection H as <- <-. cbn [read_any] in P. apply bind_ret_inv in P. destruct P as ([[y r3] a] & P & P2).
    injection P2 as <- <-. destruct (IH _ _ _ Q) as (r4 & -> & Q'). exists r4. split; [reflexivity|].
    unfold shaped_read. rewrite P. cbn [bind]. destruct y as [p|e].
    + destruct (C39_read_payloads E EL) as [B _]. rewrite (contents_size p (B _ _ _ _ P)). cbn [bind].
      rewrite Q'. reflexivity.
    + cbn [bind]. rewrite Q'. reflexivity.
Qed.

End Reads.

(** A shaped read returns what the plain read would, however it is polled and dropped, and records exactly the sizes
    of the payloads it returned. *)
Theorem C62_async : forall (E : Env) (EL : EnvLaws E) acts c sr xs r f,
  run_schedule acts FreshFuture (TReader c sr init_reading_length) = Ret (xs, r, f) ->
  shaped_schedule acts FreshFuture (TReader c sr init_reading_length) =
    Ret (xs, r, f, map size_of (payloads_of xs)).
Proof.
  intros E EL acts c sr xs r f H. eapply shaped_schedule_is; [apply fresh_stands|exact I|exact H].
Qed.
Print Assumptions C62_async.

Theorem C62_blocking : forall (E : Env) (EL : EnvLaws E) n r xs r',
  read_many n (RSync r) = Ret (xs, r') ->
  exists r1, r' = RSync r1 /\ shaped_reads n r = Ret (xs, r1, map size_of (payloads_of xs)).
Proof. exact @shaped_reads_is. Qed.
Print Assumptions C62_blocking.

(** Every packet of the stream is delivered once and counted once, with enough polls and whatever was dropped. *)
Theorem C62_counted_once : forall (E : Env) (EL : EnvLaws E) acts c sr n ps c' rest k,
  recv_all c (repeat None n) (session_content sr) = Ret (Some ps, c', rest) ->
  counted k c -> (overflow_checks = true -> k + N.of_nat (polls acts) + 1 < 2 ^ 32) ->
  (session_events sr + n <= polls acts)%nat ->
  exists xs r f recs more,
    shaped_schedule acts FreshFuture (TReader c sr init_reading_length) = Ret (xs, r, f, recs) /\
    map seen (payloads_of xs) = ps ++ more /\
    recs = map (fun p => len (snd p)) (ps ++ more).
Proof.
  intros E EL acts c sr n ps c' rest k R C Hr P.
  destruct (C35_total E EL acts c sr k C Hr) as (xs & r & f & H).
  destruct (C35_all_arrive E EL acts c sr n ps c' rest xs r f R H P) as (more & Q).
  exists xs, r, f, (map size_of (payloads_of xs)), more.
  split; [now apply C62_async|]. split; [assumption|]. rewrite <- Q, map_map. reflexivity.
Qed.
Print Assumptions C62_counted_once.

Example C62_example :
  let s := [Chunk (take 2 two_packets); Pending; Chunk (take 10 (drop 2 two_packets)); Pending; Fail ConnectionReset;
            Chunk (drop 12 two_packets)] in
  match @shaped_schedule (toy true) [DoPoll; DoCancel; DoPoll; DoCancel; DoPoll; DoCancel; DoPoll; DoPoll; DoPoll]
          FreshFuture (TReader toy_in (TokioReader [] 0 s) init_reading_length) with
  | Ret (xs, r, f, recs) =>
      xs = [Err (Io ConnectionReset RetryV1); Ok (Decrypted [x00; x01; x02; x03]); Ok (Decrypted [x80]);
            Err (Io ConnectionAborted RetryV1)] /\ recs = [3; 0]
  | _ => False
  end.
Proof. vm_compute. repeat split. Qed.
