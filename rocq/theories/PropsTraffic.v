(** * Properties C41-C49 and C54: traffic shaping (traffic/src) *)
From Coq Require Import List NArith ZArith Bool Lia.
From Coq.Strings Require Import Byte.
From Verif Require Import Base BaseFacts Env FsChacha Spec Cipher Histories CipherProofs Handshake
  SpecHandshake HsDriver HandshakeProofs HsRunProofs Transport Io SpecIo Futures Sessions SessionProofs EndpointProofs
  Toy PropsHandshake PropsIo
  Traffic TrafficIo TrafficFutures SpecTraffic StatsProofs TrafficProofs TrafficIoProofs TrafficFuturesProofs
  TrafficSessionProofs TrafficFailProofs.
Import ListNotations.
Local Open Scope N_scope.

(** ** Samples *)

(** A random source that plays back a list of draws. *)
Definition draw (lo hi : N) (g : list N) : N * list N :=
  match g with
  | [] => (lo, [])
  | d :: g => (lo + d mod (hi - lo + 1), g)
  end.
#[export] Instance draws : Rng (list N) := {|
  gen_range := draw;
  fill_bytes := fun n g => (repeat x5a (N.to_nat n), g)
|}.
#[export] Instance draws_laws : RngLaws (list N) draws.
Proof.
  constructor.
  - intros lo hi [|d g] H; cbn; [lia|]. assert (d mod (hi - lo + 1) < hi - lo + 1) by (apply N.mod_lt; lia). lia.
  - intros n g. cbn. unfold len. rewrite repeat_length. lia.
Qed.

(** A source that is always high. *)
#[export] Instance high : Rng unit := {|
  gen_range := fun _ hi g => (hi, g);
  fill_bytes := fun n g => (zeros n, g)
|}.
#[export] Instance high_laws : RngLaws unit high.
Proof. constructor; [intros lo hi [] H; cbn; lia|intros n []; cbn; apply len_zeros]. Qed.

Definition all_random : config := Config Random Random.
Definition toy_writer : pwriter := PWriter toy_in fresh.

(** ** C41 *)
Theorem C41_handshake : forall (G : Type) (R : Rng G) (RL : RngLaws G R) sh garbage decoys sh' recs,
  shaper_handshake sh = (garbage, decoys, sh', recs) ->
  len (garbage_bytes garbage) <= 4095 /\
  len (decoy_list decoys) <= 3 /\ Forall (fun d => 1 <= len d <= 1024) (decoy_list decoys).
Proof.
  intros G R RL sh g d sh' recs H. apply shaper_handshake_spec in H. destruct H as (_ & H1 & H2 & _). split.
  - destruct (padding_strategy _); [subst g; cbn; lia|]. destruct H1 as (x & -> & L). exact L.
  - destruct (decoy_strategy _); [subst d; cbn; split; [lia|constructor]|]. destruct H2 as (l & -> & L & F). auto.
Qed.
Print Assumptions C41_handshake.

(** The garbage is accepted by the handshake. *)
Theorem C41_garbage_accepted : forall (E : Env) (EL : EnvLaws E) (G : Type) (R : Rng G) (RL : RngLaws G R)
    sh garbage decoys sh' recs magic r sk,
  shaper_handshake sh = (garbage, decoys, sh', recs) -> sk_valid sk = true ->
  (debug_assertions = true -> sk <> zeros 32) ->
  exists h out, party_start magic r sk garbage = Ret (Ok (h, out)).
Proof.
  intros E EL G R RL sh g d sh' recs magic r sk H V Z.
  apply C41_handshake in H; [|assumption]. destruct H as [L _].
  rewrite (HsRunProofs.start_ok magic r sk g V Z L). eauto.
Qed.
Print Assumptions C41_garbage_accepted.

Theorem C41_decoys : forall (G : Type) (R : Rng G) (RL : RngLaws G R) sh d sh' recs,
  shaper_decoy sh = (Some d, sh', recs) -> shaper_decoy_payload d.
Proof. intros G R RL sh d sh' recs H. apply shaper_decoy_spec in H. tauto. Qed.
Print Assumptions C41_decoys.

Theorem C41_padding : forall (G : Type) (R : Rng G) (RL : RngLaws G R) sh pl d sh' recs,
  shaper_pad sh pl = Ret (Some d, sh', recs) -> shaper_decoy_payload d.
Proof. intros G R RL sh pl d sh' recs H. apply shaper_pad_spec in H. tauto. Qed.
Print Assumptions C41_padding.

Example C41_example :
  shaper_handshake (Shaper all_random [4; 2; 0; 1026; 99]) =
    (Some (repeat x5a 4), Some [[x5a]; repeat x5a 3], Shaper all_random [99], [4; 1; 3]) /\
  shaper_decoy (Shaper all_random [85; 1023]) = (Some (decoy (zeros 1024)), Shaper all_random [], [1024]) /\
  shaper_decoy (Shaper all_random [84; 7]) = (None, Shaper all_random [7], []) /\
  shaper_pad (Shaper all_random [6]) (genuine [x01; x02]) = Ret (Some (decoy (zeros 7)), Shaper all_random [], [2; 7]).
Proof. vm_compute. repeat split. Qed.

(** ** C42 *)
Theorem C42_shaper : forall (G : Type) (R : Rng G) g pl,
  let sh := Shaper config_new g in
  shaper_handshake sh = (None, None, sh, []) /\ shaper_decoy sh = (None, sh, []) /\
  (sound_payload pl -> shaper_pad sh pl = Ret (None, sh, [size_of pl])).
Proof.
  intros G R g pl sh. split; [reflexivity|]. split; [reflexivity|]. intros [[t ct] V].
  pose proof (view_seen _ _ V) as Vs. unfold payload_view in V. apply bind_ret_inv in V. destruct V as (t' & _ & V).
  apply bind_ret_inv in V. destruct V as (ct' & C & V). injection V as -> ->.
  unfold shaper_pad, size_of. rewrite C, Vs. reflexivity.
Qed.
Print Assumptions C42_shaper.

(** The shaped handshake is the plain one without garbage and decoys. *)
Theorem C42_connect : forall (E : Env) (G : Type) (R : Rng G) fl magic r rnd g s w,
  shaped_connect fl magic r rnd config_new g s w =
  let! x := connect fl magic r rnd None None s w in
  Ret match x with
      | Err e => Err e
      | Ok (rd, p) =>
        Ok (rd, match fl with
                | Sync => Blocking (shared_new p (Shaper config_new g) [])
                | Tokio => Tasked (task_new p (Shaper config_new g) [])
                end)
      end.
Proof.
  intros E G R fl magic r rnd g s w. destruct fl; cbn [shaped_connect connect].
  - unfold shaped_new. cbn [shaper_handshake config_new sh_config sh_rng padding_strategy decoy_strategy].
    destruct (protocol_new magic r rnd None None s w) as [[p|e]| |]; reflexivity.
  - unfold tokio_shaped_new. cbn [shaper_handshake config_new sh_config sh_rng padding_strategy decoy_strategy].
    destruct (tokio_protocol_new magic r rnd None None s w) as [[p|e]| |]; reflexivity.
Qed.
Print Assumptions C42_connect.

(** Shaped writes are plain writes, whatever the decoy thread does. *)
Theorem C42_blocking : forall (E : Env) (G : Type) (R : Rng G) (RL : RngLaws G R) p sh recs ms s,
  sh_config sh = config_new ->
  play (shared_new p sh recs) ms = Some s -> poisoned s = false ->
  st_shaper s = sh /\
  (lock s = Free ->
   write_many Sync p (map fst (returned s)) = Ret (map snd (returned s), st_writer s) /\
   records s = recs ++ map size_of (map fst (returned s))).
Proof. exact @schedule_disabled. Qed.
Print Assumptions C42_blocking.

Theorem C42_task : forall (E : Env) (EL : EnvLaws E) (G : Type) (R : Rng G) (RL : RngLaws G R) p sh recs k es,
  sh_config sh = config_new ->
  counted k (pw_cipher p) -> (overflow_checks = true -> k + 2 * len es < 2 ^ 32) ->
  Forall event_sound es ->
  let t := task_run (task_new p sh recs) es in
  tk_shaper t = sh /\
  exists handled rest xs, accepted es = handled ++ rest /\
    write_many Tokio p (map cmd_payload handled) = Ret (xs, tk_writer t) /\
    answers t = combine (map cmd_id handled) xs /\
    tk_records t = recs ++ map size_of (map cmd_payload handled).
Proof. exact @task_disabled. Qed.
Print Assumptions C42_task.

Definition round : list move := [Thread; Thread; Thread; Thread].

Example C42_example :
  match @play (toy true) _ draws (shared_new toy_writer (Shaper config_new [99; 1; 2; 3]) [])
          (round ++ [CallWrite (genuine [x01; x02])] ++ [Thread] ++ [App; App] ++ [Thread; Thread] ++ [App] ++ round),
        @write_many (toy true) Sync toy_writer [genuine [x01; x02]] with
  | Some s, Ret (xs, p) =>
      st_writer s = p /\ xs = [Ok tt] /\ returned s = [(genuine [x01; x02], Ok tt)] /\ sh_rng (st_shaper s) = [99; 1; 2; 3]
  | _, _ => False
  end.
Proof. vm_compute. repeat split. Qed.

(** ** C43 *)
Theorem C43_blocks : forall (E : Env) (G : Type) (R : Rng G) (RL : RngLaws G R) p sh recs ms s,
  play (shared_new p sh recs) ms = Some s -> poisoned s = false -> lock s = Free ->
  calls ms = map fst (returned s) ++ in_flight (app_at s) /\
  exists bs, Forall (block_ok (sh_config sh)) bs /\ (packets bs <= length ms)%nat /\
    serves Sync p bs (returned s) (st_writer s) /\ records s = recs ++ flat_map block_sizes bs.
Proof. exact @schedule_blocks. Qed.
Print Assumptions C43_blocks.

(** While a thread is inside, the stream ends at most with the padding of the payload being written. *)
Theorem C43_inside : forall (E : Env) (G : Type) (R : Rng G) (RL : RngLaws G R) p sh recs ms s,
  play (shared_new p sh recs) ms = Some s -> poisoned s = false ->
  exists bs pad p1, Forall (block_ok (sh_config sh)) bs /\
    serves Sync p bs (returned s) p1 /\
    match pad with
    | [] => st_writer s = p1
    | [d] => (exists pl, app_at s = AppWrite pl) /\ shaper_decoy_payload d /\ lock s = ByApp /\
             write_any Sync p1 d = Ret (Ok tt, st_writer s)
    | _ => False
    end.
Proof. exact @schedule_blocks_any. Qed.
Print Assumptions C43_inside.

(** On a transport that works, the blocks are complete packets in cipher order. *)
Theorem C43_wire : forall (E : Env) (EL : EnvLaws E) fl p bs rs p',
  serves fl p bs rs p' -> healthy (pw_writer p) ->
  Forall (fun r => snd r = Ok tt) rs /\
  exists pkts, send_all (pw_cipher p) (wire_of (flat_map block_payloads bs)) = Ret (pkts, pw_cipher p') /\
    written (pw_writer p') = written (pw_writer p) ++ concat pkts.
Proof. intros E EL fl p bs rs p' S H. now apply serves_wire in S. Qed.
Print Assumptions C43_wire.

Theorem C43_peer : forall (E : Env) (EL : EnvLaws E) (G : Type) (R : Rng G) (RL : RngLaws G R)
    p sh recs k ms s fl sc wire e,
  play (shared_new p sh recs) ms = Some s -> lock s = Free ->
  counted k (pw_cipher p) -> (overflow_checks = true -> k + len ms < 2 ^ 32) ->
  Forall sound_payload (calls ms) -> Forall (fun pl => readable fl (seen pl)) (calls ms) ->
  healthy (pw_writer p) -> written (pw_writer (st_writer s)) = written (pw_writer p) ++ wire ->
  flatten fl sc = (wire, e) ->
  Forall (fun r => snd r = Ok tt) (returned s) /\
  exists n qs r', read_many n (established fl (pw_cipher p) (session_reader fl [] sc)) = Ret (map Ok qs, r') /\
    genuine_only (map seen qs) = genuine_only (map seen (map fst (returned s))) /\
    reader_stream r' = ([], e).
Proof.
  intros E EL G R RL p sh recs k ms s fl sc wire e P L C Hr So Rd Hh W F.
  pose proof (established_start fl (pw_cipher p) sc wire e F) as At.
  destruct (schedule_no_panic _ _ _ _ _ _ C Hr So P) as (Po & _).
  destruct (schedule_blocks _ _ _ _ _ P Po L) as (Cs & bs & Fb & Pk & S & _).
  rewrite Cs in Rd. apply Forall_app in Rd. destruct Rd as [Rd _].
  destruct (reader_gets _ _ _ _ _ _ _ _ _ k S Fb Hh W At C) as (Fok & qs & r' & R1 & _ & R3 & R4).
  - intros Ho. specialize (Hr Ho). unfold len in Hr. lia.
  - rewrite established_flavor. apply (proj1 (Forall_map fst (fun pl => readable fl (seen pl)) (returned s))). exact Rd.
  - split; [assumption|]. exists (packets bs), qs, r'. auto.
Qed.
Print Assumptions C43_peer.

Theorem C43_no_panic : forall (E : Env) (EL : EnvLaws E) (G : Type) (R : Rng G) (RL : RngLaws G R) p sh recs k ms s,
  counted k (pw_cipher p) -> (overflow_checks = true -> k + len ms < 2 ^ 32) ->
  Forall sound_payload (calls ms) ->
  play (shared_new p sh recs) ms = Some s ->
  poisoned s = false /\ app_at s <> AppPanicked /\ thread_at s <> ThPanicked.
Proof. exact @schedule_no_panic. Qed.
Print Assumptions C43_no_panic.

(** Two writes and two rounds of the decoy thread, one of which finds the mutex taken. *)
Example C43_example :
  match @play (toy true) _ draws (shared_new toy_writer (Shaper all_random [1; 99; 2; 3]) [])
          [CallWrite (genuine [x01]); App; Thread; App; Thread; Thread; App; App;
           Thread; Thread; Thread; Thread; CallWrite (genuine [x02; x03]); Thread; App; App; App; App] with
  | Some s =>
      records s = [1; 2; 3; 2; 4] /\ lock s = Free /\
      returned s = [(genuine [x01], Ok tt); (genuine [x02; x03], Ok tt)] /\
      match @read_many (toy true) 5 (RTokio (TReader toy_in (TokioReader [] 0 (drip (written (pw_writer (st_writer s)))))
              init_reading_length)) with
      | Ret (xs, _) => xs = map Ok [Decrypted (x80 :: zeros 2); Decrypted [x00; x01]; Decrypted (x80 :: zeros 3);
                                    Decrypted (x80 :: zeros 4); Decrypted [x00; x02; x03]]
      | _ => False
      end
  | None => False
  end.
Proof. vm_compute. repeat split. Qed.

(** ** C44 *)
Theorem C44_stops : forall (E : Env) (G : Type) (R : Rng G) (RL : RngLaws G R) p sh recs ms s ms' s',
  play (shared_new p sh recs) ms = Some s -> app_at s = AppJoin -> play s ms' = Some s' ->
  (thread_moves ms' <= 5)%nat /\
  (st_writer s' = st_writer s \/
   exists d x, shaper_decoy_payload d /\ sync_write (st_writer s) d = Ret (x, st_writer s')).
Proof.
  intros E G R RL p sh recs ms s ms' s' P A P'. destruct (joining_shutdown _ _ _ _ _ P A) as [Sd Dn].
  destruct (drop_stops _ _ _ Sd Dn (or_introl A) P') as [L W]. split.
  - assert (left_moves (thread_at s) <= 5)%nat by (destruct (thread_at s); cbn; lia). lia.
  - destruct W as [W|(_ & _ & d & x & W)]; [now left|right; eauto].
Qed.
Print Assumptions C44_stops.

Theorem C44_terminates : forall (E : Env) (G : Type) (R : Rng G) (RL : RngLaws G R) p sh recs ms s,
  play (shared_new p sh recs) ms = Some s -> app_at s = AppJoin ->
  (forall s', thread_step s = None \/ app_step s = Some s' -> thread_ended (thread_at s)) /\
  exists n s', (n <= 5)%nat /\ play s (repeat Thread n ++ [App]) = Some s' /\ app_at s' = AppDropped.
Proof.
  intros E G R RL p sh recs ms s P A. destruct (joining_shutdown _ _ _ _ _ P A) as [Sd Dn]. split.
  - intros s' [Q|Q]; [now apply thread_never_stuck|]. unfold app_step in Q. rewrite A in Q. unfold thread_ended.
    destruct (thread_at s); try discriminate; auto.
  - apply join_returns; try assumption. destruct (thread_at s); cbn; lia.
Qed.
Print Assumptions C44_terminates.

Theorem C44_after : forall (E : Env) (G : Type) (R : Rng G) p sh recs ms s ms' s',
  play (shared_new p sh recs) ms = Some s -> app_at s = AppDropped -> play s ms' = Some s' ->
  thread_ended (thread_at s) /\ s' = s /\ ms' = [].
Proof. exact @after_drop. Qed.
Print Assumptions C44_after.

(** The flag is set while the thread sleeps: one more decoy. *)
Example C44_example :
  match @play (toy true) _ draws (shared_new toy_writer (Shaper all_random [99; 3]) []) [Thread; CallDrop] with
  | Some s =>
      app_at s = AppJoin /\ @play (toy true) _ draws s [Thread; Thread; Thread; Thread; App] = None /\
      match @play (toy true) _ draws s [Thread; Thread; Thread; Thread; Thread; App] with
      | Some s' => app_at s' = AppDropped /\ thread_at s' = ThDone /\ len (written (pw_writer (st_writer s'))) = 24
      | None => False
      end
  | None => False
  end.
Proof. vm_compute. repeat split. Qed.

(** ** C45 *)
Theorem C45_in_order : forall (E : Env) (EL : EnvLaws E) (G : Type) (R : Rng G) (RL : RngLaws G R) p sh recs k es,
  counted k (pw_cipher p) -> (overflow_checks = true -> k + 2 * len es < 2 ^ 32) ->
  Forall event_sound es ->
  let t := task_run (task_new p sh recs) es in
  exists handled rest rs bs,
    accepted es = handled ++ rest /\ (running t = true -> rest = queue t) /\
    Forall (block_ok (sh_config sh)) bs /\ serves Tokio p bs rs (tk_writer t) /\
    map fst rs = map cmd_payload handled /\
    answers t = combine (map cmd_id handled) (map snd rs) /\
    tk_records t = recs ++ flat_map block_sizes bs /\ (packets bs <= 2 * length es)%nat.
Proof. exact @task_serves. Qed.
Print Assumptions C45_in_order.

(** Every caller gets the result of its own command. *)
Theorem C45_own_result : forall (E : Env) (EL : EnvLaws E) (G : Type) (R : Rng G) (RL : RngLaws G R) p sh recs k es,
  counted k (pw_cipher p) -> (overflow_checks = true -> k + 2 * len es < 2 ^ 32) ->
  Forall event_sound es -> NoDup (map cmd_id (accepted es)) ->
  let t := task_run (task_new p sh recs) es in
  exists handled rest rs bs,
    accepted es = handled ++ rest /\ serves Tokio p bs rs (tk_writer t) /\
    map fst rs = map cmd_payload handled /\
    (forall i c r, nth_error handled i = Some c -> nth_error rs i = Some r ->
       answer_to t (cmd_id c) = Some (snd r)) /\
    (forall c, In c rest -> answer_to t (cmd_id c) = if running t then None else Some (Err (Io UnexpectedEof Abort))).
Proof. exact @task_answers. Qed.
Print Assumptions C45_own_result.

(** A poll that does not take the timer branch answers the next command. *)
Theorem C45_progress : forall (E : Env) (EL : EnvLaws E) (G : Type) (R : Rng G) (RL : RngLaws G R)
    p sh recs k es c q tick_first elapsed,
  counted k (pw_cipher p) -> (overflow_checks = true -> k + 2 * len es + 2 < 2 ^ 32) ->
  Forall event_sound es ->
  let t := task_run (task_new p sh recs) es in
  running t = true -> queue t = c :: q -> tick_first && elapsed = false ->
  exists x, queue (task_step t (Poll tick_first elapsed)) = q /\
    answers (task_step t (Poll tick_first elapsed)) = answers t ++ [(cmd_id c, x)].
Proof. exact @task_progress. Qed.
Print Assumptions C45_progress.

(** The second command's padding fails, so its payload is omitted and its caller gets that error. *)
Example C45_example :
  let t := @task_run (toy true) _ draws
    (task_new (PWriter toy_in (Writer [Accept 1000; Accept 1000; Accept 9; WFail WriteZero] [] []))
       (Shaper (Config Random Disabled) [2; 5; 1]) [])
    [Send (Command 7 (genuine [x01])); Poll true true; Send (Command 8 (genuine [x02]));
     Send (Command 9 (genuine [x03])); Poll false true; Poll false false; Poll false true; Kill] in
  answers t = [(7, Ok tt); (8, Err (Io WriteZero Abort)); (9, Ok tt)] /\
  answer_to t 8 = Some (Err (Io WriteZero Abort)) /\ answer_to t 3 = Some (Err (Io UnexpectedEof Abort)) /\
  tk_records t = [1; 3; 1; 6; 1; 2] /\ len (written (pw_writer (tk_writer t))) = 23 + 21 + 9 + 22 + 21.
Proof. vm_compute. repeat split. Qed.

(** ** C46 *)

(** The task runs on until the runtime kills it. *)
Theorem C46_never_exits : forall (E : Env) (EL : EnvLaws E) (G : Type) (R : Rng G) (RL : RngLaws G R) p sh recs k es,
  counted k (pw_cipher p) -> (overflow_checks = true -> k + 2 * len es < 2 ^ 32) ->
  Forall event_sound es -> alive es -> running (task_run (task_new p sh recs) es) = true.
Proof. exact @task_runs. Qed.
Print Assumptions C46_never_exits.

Theorem C46_else_never_taken : forall (E : Env) (EL : EnvLaws E) (G : Type) (R : Rng G) (RL : RngLaws G R)
    p sh recs k es tick_first elapsed,
  counted k (pw_cipher p) -> (overflow_checks = true -> k + 2 * len es < 2 ^ 32) -> Forall event_sound es ->
  let t := task_run (task_new p sh recs) es in
  select (order_of tick_first) (sel t) [poll_recv t; poll_tick elapsed] <> Else.
Proof.
  intros E EL G R RL p sh recs k es tf el C Hr F. apply else_never.
  now destruct (task_invariant p sh recs k es C Hr F) as (_ & _ & _ & Sl & _).
Qed.
Print Assumptions C46_else_never_taken.

(** Also without any sender left, every elapsed tick can bring another decoy. *)
Theorem C46_keeps_emitting : forall (E : Env) (EL : EnvLaws E) (G : Type) (R : Rng G) (RL : RngLaws G R) p sh recs k n,
  decoy_strategy (sh_config sh) = Random -> (forall g, 85 <= fst (gen_range 0 99 g)) ->
  healthy (pw_writer p) -> counted k (pw_cipher p) -> (overflow_checks = true -> k + N.of_nat n < 2 ^ 32) ->
  let t := task_run (task_new p sh recs) (DropSenders :: repeat (Poll false true) n) in
  running t = true /\
  exists ds pkts, length ds = n /\ Forall shaper_decoy_payload ds /\
    send_all (pw_cipher p) (wire_of ds) = Ret (pkts, pw_cipher (tk_writer t)) /\
    written (pw_writer (tk_writer t)) = written (pw_writer p) ++ concat pkts.
Proof.
  intros E EL G R RL p sh recs k n D Hg Hh C Hr.
  exact (task_emits n (task_step (task_new p sh recs) DropSenders) k eq_refl (or_introl eq_refl) eq_refl D Hg Hh C Hr).
Qed.
Print Assumptions C46_keeps_emitting.

(** futures.rs:247: "Exit if all write_tx senders dropped, don't send decoys forever." *)
Theorem C46_exits_without_senders_refuted :
  ~ forall (E : Env) (EL : EnvLaws E) (G : Type) (R : Rng G) (RL : RngLaws G R) p sh recs polls,
      exists n, running (task_run (task_new p sh recs) (DropSenders :: repeat (Poll (fst polls) (snd polls)) n)) = false.
Proof.
  intros H. destruct (H (toy false) (toy_laws false) (list N) draws draws_laws toy_writer (Shaper all_random []) [] (false, true)) as [n Q].
  erewrite C46_never_exits with (k := 0) in Q; [discriminate|..].
  - apply toy_laws.
  - apply draws_laws.
  - unfold counted. vm_compute. repeat split; discriminate.
  - discriminate.
  - constructor; [exact I|]. apply Forall_forall. intros e I. apply repeat_spec in I. now subst e.
  - intros [I|I]; [discriminate|]. apply repeat_spec in I. discriminate.
Qed.
Print Assumptions C46_exits_without_senders_refuted.

Example C46_example :
  let t := @task_run (toy true) _ high (task_new toy_writer (Shaper all_random tt) [])
    (DropSenders :: Poll true false :: repeat (Poll true true) 3) in
  running t = true /\ sel t = [false; false] /\ len (written (pw_writer (tk_writer t))) = 3 * 1044.
Proof. vm_compute. repeat split. Qed.

(** ** C47 *)

(** The transport takes [n] bytes of a cover decoy, then fails: the thread ignores it, and the next write
    of the application returns [Ok]; [n] bytes of the decoy are all the peer got of it. *)
Theorem C47_thread : forall (E : Env) (EL : EnvLaws E) (G : Type) (R : Rng G) (RL : RngLaws G R)
    (s : @shared G) d pl n k more pk1 c1 pk2 c2,
  thread_at s = ThWrite d -> app_at s = AppOut -> poisoned s = false ->
  padding_strategy (sh_config (st_shaper s)) = Disabled ->
  sound_payload d -> sound_payload pl ->
  encrypt_to_vec (pw_cipher (st_writer s)) (snd (seen d)) (fst (seen d)) None = Ret (pk1, c1) ->
  encrypt_to_vec c1 (snd (seen pl)) (fst (seen pl)) None = Ret (pk2, c2) ->
  w_script (pw_writer (st_writer s)) = fail_after n k more -> n < len pk1 -> k <> Interrupted ->
  healthy (Writer more (flushes (pw_writer (st_writer s))) []) ->
  exists s', play s [Thread; CallWrite pl; App; App; App] = Some s' /\
    returned s' = returned s ++ [(pl, Ok tt)] /\
    written (pw_writer (st_writer s')) = written (pw_writer (st_writer s)) ++ take n pk1 ++ pk2.
Proof. exact @thread_swallows. Qed.
Print Assumptions C47_thread.

Theorem C47_task : forall (E : Env) (EL : EnvLaws E) (G : Type) (R : Rng G) (RL : RngLaws G R)
    (t : @task G) d sh' rec' c n k more pk1 c1 pk2 c2,
  running t = true -> senders t = true -> queue t = [] -> sel t = [false; false] ->
  shaper_decoy (tk_shaper t) = (Some d, sh', rec') ->
  padding_strategy (sh_config (tk_shaper t)) = Disabled -> sound_payload (cmd_payload c) ->
  encrypt_to_vec (pw_cipher (tk_writer t)) (snd (seen d)) (fst (seen d)) None = Ret (pk1, c1) ->
  encrypt_to_vec c1 (snd (seen (cmd_payload c))) (fst (seen (cmd_payload c))) None = Ret (pk2, c2) ->
  w_script (pw_writer (tk_writer t)) = fail_after n k more -> n < len pk1 -> k <> Interrupted ->
  healthy (Writer more (flushes (pw_writer (tk_writer t))) []) ->
  let t' := task_run t [Poll false true; Send c; Poll false false] in
  running t' = true /\ answers t' = answers t ++ [(cmd_id c, Ok tt)] /\
  written (pw_writer (tk_writer t')) = written (pw_writer (tk_writer t)) ++ take n pk1 ++ pk2.
Proof. exact @task_swallows. Qed.
Print Assumptions C47_task.

Definition failing : pwriter := PWriter toy_in (Writer [Accept 5; WFail (OtherKind 32)] [] []).
Definition cover_only : config := Config Disabled Random.
Definition lost : payload := genuine [x03; x04; x05].

(** Although no call of [write] failed, a payload never arrives. *)
Theorem C47_ok_is_delivered_refuted :
  ~ forall (E : Env) (EL : EnvLaws E) (G : Type) (R : Rng G) (RL : RngLaws G R) p sh recs ms s pl,
      written (pw_writer p) = [] -> play (shared_new p sh recs) ms = Some s ->
      Forall (fun r => snd r = Ok tt) (returned s) -> In (pl, Ok tt) (returned s) ->
      exists n xs r q, read_many n (established Sync (pw_cipher p)
                         (session_reader Sync [] [Chunk (written (pw_writer (st_writer s)))])) = Ret (xs, r) /\
        In (Ok q) xs /\ payload_view q = payload_view pl.
Proof.
  intros H.
  destruct (@play (toy true) _ draws (shared_new failing (Shaper cover_only [99; 1]) [])
              (round ++ [Thread; CallWrite lost; App; App; App])) as [s|] eqn:P; [|vm_compute in P; discriminate].
  specialize (H _ (toy_laws true) _ draws draws_laws failing (Shaper cover_only [99; 1]) [] _ s lost eq_refl P).
  vm_compute in P. injection P as <-. destruct H as (n & xs & r & q & Rd & I & _).
  - repeat constructor.
  - now left.
  - eapply (never_reads (E := toy true)) with (m := 2%nat) in Rd.
    + rewrite Forall_forall in Rd. exact (Rd _ I).
    + vm_compute. reflexivity.
    + repeat constructor.
Qed.
Print Assumptions C47_ok_is_delivered_refuted.

Theorem C47_task_ok_is_delivered_refuted :
  ~ forall (E : Env) (EL : EnvLaws E) (G : Type) (R : Rng G) (RL : RngLaws G R) p sh recs es c,
      let t := task_run (task_new p sh recs) es in
      written (pw_writer p) = [] -> Forall (fun a => snd a = Ok tt) (answers t) ->
      accepted es = [c] -> answer_to t (cmd_id c) = Some (Ok tt) ->
      exists n xs r q, read_many n (established Sync (pw_cipher p)
                         (session_reader Sync [] [Chunk (written (pw_writer (tk_writer t)))])) = Ret (xs, r) /\
        In (Ok q) xs /\ payload_view q = payload_view (cmd_payload c).
Proof.
  intros H.
  specialize (H _ (toy_laws true) _ draws draws_laws failing (Shaper cover_only [99; 1]) []
                [Poll false true; Send (Command 0 lost); Poll false false] (Command 0 lost)).
  cbv zeta in H. destruct H as (n & xs & r & q & Rd & I & _).
  - reflexivity.
  - vm_compute. repeat constructor.
  - reflexivity.
  - vm_compute. reflexivity.
  - eapply (never_reads (E := toy true)) with (m := 2%nat) in Rd.
    + rewrite Forall_forall in Rd. exact (Rd _ I).
    + vm_compute. reflexivity.
    + repeat constructor.
Qed.
Print Assumptions C47_task_ok_is_delivered_refuted.

Example C47_example :
  match @play (toy true) _ draws (shared_new failing (Shaper cover_only [99; 1]) [])
          (round ++ [Thread; CallWrite lost; App; App; App]) with
  | Some s => returned s = [(lost, Ok tt)] /\ thread_at s = ThCheck /\ len (written (pw_writer (st_writer s))) = 5 + 23
  | None => False
  end.
Proof. vm_compute. repeat split. Qed.

(** ** C48 *)
Theorem C48_sums : forall t0 s0 threads opss l,
  stats_new t0 = Ret s0 -> Forall2 (fun rs ops => thread_ops rs = Ret ops) threads opss -> merges opss l ->
  let s := fold_left stat_step l s0 in
  bytes_read s = sum (reads_of (concat threads)) mod 2 ^ 64 /\
  bytes_written s = sum (writes_of (concat threads)) mod 2 ^ 64 /\
  messages_read s = N.of_nat (length (reads_of (concat threads))) mod 2 ^ 64 /\
  messages_written s = N.of_nat (length (writes_of (concat threads))) mod 2 ^ 64 /\
  (In (last_activity_ms s) (times_of (concat threads)) \/
   (times_of (concat threads) = [] /\ exists ms, t0 = AtMillis ms /\ last_activity_ms s = ms mod 2 ^ 64)).
Proof.
  intros t0 s0 threads opss l Hn F M. destruct (stats_sums _ _ _ _ _ Hn F M) as (A & B & C & D & X).
  do 4 (split; [assumption|]). destruct X as [X|[X1 X2]]; [now left|right]. split; [assumption|]. rewrite X2.
  unfold stats_new in Hn. destruct t0 as [|ms]; [discriminate|]. injection Hn as <-. exists ms. split; reflexivity.
Qed.
Print Assumptions C48_sums.

Theorem C48_ratio : forall t0 s0 threads opss l,
  stats_new t0 = Ret s0 -> Forall2 (fun rs ops => thread_ops rs = Ret ops) threads opss -> merges opss l ->
  sum (reads_of (concat threads)) < 2 ^ 64 -> sum (writes_of (concat threads)) < 2 ^ 64 ->
  write_read_ratio (fold_left stat_step l s0) =
    if sum (reads_of (concat threads)) =? 0 then None
    else Some (sum (writes_of (concat threads)), sum (reads_of (concat threads))).
Proof.
  intros t0 s0 threads opss l N F M L1 L2. destruct (stats_sums _ _ _ _ _ N F M) as (A & B & _).
  unfold write_read_ratio. rewrite A, B, !N.mod_small by assumption. reflexivity.
Qed.
Print Assumptions C48_ratio.

Theorem C48_idle : forall s ms,
  exists d, time_since_last_activity s (AtMillis ms) = Ret d /\
    Z.of_N d = Z.max 0 (Z.of_N (ms mod 2 ^ 64) - Z.of_N (last_activity_ms s)).
Proof.
  intros s ms. unfold time_since_last_activity. cbn [now_ms bind]. unfold wrap64. eexists. split; [reflexivity|].
  destruct (N.ltb_spec (ms mod 2 ^ 64) (last_activity_ms s)); lia.
Qed.
Print Assumptions C48_idle.

(** The time stored need not be the latest one. *)
Theorem C48_latest_refuted :
  ~ forall t0 s0 threads opss l,
      stats_new t0 = Ret s0 -> Forall2 (fun rs ops => thread_ops rs = Ret ops) threads opss -> merges opss l ->
      Forall (fun t => t <= last_activity_ms (fold_left stat_step l s0)) (times_of (concat threads)).
Proof.
  intros H.
  pose (a := [AddBytesRead 1; AddMessagesRead; StoreActivity 20]).
  pose (b := [AddBytesWritten 1; AddMessagesWritten; StoreActivity 10]).
  assert (M : merges [a; b] (a ++ b)).
  { unfold a, b. cbn [app].
    do 3 apply (merges_cons [] _ _ [_]). do 3 apply (merges_cons [_] _ _ []).
    constructor. repeat constructor. }
  specialize (H (AtMillis 0) _ [[RecordRead 1 (AtMillis 20)]; [RecordWrite 1 (AtMillis 10)]] [a; b] (a ++ b) eq_refl).
  assert (Forall (fun t => t <= 10) [20; 10]) as F by (apply H; [repeat constructor|assumption]).
  inversion F. lia.
Qed.
Print Assumptions C48_latest_refuted.

Example C48_example :
  let s := fold_left stat_step
    [AddBytesRead 1000; AddBytesWritten (2 ^ 64 - 1); AddMessagesRead; AddMessagesWritten; AddBytesWritten 3; StoreActivity 20;
     StoreActivity 10; AddMessagesWritten; StoreActivity 15]
    (Stats 0 0 0 0 5) in
  s = Stats 1000 2 1 2 15 /\ write_read_ratio s = Some (2, 1000) /\
  time_since_last_activity s (AtMillis 12) = Ret 0 /\ time_since_last_activity s (AtMillis 40) = Ret 25 /\
  write_read_ratio (Stats 0 7 0 1 5) = None.
Proof. vm_compute. repeat split. Qed.

(** ** C49 *)
Theorem C49_handshake : forall (G : Type) (R : Rng G) (RL : RngLaws G R) sh garbage decoys sh' recs,
  shaper_handshake sh = (garbage, decoys, sh', recs) ->
  recs = match garbage with Some g => [len g] | None => [] end ++ map (fun d => len d) (decoy_list decoys).
Proof.
  intros G R RL sh g d sh' recs H. apply shaper_handshake_spec in H. destruct H as (_ & _ & _ & -> & _).
  destruct d; reflexivity.
Qed.
Print Assumptions C49_handshake.

Theorem C49_calls : forall (G : Type) (R : Rng G) (RL : RngLaws G R) sh,
  (forall d sh' recs, shaper_decoy sh = (d, sh', recs) ->
     recs = match d with Some d => [size_of d] | None => [] end) /\
  (forall pl d sh' recs, shaper_pad sh pl = Ret (d, sh', recs) ->
     recs = size_of pl :: match d with Some d => [size_of d] | None => [] end).
Proof.
  intros G R RL sh. split.
  - intros d sh' recs H. apply shaper_decoy_spec in H. destruct d; tauto.
  - intros pl d sh' recs H. apply shaper_pad_spec in H. destruct d; tauto.
Qed.
Print Assumptions C49_calls.

(** The shaped readers are the plain readers, recording the contents of every payload they return. *)
Theorem C49_reads : forall (E : Env),
  (forall r x r' recs, shaped_read r = Ret (x, r', recs) ->
     (exists a, sync_read r = Ret (x, r', a)) /\ recs = match x with Ok p => [size_of p] | Err _ => [] end) /\
  (forall r x r' recs, tokio_shaped_read r = Ret (x, r', recs) ->
     tokio_read r = Ret (x, r') /\ recs = match x with Ok p => [size_of p] | Err _ => [] end).
Proof.
  intros E. split; intros r x r' recs H.
  - unfold shaped_read in H. apply bind_ret_inv in H. destruct H as ([[y r1] a] & Q & H). destruct y as [p|e].
    + apply bind_ret_inv in H. destruct H as (ct & C & H). injection H as <- <- <-. split; [eauto|].
      now rewrite (contents_seen _ _ C).
    + injection H as <- <- <-. eauto.
  - unfold tokio_shaped_read in H. apply bind_ret_inv in H. destruct H as ([y r1] & Q & H). destruct y as [p|e].
    + apply bind_ret_inv in H. destruct H as (ct & C & H). injection H as <- <- <-. split; [assumption|].
      now rewrite (contents_seen _ _ C).
    + injection H as <- <- <-. auto.
Qed.
Print Assumptions C49_reads.

(** The total recorded by a session is the contents handed to the writer, whether written or not. *)
Theorem C49_total : forall (E : Env) (G : Type) (R : Rng G) (RL : RngLaws G R) p sh recs ms s,
  play (shared_new p sh recs) ms = Some s -> poisoned s = false -> lock s = Free ->
  exists bs, Forall (block_ok (sh_config sh)) bs /\ serves Sync p bs (returned s) (st_writer s) /\
    length (records s) = (length recs + packets bs)%nat /\
    sum (records s) = sum recs + sum (map size_of (flat_map block_payloads bs)).
Proof.
  intros E G R RL p sh recs ms s P Po L. destruct (schedule_blocks _ _ _ _ _ P Po L) as (_ & bs & F & _ & S & ->).
  exists bs. split; [assumption|]. split; [assumption|]. unfold packets. rewrite app_length, sum_app.
  assert (length (flat_map block_sizes bs) = length (flat_map block_payloads bs) /\
          sum (flat_map block_sizes bs) = sum (map size_of (flat_map block_payloads bs))) as [Q1 Q2].
  { clear. induction bs as [|b bs [IH1 IH2]]; [split; reflexivity|]. cbn [flat_map].
    rewrite !app_length, map_app, !sum_app, IH1, IH2. destruct b; cbn; split; try reflexivity; unfold sum; cbn; lia. }
  rewrite Q1, Q2. split; reflexivity.
Qed.
Print Assumptions C49_total.

Theorem C49_counted_is_written_refuted :
  ~ forall (E : Env) (EL : EnvLaws E) (G : Type) (R : Rng G) (RL : RngLaws G R) p sh ms s,
      written (pw_writer p) = [] -> play (shared_new p sh []) ms = Some s ->
      sum (records s) <= len (written (pw_writer (st_writer s))).
Proof.
  intros H.
  destruct (@play (toy true) _ draws (shared_new (PWriter toy_in (Writer [WFail WriteZero] [] [])) (Shaper config_new []) [])
              [CallWrite lost; App; App; App]) as [s|] eqn:P; [|vm_compute in P; discriminate].
  specialize (H _ (toy_laws true) _ draws draws_laws (PWriter toy_in (Writer [WFail WriteZero] [] [])) _ _ s eq_refl P). vm_compute in P. injection P as <-.
  vm_compute in H. now apply H.
Qed.
Print Assumptions C49_counted_is_written_refuted.

Example C49_example :
  match @play (toy true) _ draws
          (shared_new (PWriter toy_in (Writer [WFail WriteZero] [] [])) (Shaper all_random [6]) [12; 1024])
          [CallWrite lost; App; App; App] with
  | Some s => records s = [12; 1024; 3; 7] /\ returned s = [(lost, Err (Io WriteZero Abort))] /\
              written (pw_writer (st_writer s)) = []
  | None => False
  end.
Proof. vm_compute. repeat split. Qed.

(** ** C54 *)
Theorem C54_shaped_session : forall (E : Env) (EL : EnvLaws E) (G : Type) (R : Rng G) (RL : RngLaws G R)
    magic ska skb ca cb (ga gb : G),
  EcdhAgrees E -> len magic = 4 ->
  sk_valid ska = true -> sk_valid skb = true ->
  (debug_assertions = true -> ska <> zeros 32 /\ skb <> zeros 32) ->
  take 4 (ellswift_of ska) <> magic -> take 4 (ellswift_of skb) <> magic ->
  let '(garba, _, _, _) := shaper_handshake (Shaper ca ga) in
  let '(garbb, _, _, _) := shaper_handshake (Shaper cb gb) in
  exists m outa outb,
    keys_from (bip_prk magic (bip_secret (ellswift_of ska) (ellswift_of skb) ska PartyA)) m /\
    (first_at (initiator_garbage_terminator m)
       (garbage_bytes garba ++ initiator_garbage_terminator m) (len (garbage_bytes garba)) ->
     first_at (responder_garbage_terminator m)
       (garbage_bytes garbb ++ responder_garbage_terminator m) (len (garbage_bytes garbb)) ->
     forall fla flb sa sb wa wb ea eb resta restb,
       flatten fla sa = (outb ++ restb, ea) -> flatten flb sb = (outa ++ resta, eb) ->
       calm fla sa -> calm flb sb -> healthy wa -> healthy wb ->
       exists ra epa rb epb,
         shaped_connect fla magic Initiator ska ca ga sa wa = Ret (Ok (ra, epa)) /\
         shaped_connect flb magic Responder skb cb gb sb wb = Ret (Ok (rb, epb)) /\
         written (pw_writer (shaped_writer epa)) = written wa ++ outa /\
         written (pw_writer (shaped_writer epb)) = written wb ++ outb /\
         (forall acts epa',
            becomes epa acts epa' -> (overflow_checks = true -> 4 + effort acts < 2 ^ 32) ->
            activity_sound acts -> Forall (fun pl => readable flb (seen pl)) (requests acts) ->
            written (pw_writer (shaped_writer epa')) = written wa ++ outa ++ resta ->
            Forall (fun x => x = Ok tt) (results epa') /\
            exists n qs r', read_many n rb = Ret (map Ok qs, r') /\ N.of_nat n <= effort acts /\
              genuine_only (map seen qs) = genuine_only (map seen (firstn (length (results epa')) (requests acts))) /\
              reader_stream r' = ([], eb)) /\
         (forall acts epb',
            becomes epb acts epb' -> (overflow_checks = true -> 4 + effort acts < 2 ^ 32) ->
            activity_sound acts -> Forall (fun pl => readable fla (seen pl)) (requests acts) ->
            written (pw_writer (shaped_writer epb')) = written wb ++ outb ++ restb ->
            Forall (fun x => x = Ok tt) (results epb') /\
            exists n qs r', read_many n ra = Ret (map Ok qs, r') /\ N.of_nat n <= effort acts /\
              genuine_only (map seen qs) = genuine_only (map seen (firstn (length (results epb')) (requests acts))) /\
              reader_stream r' = ([], ea))).
Proof. exact @shaped_session. Qed.
Print Assumptions C54_shaped_session.

(** Both shaped, over the handshake bytes; then one write at the blocking end, read at the async end. *)
Definition shaped_wires : bytes * bytes := Eval vm_compute in
  match wires (E := toy true) (Some (repeat x5a 3)) (Some (repeat x5a 2)) (Some [repeat x5a 8]) (Some [])
          [(Decoy, zeros 5); (Genuine, [x07; x08])] [] with
  | Some p => p
  | None => ([], [])
  end.

Example C54_example :
  let '(a, b) := shaped_wires in
  match @shaped_connect (toy true) _ draws Sync mainnet Initiator ska all_random [3; 1; 7; 4] [Chunk b] fresh,
        @shaped_connect (toy true) _ draws Tokio mainnet Responder skb all_random [2; 0] (drip a) fresh with
  | Ret (Ok (ra, Blocking sa)), Ret (Ok (rb, Tasked tb)) =>
      records sa = [3; 8] /\ tk_records tb = [2] /\
      match @play (toy true) _ draws sa [CallWrite (genuine [x07; x08]); App; App; App; App],
            @read_many (toy true) 2 rb with
      | Some sa', Ret (xs, _) =>
          written (pw_writer (st_writer sa')) = a /\ returned sa' = [(genuine [x07; x08], Ok tt)] /\
          xs = [Ok (Decrypted (x80 :: zeros 5)); Ok (Decrypted [x00; x07; x08])]
      | _, _ => False
      end
  | _, _ => False
  end.
Proof. vm_compute. repeat split. Qed.
