(** * Property C72: an endpoint whose peer reads in a thread of its own *)
From Coq Require Import List NArith Bool Lia.
From Coq.Strings Require Import Byte.
From Verif Require Import Base BaseFacts Env FsChacha Cipher Histories CipherProofs Handshake Transport Io SpecIo Sessions
  Toy PropsHandshake PropsIo Traffic TrafficIo SpecTraffic SpecIntegrity PropsTraffic SpecDuplex DuplexProofs PropsDuplex
  SpecFlow FlowProofs.
Import ListNotations.
Local Open Scope N_scope.

(** ** C72 *)
(** Whatever has happened, short of a panic: the call of [write] or [drop] in progress can return, however small the pipe
    and whatever the shaping; every [write] that returned has succeeded, and what a peer that skips decoys has heard then
    is what was written. *)
Theorem C72_reader_thread : forall (E : Env) (EL : EnvLaws E) (G : Type) (R : Rng G) (RL : RngLaws G R) out (sh : shaper G) recs r
    capacity st k,
  1 <= capacity -> sr_cipher r = out -> session_leftover (sr_reader r) = [] ->
  flow_run (flow_step capacity) (flow_new out sh recs r) st ->
  poisoned (fl_shared st) = false ->
  counted k (pw_cipher (st_writer (fl_shared st))) -> (overflow_checks = true -> k + 8 < 2 ^ 32) ->
  exists st' hs, flow_run (flow_goes capacity) st st' /\
    app_at (fl_shared st') = (match app_at (fl_shared st) with AppJoin | AppDropped => AppDropped | _ => AppOut end) /\
    lock (fl_shared st') = Free /\ fl_pipe st' = [] /\
    map fst (returned (fl_shared st')) = map fst (returned (fl_shared st)) ++ in_flight (app_at (fl_shared st)) /\
    Forall (fun x => snd x = Ok tt) (returned (fl_shared st')) /\
    fl_heard st' = map Ok hs /\
    genuine_only (map seen hs) = genuine_only (map seen (map fst (returned (fl_shared st')))).
Proof.
  intros E EL G R RL out sh recs r K st k Hk C L Run P Hc Hr.
  eapply comes_through; [exact Hk|eapply run_flows; [exact Run|now apply flows_new|exact P]|exact Hc|exact Hr].
Qed.
Print Assumptions C72_reader_thread.

(** [drop] needs the peer: decoys may have filled the pipe, and the thread that [drop] waits for is inside a write.  From
    then on only the peer's reads can change anything. *)
Theorem C72_drop_waits : forall (E : Env) (EL : EnvLaws E) (G : Type) (R : Rng G) (RL : RngLaws G R) out (sh : shaper G) recs r
    capacity k,
  restless R -> decoy_strategy (sh_config sh) = Random ->
  counted k out -> (overflow_checks = true -> k + capacity + 1 < 2 ^ 32) ->
  exists st, flow_run (flow_step capacity) (flow_new out sh recs r) st /\ app_at (fl_shared st) = AppJoin /\
    forall st', flow_goes capacity st st' -> fl_shared st' = fl_shared st /\ fl_sent st' = fl_sent st /\
      ((exists b, fl_pipe st = b :: fl_pipe st') \/ exists x, fl_heard st' = fl_heard st ++ [x]).
Proof.
  intros E EL G R RL out sh recs r K k Rs C Hc Hr. unfold flow_new.
  eapply drop_waits; try eassumption; try reflexivity; [repeat split; constructor|rewrite len_nil; lia|].
  intros Ho. specialize (Hr Ho). rewrite len_nil. lia.
Qed.
Print Assumptions C72_drop_waits.

Theorem C72_drop_returns_refuted :
  ~ forall (E : Env) (EL : EnvLaws E) (G : Type) (R : Rng G) (RL : RngLaws G R) out (sh : shaper G) r capacity st,
      counted 0 out -> 1000000 <= capacity <= 2 ^ 31 ->
      flow_run (flow_step capacity) (flow_new out sh [] r) st -> app_at (fl_shared st) = AppJoin ->
      exists st', app_at (fl_shared st') = AppDropped /\
        flow_run (fun x y => flow_goes capacity x y /\ fl_got y = fl_got x /\ fl_heard y = fl_heard x) st st'.
Proof.
  intros H.
  set (out := outbound (session_new sample_km Initiator)). set (r := SyncReader out (ChainReader [] false [])).
  set (sh := Shaper (Config Disabled Random) tt).
  assert (C : @counted (toy true) 0 out) by apply session_counted.
  destruct (C72_drop_waits (toy true) (toy_laws true) unit high high_laws out sh [] r 1000000 0 high_restless eq_refl C
    ltac:(intros _; vm_compute; reflexivity)) as (st & Run & A & Stuck).
  destruct (H (toy true) (toy_laws true) unit high high_laws out sh r 1000000 st C ltac:(split; vm_compute; discriminate) Run A)
    as (st' & A' & Run').
  destruct Run' as [st|st st1 st2 (Go & Qg & Qh) _]; [congruence|].
  destruct Go; cbn [fl_got fl_heard] in Qg, Qh;
    try (eapply f_equal with (f := @length _) in Qg; rewrite app_length in Qg; cbn in Qg; lia);
    try (eapply f_equal with (f := @length _) in Qh; rewrite app_length in Qh; cbn in Qh; lia);
    match goal with Hm : _ = App \/ _ = Thread |- _ => idtac end;
    match goal with
    | Go : flow_goes _ _ _ |- _ => idtac
    | Hm : ?m = App \/ ?m = Thread, M : do_move ?s ?m = Some ?s', O : output ?s' = output ?s |- _ =>
        destruct (Stuck _ (flow_moves _ _ _ _ _ _ _ _ _ Hm M O)) as (_ & _ & [(b & Q)|(x & Q)])
    | Hm : ?m = App \/ ?m = Thread, M : do_move ?s ?m = Some ?s', O : output ?s' = output ?s ++ ?o, K1 : 1 <= ?k |- _ =>
        destruct (Stuck _ (flow_puts _ _ _ _ _ _ _ _ _ _ _ Hm M O K1 ltac:(eassumption) ltac:(eassumption))) as (_ & _ & [(b & Q)|(x & Q)])
    | Hm : ?m = App \/ ?m = Thread, M : do_move ?s ?m = Some ?s', O : output ?s' = output ?s ++ ?o |- _ =>
        destruct (Stuck _ (flow_puts_last _ _ _ _ _ _ _ _ _ _ Hm M O ltac:(eassumption) ltac:(eassumption))) as (_ & _ & [(b & Q)|(x & Q)])
    end; cbn [fl_pipe fl_heard] in Q; eapply f_equal with (f := @length _) in Q; rewrite ?app_length in Q; cbn in Q;
    rewrite ?app_length in Q; lia.
Qed.
Print Assumptions C72_drop_returns_refuted.

(** Padding and decoys, and a pipe that holds a single byte: a byte of payload, behind 1024 bytes of padding, arrives. *)
Example C72_example :
  let out := outbound (session_new sample_km Initiator) in
  let sh := Shaper all_random tt in
  let r := SyncReader out (ChainReader [] false []) in
  let called := Flow (set_app (fl_shared (flow_new out sh [] r)) (AppLock (genuine [x01]))) 0 [] r [] [] in
  exists st' hs, flow_run (flow_goes (E := toy true) (R := high) 1) called st' /\ app_at (fl_shared st') = AppOut /\
    returned (fl_shared st') = [(genuine [x01], Ok tt)] /\
    fl_heard st' = map Ok hs /\ genuine_only (map seen hs) = [(Genuine, [x01])].
Proof.
  intros out sh r called.
  destruct (C72_reader_thread (toy true) (toy_laws true) unit high high_laws out sh [] r 1 called 0)
    as (st' & hs & Run & A & _ & _ & Rt & Fa & Hh & All); try reflexivity.
  - eapply flow_more; [|constructor]. eapply flow_write with (pl := genuine [x01]); [reflexivity|eexists; reflexivity|].
    vm_compute. discriminate.
  - apply session_counted.
  - exists st', hs. split; [exact Run|]. split; [exact A|]. cbn in Rt. rewrite Rt in All.
    split; [|split; [exact Hh|exact All]].
    destruct (returned (fl_shared st')) as [|[pl x] [|? ?]]; try discriminate. injection Rt as ->.
    inversion Fa as [|? ? Q _]. cbn in Q. now rewrite Q.
Qed.
