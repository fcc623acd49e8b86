(** * Property C73: asynchronous shaped endpoints over transports of bounded capacity *)
From Coq Require Import List NArith Bool Lia.
From Coq.Strings Require Import Byte.
From Verif Require Import Base BaseFacts Env FsChacha Cipher Histories CipherProofs Handshake Transport Io Futures SpecIo Sessions
  Toy PropsHandshake PropsIo Traffic TrafficIo TrafficFutures TrafficTask SpecTraffic PropsTraffic SpecDuplex PropsDuplex
  SpecAwait AwaitProofs.
Import ListNotations.
Local Open Scope N_scope.

(** ** C73 *)
(** Whatever has happened, short of a panic: as long as the peer takes what is in the pipe, the task can come to the end of
    its queue, however small the pipe and whatever the shaping.  Then every command sent has been answered, with success, and a peer
    that skips decoys reads what was sent. *)
Theorem C73_taking_peer : forall (E : Env) (EL : EnvLaws E) (G : Type) (R : Rng G) (RL : RngLaws G R) out (sh : shaper G) recs
    capacity st k k0,
  1 <= capacity -> current_run (current_step capacity) (current_new out sh recs) st ->
  running (sp_task (cu_task st)) = true ->
  counted k (pw_cipher (tk_writer (sp_task (cu_task st)))) ->
  (overflow_checks = true -> k + 2 * len (queue (sp_task (cu_task st))) + 2 < 2 ^ 32) -> counted k0 out ->
  exists st' pls, current_run (current_goes capacity) st st' /\
    sp_place (cu_task st') = AtSelect /\ queue (sp_task (cu_task st')) = [] /\ cu_pipe st' = [] /\ cu_sent st' = cu_sent st /\
    answers (sp_task (cu_task st')) = map (fun c => (cmd_id c, Ok tt)) (cu_sent st) /\
    genuine_only (map seen pls) = genuine_only (map seen (map cmd_payload (cu_sent st))) /\
    forall fl l e, flatten fl l = (cu_taken st', e) -> (overflow_checks = true -> k0 + len pls < 2 ^ 32) ->
      exists qs r', read_many (length pls) (established fl out (session_reader fl [] l)) = Ret (map Ok qs, r') /\
        map seen qs = map seen pls /\ reader_stream r' = ([], e).
Proof.
  intros E EL G R RL out sh recs K st k k0 Hk Run Ru Hc Hr Hc0.
  pose proof (run_sound out _ _ _ Run (new_sound out sh recs)) as S.
  destruct (gets_done K out st k Hk S Ru Hc Hr) as (st' & R1 & P1 & Ru1 & Q1 & Pi1 & Se1 & S1).
  destruct (current_read out st' k0 S1 P1 Ru1 Q1 Pi1 Hc0) as (An & pls & Ge & Rd). rewrite Se1 in An, Ge.
  exists st', pls. auto 10.
Qed.
Print Assumptions C73_taking_peer.

(** The decoys of the tasks alone can fill both pipes, whatever their capacity; two applications that both await a [write]
    before they read then wait for ever: whatever is polled, with the timers elapsed or not, nothing changes. *)
Theorem C73_decoys_stall : forall (E : Env) (EL : EnvLaws E) (G : Type) (R : Rng G) (RL : RngLaws G R) (a b : @party G)
    pla ta plb tb ka kb capacity lr rl,
  restless R -> at_ease a -> at_ease b ->
  decoy_strategy (sh_config (tk_shaper (sp_task (pa_task a)))) = Random ->
  decoy_strategy (sh_config (tk_shaper (sp_task (pa_task b)))) = Random ->
  pa_todo a = Say pla :: ta -> pa_todo b = Say plb :: tb ->
  len lr <= capacity -> len rl <= capacity ->
  counted ka (pw_cipher (tk_writer (sp_task (pa_task a)))) -> (overflow_checks = true -> ka + capacity + 1 < 2 ^ 32) ->
  counted kb (pw_cipher (tk_writer (sp_task (pa_task b)))) -> (overflow_checks = true -> kb + capacity + 1 < 2 ^ 32) ->
  exists st, meeting_run capacity (Meeting a b lr rl) st /\
    stalled capacity st /\ ~ is_through (one st) /\ ~ is_through (other st).
Proof. intros. eapply stalls; eassumption. Qed.
Print Assumptions C73_decoys_stall.

Theorem C73_small_messages_arrive_refuted :
  ~ forall (E : Env) (EL : EnvLaws E) (G : Type) (R : Rng G) (RL : RngLaws G R) oca ocb (sha shb : shaper G) ra rb ta tb capacity st,
      tr_cipher ra = ocb -> tr_cipher rb = oca ->
      tr_state ra = init_reading_length -> tr_state rb = init_reading_length ->
      session_leftover (tr_reader ra) = [] -> session_leftover (tr_reader rb) = [] ->
      Forall sound_payload (said ta ++ said tb) ->
      10 * load (said ta) <= capacity -> 10 * load (said tb) <= capacity -> concert ta tb 0 0 ->
      counted 0 oca -> counted 0 ocb -> capacity < 2 ^ 31 ->
      meeting_run capacity (Meeting (party_new oca sha [] ra ta) (party_new ocb shb [] rb tb) [] []) st ->
      exists st', meeting_run capacity st st' /\ is_through (one st') /\ is_through (other st').
Proof.
  intros H.
  set (oca := outbound (session_new sample_km Initiator)).
  set (ocb := outbound (session_new sample_km Responder)).
  set (ra := TReader ocb (TokioReader [] 0 []) init_reading_length).
  set (rb := TReader oca (TokioReader [] 0 []) init_reading_length).
  set (sh := Shaper (Config Disabled Random) tt). set (prog := [Say (genuine [x01]); Hear]).
  assert (Ca : @counted (toy true) 0 oca) by apply session_counted.
  assert (Cb : @counted (toy true) 0 ocb) by apply session_counted.
  destruct (C73_decoys_stall (toy true) (toy_laws true) unit high high_laws (party_new oca sh [] ra prog) (party_new ocb sh [] rb prog)
    (genuine [x01]) [Hear] (genuine [x01]) [Hear] 0 0 1000 [] []) as (st & Run & D & _ & N).
  - exact high_restless.
  - repeat split; constructor.
  - repeat split; constructor.
  - reflexivity.
  - reflexivity.
  - reflexivity.
  - reflexivity.
  - vm_compute. discriminate.
  - vm_compute. discriminate.
  - exact Ca.
  - intros _. vm_compute. reflexivity.
  - exact Cb.
  - intros _. vm_compute. reflexivity.
  - destruct (H (toy true) (toy_laws true) unit high high_laws oca ocb sh sh ra rb prog prog 1000 st) as (st' & R1 & _ & Z);
      try reflexivity; try assumption.
    + constructor; [eexists; reflexivity|]. constructor; [eexists; reflexivity|constructor].
    + vm_compute. discriminate.
    + vm_compute. discriminate.
    + apply left_says, right_says, left_hears, right_hears, concert_end.
    + apply N. clear -D R1 Z. induction R1 as [st|st st1 st2 S _ IH]; [exact Z|]. rewrite (D _ S) in IH. now apply IH.
Qed.
Print Assumptions C73_small_messages_arrive_refuted.

(** Padding and a pipe that holds a single byte; the peer takes a byte whenever there is one.  The command is answered, and
    what the peer has taken is the padding, 1024 bytes, and the payload.  In the second part nothing is taken: a decoy
    fills a pipe of 30 bytes, and a command sent then is not answered, however often the task is polled. *)
Definition C73_polled (capacity : N) (s : @split_task unit) (n : nat) : @split_task unit :=
  Nat.iter n (@polled (toy false) unit high capacity true true) s.

Example C73_example :
  let out := outbound (session_new sample_km Initiator) in
  let called := Current (split_step (E := toy false) (R := high) (cu_task (current_new out (Shaper all_random tt) []))
                  (Ev (Send (Command 7 (genuine [x01]))))) [Command 7 (genuine [x01])] [] [] in
  (exists st' pls, current_run (current_goes (E := toy false) (R := high) 1) called st' /\
     answers (sp_task (cu_task st')) = [(7, Ok tt)] /\ genuine_only (map seen pls) = [(Genuine, [x01])] /\
     exists qs r', @read_many (toy false) (length pls) (established Tokio out (session_reader Tokio [] [Chunk (cu_taken st')]))
       = Ret (map Ok qs, r') /\ map seen qs = map seen pls) /\
  let s := C73_polled 30 (cu_task (current_new out (Shaper all_random tt) [])) 1 in
  let s' := split_step (E := toy false) (R := high) s (Ev (Send (Command 7 (genuine [x01])))) in
  len (put_out s) = 30 /\ (match sp_place s with InDecoy (Writing rest) => len rest = 1014 | _ => False end) /\
  C73_polled 0 s' 1 = s' /\ answer_to (sp_task s') 7 = None.
Proof.
  intros out called. split.
  - destruct (C73_taking_peer (toy false) (toy_laws false) unit high high_laws out (Shaper all_random tt) [] 1 called 0 0)
      as (st' & pls & Run & _ & _ & _ & _ & An & Ge & Rd).
    + reflexivity.
    + eapply current_more; [|constructor]. apply current_send with (c := Command 7 (genuine [x01])); [reflexivity|eexists; reflexivity|].
      vm_compute. discriminate.
    + reflexivity.
    + apply session_counted.
    + discriminate.
    + apply session_counted.
    + exists st', pls. split; [exact Run|]. split; [exact An|]. split; [exact Ge|].
      destruct (Rd Tokio [Chunk (cu_taken st')] Closed) as (qs & r' & Q1 & Q2 & _).
      * destruct (cu_taken st'); [reflexivity|]. cbn [flatten]. now rewrite app_nil_r.
      * discriminate.
      * eauto.
  - vm_compute. repeat split.
Qed.
