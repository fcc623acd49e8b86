(** * Properties C56-C57: the writer task of traffic/src/futures.rs suspended inside its branches *)
From Coq Require Import List NArith ZArith Bool Lia.
From Coq.Strings Require Import Byte.
From Verif Require Import Base BaseFacts Env FsChacha Cipher Histories CipherProofs Handshake
  Transport Io SpecIo Futures Sessions SessionProofs EndpointProofs Toy PropsHandshake PropsIo
  Traffic TrafficIo TrafficFutures SpecTraffic TrafficProofs TrafficFuturesProofs TrafficSessionProofs PropsTraffic
  TrafficTask SpecTask TrafficTaskProofs.
Import ListNotations.
Local Open Scope N_scope.

(** ** C56 *)

(** Until it is killed, the task does the same as if its branches were never suspended: there is a sequence of events
    with the same commands which leads the unsplit task to the same state; a suspended one is behind by the rest of its branch. *)
Theorem C56_like_unsplit : forall (E : Env) (EL : EnvLaws E) (G : Type) (R : Rng G) (RL : RngLaws G R) p sh recs k es,
  counted k (pw_cipher p) -> (overflow_checks = true -> k + 2 * len es < 2 ^ 32) ->
  Forall event_sound (events_of es) -> alive (events_of es) ->
  let s := split_run (split_new p sh recs) es in
  running (sp_task s) = true /\
  exists es', alive es' /\ Forall event_sound es' /\ (length es' <= length es)%nat /\
    accepted es' = accepted (events_of es) /\
    let t := task_run (task_new p sh recs) es' in
    running t = true /\ (sp_place s = AtSelect -> sp_task s = t) /\
    queue t = queue (sp_task s) /\ tk_records t = tk_records (sp_task s) /\
    (exists rest, written (pw_writer (tk_writer t)) = written (pw_writer (tk_writer (sp_task s))) ++ rest) /\
    (exists ans, answers t = answers (sp_task s) ++ ans /\ map fst ans = waiting (sp_place s)).
Proof. exact @split_is_task. Qed.
Print Assumptions C56_like_unsplit.

(** Killed or not, what is on the wire is a prefix of complete blocks, in the order of the commands; every answer is the
    result of the command's own writes. *)
Theorem C56_wire : forall (E : Env) (EL : EnvLaws E) (G : Type) (R : Rng G) (RL : RngLaws G R) p sh recs k es,
  counted k (pw_cipher p) -> (overflow_checks = true -> k + 2 * len es < 2 ^ 32) ->
  Forall event_sound (events_of es) ->
  let s := split_run (split_new p sh recs) es in
  let t := sp_task s in
  exists handled rest rs bs p' tail ans,
    accepted (events_of es) = handled ++ rest /\ (running t = true -> rest = queue t) /\
    Forall (block_ok (sh_config sh)) bs /\ serves Tokio p bs rs p' /\
    map fst rs = map cmd_payload handled /\
    tk_records t = recs ++ flat_map block_sizes bs /\ (packets bs <= 2 * length es)%nat /\
    written (pw_writer p') = written (pw_writer (tk_writer t)) ++ tail /\
    combine (map cmd_id handled) (map snd rs) = answers t ++ ans /\ map fst ans = waiting (sp_place s) /\
    (sp_place s = AtSelect -> p' = tk_writer t).
Proof. exact @split_serves. Qed.
Print Assumptions C56_wire.

(** Polled as often as the transport can hold it up, the task gets back to its [select!] and has answered. *)
Theorem C56_progress : forall (E : Env) (EL : EnvLaws E) (G : Type) (R : Rng G) (RL : RngLaws G R) p sh recs k es sels,
  counted k (pw_cipher p) -> (overflow_checks = true -> k + 2 * len es < 2 ^ 32) ->
  Forall event_sound (events_of es) -> alive (events_of es) ->
  let s := split_run (split_new p sh recs) es in
  sp_place s <> AtSelect -> length sels = S (hold_ups (pw_writer (tk_writer (sp_task s)))) ->
  exists m, (0 < m <= length sels)%nat /\
    let s' := split_run s (map (fun b => Ev (Poll (fst b) (snd b))) (firstn m sels)) in
    sp_place s' = AtSelect /\ running (sp_task s') = true /\ queue (sp_task s') = queue (sp_task s) /\
    map fst (answers (sp_task s')) = map fst (answers (sp_task s)) ++ waiting (sp_place s).
Proof. exact @split_progress. Qed.
Print Assumptions C56_progress.

(** A runtime that shuts down drops the task where it stands, also in the middle of a packet. *)
Theorem C56_kill_between_packets_refuted :
  ~ forall (E : Env) (EL : EnvLaws E) (G : Type) (R : Rng G) (RL : RngLaws G R) p sh recs es,
      healthy (pw_writer p) -> Forall event_sound (events_of es) ->
      exists bs rs p', serves Tokio p bs rs p' /\
        written (pw_writer p') = written (pw_writer (tk_writer (sp_task (split_run (split_new p sh recs) es)))).
Proof.
  intros H.
  destruct (H (toy true) (toy_laws true) (list N) draws draws_laws
    (PWriter toy_in (Writer [Accept 5; WPending] [] [])) (Shaper (Config Disabled Disabled) []) []
    [Ev (Send (Command 1 (genuine [x01]))); Ev (Poll false false); Ev Kill]) as (bs & rs & p' & S & W).
  - split; [|constructor]. repeat constructor. discriminate.
  - repeat constructor. exists (Genuine, [x01]). reflexivity.
  - destruct (C43_wire (toy true) (toy_laws true) _ _ _ _ _ S) as (_ & pkts & Sa & W').
    { split; [|constructor]. repeat constructor. discriminate. }
    rewrite W' in W. apply (f_equal len) in W. clear S W'. cbn [pw_writer written app] in W.
    change (len (concat pkts) = 5) in W. destruct (wire_of _) as [|m ms]; cbn [send_all] in Sa.
    + injection Sa as <- _. discriminate.
    + apply bind_ret_inv in Sa. destruct Sa as ([pkt c1] & En & Sa).
      apply bind_ret_inv in Sa. destruct Sa as ([pkts' c2] & _ & Sa). injection Sa as <- _.
      apply (@encrypt_vec_len (toy true) (toy_laws true)) in En. cbn [concat] in W. rewrite len_app in W. lia.
Qed.
Print Assumptions C56_kill_between_packets_refuted.

(** A command is padded; the padding is held up twice, meanwhile a second command and a tick arrive; the tick's decoy and
    the second command follow after the first command's payload. *)
Example C56_example :
  let s := @split_run (toy true) _ draws
    (split_new (PWriter toy_in (Writer [Accept 5; WPending; WPending; Accept 500; Accept 3; WPending] [] []))
       (Shaper all_random [2; 99; 1; 3; 3]) [])
    [Ev (Send (Command 7 (genuine [x01]))); Ev (Poll false false); Ev (Send (Command 8 (genuine [x02; x02])));
     Ev (Poll true true)] in
  let s1 := @split_run (toy true) _ draws s [Ev (Poll true true)] in
  let s2 := @split_run (toy true) _ draws s1 [Ev (Poll false true); Ev (Poll true true); Ev (Poll true true); Ev (Poll true false)] in
  (match sp_place s with InPad (Writing rest) c => len rest = 18 /\ cmd_id c = 7 | _ => False end) /\
  len (written (pw_writer (tk_writer (sp_task s)))) = 5 /\ answers (sp_task s) = [] /\ map cmd_id (queue (sp_task s)) = [8] /\
  (match sp_place s1 with InPayload (Writing rest) c => len rest = 18 /\ cmd_id c = 7 | _ => False end) /\
  sp_place s2 = AtSelect /\ queue (sp_task s2) = [] /\ answers (sp_task s2) = [(7, Ok tt); (8, Ok tt)] /\
  match @read_many (toy true) 6 (RTokio (TReader toy_in (TokioReader [] 0 [Chunk (written (pw_writer (tk_writer (sp_task s2))))])
          init_reading_length)) with
  | Ret (xs, _) => xs = map Ok [Decrypted (x80 :: zeros 3); Decrypted [x00; x01]; Decrypted (x80 :: zeros 2);
                                Decrypted (x80 :: zeros 4); Decrypted [x00; x02; x02]] ++ [Err (from_io ConnectionAborted)]
  | _ => False
  end.
Proof. vm_compute. repeat split. Qed.

(** ** C57 *)

(** Callers that give up their [write] disturb nobody: once the task has nothing left to do, every command sent, abandoned or not,
    has been answered, and the peer reads all payloads in order. *)
Theorem C57_abandoned_writes_are_sent : forall (E : Env) (EL : EnvLaws E) (G : Type) (R : Rng G) (RL : RngLaws G R)
    p sh recs k es fl sc wire e,
  counted k (pw_cipher p) -> (overflow_checks = true -> k + 2 * len es < 2 ^ 32) ->
  Forall event_sound (events_of es) -> alive (events_of es) ->
  let s := split_run (split_new p sh recs) es in
  let cmds := accepted (events_of es) in
  sp_place s = AtSelect -> queue (sp_task s) = [] ->
  healthy (pw_writer p) -> Forall (fun c => readable fl (seen (cmd_payload c))) cmds ->
  written (pw_writer (tk_writer (sp_task s))) = written (pw_writer p) ++ wire -> flatten fl sc = (wire, e) ->
  answers (sp_task s) = map (fun c => (cmd_id c, Ok tt)) cmds /\
  exists n qs r', read_many n (established fl (pw_cipher p) (session_reader fl [] sc)) = Ret (map Ok qs, r') /\
    genuine_only (map seen qs) = genuine_only (map seen (map cmd_payload cmds)) /\
    reader_stream r' = ([], e).
Proof.
  intros E EL G R RL p sh recs k es fl sc wire e C Hr F A s cmds Pl Qu Hh Rd W Fl.
  destruct (split_is_task p sh recs k es C Hr F A) as (Ru & _). fold s in Ru.
  destruct (split_serves p sh recs k es C Hr F) as (handled & rest & rs & bs & p' & tail & ans & Q).
  fold s in Q. cbn zeta in Q. destruct Q as (Q1 & Q2 & Q3 & Q4 & Q5 & Q6 & Q7 & Q8 & Q9 & Q10 & Q11).
  specialize (Q11 Pl). subst p'. specialize (Q2 Ru). rewrite Qu in Q2. subst rest. rewrite app_nil_r in Q1.
  unfold cmds in *. clear cmds. rewrite Q1 in *. rewrite Pl in Q10. destruct ans; [|discriminate]. rewrite app_nil_r in Q9.
  pose proof (established_start fl (pw_cipher p) sc wire e Fl) as At.
  destruct (reader_gets _ _ _ _ _ _ _ _ _ k Q4 Q3 Hh W At C) as (Fok & qs & r' & R1 & _ & R3 & R4).
  - intros Ho. specialize (Hr Ho). unfold len in Hr. lia.
  - rewrite established_flavor. apply (proj1 (Forall_map fst (fun pl => readable fl (seen pl)) rs)).
    rewrite Q5. apply Forall_map. exact Rd.
  - split.
    + rewrite <- Q9. apply (f_equal (@length _)) in Q5. rewrite !map_length in Q5. clear -Q5 Fok.
      revert rs Q5 Fok. induction handled as [|c h IH]; intros [|r rs] L Fk; try discriminate; [reflexivity|].
      inversion Fk; subst. cbn [map combine]. rewrite IH by (try assumption; now injection L). now f_equal; f_equal.
    + exists (packets bs), qs, r'. rewrite <- Q5. auto.
Qed.
Print Assumptions C57_abandoned_writes_are_sent.

(** The first caller gives up while its padding is being written; contrast with [C51_cancel_safe_refuted]. *)
Example C57_example :
  let s := @split_run (toy true) _ draws
    (split_new (PWriter toy_in (Writer [Accept 5; WPending; Accept 9; WPending] [FlushPending; FlushOk; FlushPending] []))
       (Shaper (Config Random Disabled) [2; 1]) [])
    [Ev (Send (Command 7 (genuine [x01]))); Ev (Poll false false); Abandon 7; Ev (Send (Command 8 (genuine [x02; x02])));
     Ev (Poll true true); Ev (Poll false true); Ev (Poll true true); Ev (Poll false true); Ev (Poll false true)] in
  sp_place s = AtSelect /\ answers (sp_task s) = [(7, Ok tt); (8, Ok tt)] /\
  match @read_many (toy true) 4 (RTokio (TReader toy_in (TokioReader [] 0 [Chunk (written (pw_writer (tk_writer (sp_task s))))])
          init_reading_length)) with
  | Ret (xs, _) => xs = map Ok [Decrypted (x80 :: zeros 3); Decrypted [x00; x01]; Decrypted (x80 :: zeros 2); Decrypted [x00; x02; x02]]
  | _ => False
  end.
Proof. vm_compute. repeat split. Qed.
