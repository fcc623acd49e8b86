(** * PropsShapedErrors: which errors a shaped session gives (C121) *)
From Coq Require Import List NArith Bool Lia.
From Coq.Strings Require Import Byte.
From Verif Require Import Base BaseFacts Env FsChacha Spec Cipher Histories CipherProofs Handshake SpecHandshake HsDriver
  HandshakeProofs HsRunProofs Transport Io SpecIo Futures Sessions Traffic TrafficIo TrafficFutures TrafficTask SpecTraffic
  Toy PropsCipher PropsHandshake PropsIo PropsTraffic SpecErrorLists PropsErrorLists.
Import ListNotations.
Local Open Scope N_scope.

(** What a write of the library can return. *)
Lemma sync_write_from p pl x p' {E : Env} : sync_write p pl = Ret (x, p') -> x = Ok tt \/ exists k, x = Err (from_io k).
Proof.
  unfold sync_write. intros H.
  apply bind_ret_inv in H. destruct H as (ct & _ & H). apply bind_ret_inv in H. destruct H as (t & _ & H).
  apply bind_ret_inv in H. destruct H as ([pb c] & _ & H). destruct (write_flush _ _ _) as [[[]|k] w]; injection H as <- _; eauto.
Qed.

Lemma poll_write_from f p x p' f' : poll_write f p = (Ready x, p', f') -> x = Ok tt \/ exists k, x = Err (from_io k).
Proof.
  unfold poll_write. intros H.
  assert (Fin : forall w, match flushes w with
      | FlushPending :: fs => (NotReady, PWriter (pw_cipher p) (Writer (w_script w) fs (written w)), Flushing)
      | _ => let '(x, w') := flush w in
             (Ready (match x with Ok _ => Ok tt | Err k => Err (from_io k) end), PWriter (pw_cipher p) w', Flushing)
      end = (Ready x, p', f') -> x = Ok tt \/ exists k, x = Err (from_io k)).
  { intros w Q. destruct (flushes w) as [|[]]; try discriminate; destruct (flush w) as [[[]|kk] w']; injection Q as <- _ _; eauto. }
  destruct f as [rest|].
  - destruct (poll_write_script _ _) as [[[y s] out] rest']. destruct y as [[[]|k]|].
    + now apply Fin in H.
    + injection H as <- _ _. eauto.
    + discriminate.
  - now apply Fin in H.
Qed.

Lemma begin_write_from {E : Env} p pl x p' : begin_write p pl = Ret (Done x, p') -> x = Ok tt \/ exists k, x = Err (from_io k).
Proof.
  unfold begin_write, start_write. intros H. apply bind_ret_inv in H. destruct H as ([[f|y] p1] & S & H).
  - unfold go_on in H. destruct (poll_write f p1) as [[[a|] p2] f2] eqn:P; [|discriminate].
    assert (a = x) as -> by congruence. eapply poll_write_from; eassumption.
  - exfalso. apply bind_ret_inv in S. destruct S as (ct & _ & S). apply bind_ret_inv in S. destruct S as (t & _ & S). cbn zeta in S.
    apply bind_ret_inv in S. destruct S as ([[[[]|z] c] pb] & Q & S); [discriminate|].
    apply encrypt_error in Q. destruct Q as [_ Q]. rewrite len_zeros in Q. lia.
Qed.

Section Shaped.
Context {E : Env} {G : Type} {R : Rng G}.

(** A success, or an error of the transport with the suggestion that belongs to its kind.  protocol io.rs:185-203. *)
Definition transported (x : result perror unit) : Prop := x = Ok tt \/ exists k, x = Err (from_io k).

Lemma returned_move (s : @shared G) m s' : Forall (fun r => transported (snd r)) (returned s) -> do_move s m = Some s' ->
  Forall (fun r => transported (snd r)) (returned s').
Proof.
  intros F H.
  assert (Add : forall pl x, transported x -> Forall (fun r : payload * result perror unit => transported (snd r)) (returned s ++ [(pl, x)])).
  { intros. apply Forall_app. split; [assumption|]. constructor; [assumption|constructor]. }
  destruct m; cbn [do_move] in H.
  - destruct (app_at s); try discriminate. injection H as <-. exact F.
  - destruct (app_at s); try discriminate; injection H as <-; exact F.
  - unfold app_step in H. destruct (app_at s) as [|pl|pl|dd pl|pl| | |]; try discriminate.
    + destruct (lock s); try discriminate. destruct (poisoned s); injection H as <-; exact F.
    + injection H as <-. destruct (shaper_pad (st_shaper s) pl) as [[[[dd|] sh] recs]| |]; exact F.
    + injection H as <-. destruct (sync_write (st_writer s) dd) as [[[[]|y] w]| |] eqn:W; try exact F.
      cbn. apply Add. eapply sync_write_from; eassumption.
    + injection H as <-. destruct (sync_write (st_writer s) pl) as [[x w]| |] eqn:W; try exact F.
      cbn. apply Add. eapply sync_write_from; eassumption.
    + destruct (thread_at s); try discriminate; injection H as <-; exact F.
  - unfold thread_step in H. destruct (thread_at s) as [| | | |dd| |]; try discriminate; injection H as <-.
    + exact F.
    + exact F.
    + destruct (lock s); [destruct (poisoned s)| |]; exact F.
    + destruct (shaper_decoy (st_shaper s)) as [[[dd|] sh] recs]; exact F.
    + destruct (sync_write (st_writer s) dd) as [[x w]| |]; exact F.
Qed.

Lemma returned_play : forall ms (s s' : @shared G), Forall (fun r => transported (snd r)) (returned s) -> play s ms = Some s' ->
  Forall (fun r => transported (snd r)) (returned s').
Proof.
  induction ms as [|m ms IH]; intros s s' F H; cbn [play] in H; [now injection H as <-|].
  destruct (do_move s m) as [s1|] eqn:M; [|discriminate]. eapply IH; [|exact H]. eapply returned_move; eassumption.
Qed.

(** So are all answers of the task.  traffic futures.rs:218-237. *)
Definition answered (s : @split_task G) : Prop := Forall (fun r => transported (snd r)) (answers (sp_task s)).

Lemma payload_wrote_answered (t : @task G) cmd r :
  Forall (fun r => transported (snd r)) (answers t) -> (forall x w, r = (Done x, w) -> transported x) ->
  answered (payload_wrote t cmd r).
Proof.
  intros F H. destruct r as [[f|x] w]; unfold answered; cbn; [exact F|].
  apply Forall_app. split; [exact F|]. constructor; [|constructor]. cbn. now apply (H x w).
Qed.

Lemma write_payload_answered (t : @task G) cmd :
  Forall (fun r => transported (snd r)) (answers t) -> answered (write_payload t cmd).
Proof.
  intros F. unfold write_payload. destruct (begin_write (tk_writer t) (cmd_payload cmd)) as [r| |] eqn:B; try exact F.
  apply payload_wrote_answered; [exact F|]. intros x w ->. eapply begin_write_from; eassumption.
Qed.

Lemma pad_wrote_answered (t : @task G) cmd r :
  Forall (fun r => transported (snd r)) (answers t) -> (forall x w, r = (Done x, w) -> transported x) ->
  answered (pad_wrote t cmd r).
Proof.
  intros F H. destruct r as [[f|[[]|e]] w]; unfold pad_wrote; [exact F|now apply write_payload_answered|].
  unfold answered. cbn. apply Forall_app. split; [exact F|]. constructor; [|constructor]. cbn. now apply (H (Err e) w).
Qed.

Lemma decoy_wrote_answered (t : @task G) r : Forall (fun r => transported (snd r)) (answers t) -> answered (decoy_wrote t r).
Proof.
  intros F. destruct r as [[f|x] w]; unfold answered; cbn; [exact F|]. now rewrite app_nil_r.
Qed.

Lemma go_on_from f p x w : go_on f p = (Done x, w) -> transported x.
Proof.
  unfold go_on. destruct (poll_write f p) as [[[a|] p2] f2] eqn:P; [|discriminate].
  intros H. assert (a = x) as -> by congruence. eapply poll_write_from; eassumption.
Qed.

Lemma answered_poll order el (s : @split_task G) : answered s -> answered (split_poll order el s).
Proof.
  intros F. unfold split_poll. destruct (running (sp_task s)); [|exact F]. destruct (sp_place s).
  - destruct (select _ _ _) as [[|n]| |d].
    + destruct (queue (sp_task s)) as [|cmd q]; [exact F|]. unfold split_handle.
      destruct (shaper_pad _ _) as [[[d sh] recs]| |]; try exact F. cbn zeta.
      destruct d as [d|]; [|now apply write_payload_answered]. cbn [tk_writer].
      destruct (begin_write (tk_writer (sp_task s)) d) as [r| |] eqn:B; try exact F.
      apply pad_wrote_answered; [exact F|]. intros x w ->. eapply begin_write_from; eassumption.
    + unfold split_tick. destruct (shaper_decoy _) as [[d sh] recs]. cbn zeta. destruct d as [d|].
      * cbn [tk_writer]. destruct (begin_write (tk_writer (sp_task s)) d) as [r| |]; try exact F. now apply decoy_wrote_answered.
      * unfold answered. cbn. now rewrite app_nil_r.
    + exact F.
    + exact F.
  - apply pad_wrote_answered; [exact F|]. intros. eapply go_on_from; eassumption.
  - apply payload_wrote_answered; [exact F|]. intros. eapply go_on_from; eassumption.
  - now apply decoy_wrote_answered.
Qed.

Lemma answered_run : forall es (s : @split_task G), answered s -> answered (split_run s es).
Proof.
  induction es as [|e es IH]; intros s F; [exact F|]. apply IH. destruct e as [[c| |o el|]|id]; cbn [split_step].
  - unfold answered. cbn. destruct (_ && _); exact F.
  - exact F.
  - now apply answered_poll.
  - unfold answered. cbn. destruct (running (sp_task s)); exact F.
  - exact F.
Qed.

End Shaped.

(** ** C121 *)

(** A blocking shaped write fails with an error of the transport only, and the suggestion that belongs to it; whoever moves
    when, and whether padding or payload failed. *)
Theorem C121_blocking : forall (E : Env) (G : Type) (R : Rng G) w sh recs ms s pl x,
  play (@shared_new G w sh recs) ms = Some s -> In (pl, Err x) (returned s) -> exists k, x = from_io k.
Proof.
  intros E G R w sh recs ms s pl x H I. assert (Forall (fun r => transported (snd r)) (returned s)) as F.
  { eapply returned_play; [|exact H]. constructor. }
  rewrite Forall_forall in F. destruct (F _ I) as [Q|(k & Q)]; cbn in Q; [discriminate|]. exists k. congruence.
Qed.
Print Assumptions C121_blocking.

(** An asynchronous one also with the end of the task, and then with a suggestion that this kind of error has nowhere else. *)
Theorem C121_task : forall (E : Env) (G : Type) (R : Rng G) w sh recs es id x,
  answer_to (sp_task (split_run (@split_new G w sh recs) es)) id = Some (Err x) ->
  (exists k, x = from_io k) \/
  (x = Io UnexpectedEof Abort /\ running (sp_task (split_run (@split_new G w sh recs) es)) = false /\
   ~ In id (map fst (answers (sp_task (split_run (@split_new G w sh recs) es))))).
Proof.
  intros E G R w sh recs es id x H. set (s := split_run (split_new w sh recs) es) in *.
  assert (answered s) as F by (apply answered_run; constructor).
  unfold answer_to in H. destruct (find (fun a => fst a =? id) (answers (sp_task s))) as [[i y]|] eqn:Q.
  - left. apply find_some in Q. destruct Q as [I _]. unfold answered in F. rewrite Forall_forall in F.
    destruct (F _ I) as [Q|(k & Q)]; cbn in Q; [congruence|]. exists k. congruence.
  - right. destruct (running (sp_task s)); [discriminate|]. split; [unfold gone in H; congruence|]. split; [reflexivity|].
    intros I. apply in_map_iff in I. destruct I as ([i y] & <- & I).
    pose proof (find_none _ _ Q _ I) as K. cbn in K. rewrite N.eqb_refl in K. discriminate.
Qed.
Print Assumptions C121_task.

(** And always then. *)
Theorem C121_task_gone : forall (G : Type) (t : @task G) id,
  running t = false -> ~ In id (map fst (answers t)) -> answer_to t id = Some (Err (Io UnexpectedEof Abort)).
Proof.
  intros G t id Rn I. unfold answer_to. destruct (find (fun a => fst a =? id) (answers t)) as [[i y]|] eqn:Q; [|now rewrite Rn].
  exfalso. apply find_some in Q. destruct Q as [Q K]. cbn in K. apply N.eqb_eq in K. subst i. apply I.
  apply in_map_iff. exists (id, y). auto.
Qed.
Print Assumptions C121_task_gone.

(** The kinds of errors a shaped endpoint's handshake can give: those of the plain one, without [TooMuchGarbage].
    traffic io.rs:110-150, futures.rs:108-139. *)
Definition connecting : list kind := [KIo; KSecretGeneration; KV1Protocol; KNoGarbageTerminator; KPacketTooBig; KDecryption].

Theorem C121_connect : forall (E : Env) (EL : EnvLaws E) (G : Type) (R : Rng G) (RL : RngLaws G R) fl magic r sk c (g : G) s w x,
  len magic = 4 -> shaped_connect fl magic r sk c g s w = Ret (Err x) -> In (pkind_of x) connecting.
Proof.
  intros E EL G R RL fl magic r sk c g s w x Hm H. unfold shaped_connect in H.
  assert (Fin : forall fl ga da sh recs o, shaper_handshake (Shaper c g) = (ga, da, sh, recs) ->
            io_handshake fl magic r sk ga da s w = Ret o -> ho_result o = Err x -> In (pkind_of x) connecting).
  { intros fl' ga da sh recs o HS H1 H2. apply C41_handshake in HS; [|assumption]. destruct HS as [L _].
    destruct (handshake_kinds _ _ _ _ _ _ _ _ _ _ Hm H1 H2) as [Q|[_ Q]]; [exact Q|lia]. }
  destruct fl.
  - apply bind_ret_inv in H. destruct H as ([[rd st]|y] & N & H); [discriminate|]. assert (y = x) as -> by congruence.
    unfold shaped_new in N. destruct (shaper_handshake (Shaper c g)) as [[[ga da] sh] recs] eqn:HS.
    apply bind_ret_inv in N. destruct N as ([p|y] & P & N); [destruct (protocol_split p); discriminate|].
    assert (y = x) as -> by congruence. unfold protocol_new in P. apply bind_ret_inv in P. destruct P as (o & H1 & P).
    destruct (ho_result o) as [[[i oc] sr]|y] eqn:H2; [discriminate|]. assert (y = x) as -> by congruence. eapply Fin; eauto.
  - apply bind_ret_inv in H. destruct H as ([[rd st]|y] & N & H); [discriminate|]. assert (y = x) as -> by congruence.
    unfold tokio_shaped_new in N. destruct (shaper_handshake (Shaper c g)) as [[[ga da] sh] recs] eqn:HS.
    apply bind_ret_inv in N. destruct N as ([p|y] & P & N); [discriminate|].
    assert (y = x) as -> by congruence. unfold tokio_protocol_new in P. apply bind_ret_inv in P. destruct P as (o & H1 & P).
    destruct (ho_result o) as [[[i oc] sr]|y] eqn:H2; [discriminate|]. assert (y = x) as -> by congruence. eapply Fin; eauto.
Qed.
Print Assumptions C121_connect.

(** What the responder of the examples answers to an initiator without garbage: 64 bytes of key, 40 of garbage and 16 of
    terminator before the version packet. *)
Definition plain_wire : bytes := Eval vm_compute in
  match wires (E := toy true) None (Some (repeat x2b 40)) None None [] [] with Some (_, b) => b | None => [] end.

(** Each of them occurs. *)
Theorem C121_connect_all : forall fl k, In k connecting ->
  exists sk s x, @shaped_connect (toy true) _ draws fl mainnet Initiator sk config_new [] s fresh = Ret (Err x) /\ pkind_of x = k.
Proof.
  intros fl k H. cbn [connecting In] in H.
  repeat match goal with H : _ \/ _ |- _ => destruct H as [<-|H] | H : False |- _ => destruct H end.
  - exists ska, []. destruct fl; eexists; (split; [vm_compute; reflexivity|reflexivity]).
  - exists (zeros 31), []. destruct fl; eexists; (split; [vm_compute; reflexivity|reflexivity]).
  - exists ska, [Chunk (mainnet ++ zeros 60)]. destruct fl; eexists; (split; [vm_compute; reflexivity|reflexivity]).
  - exists ska, [Chunk (take 64 plain_wire ++ zeros 4111)]. destruct fl; eexists; (split; [vm_compute; reflexivity|reflexivity]).
  - exists ska, [Chunk (take 120 plain_wire ++ [x00; xff; xff] ++ zeros 30)]. destruct fl; eexists; (split; [vm_compute; reflexivity|reflexivity]).
  - exists ska, [Chunk (take 123 plain_wire ++ zeros 40)]. destruct fl; eexists; (split; [vm_compute; reflexivity|reflexivity]).
Qed.
Print Assumptions C121_connect_all.

(** The suggestion of an error is not a function of its kind: a write whose task is gone and one whose transport reports the
    same kind tell the caller to abort and to retry. *)
Theorem C121_suggestion_by_kind_refuted :
  ~ forall (E : Env) (EL : EnvLaws E) (G : Type) (R : Rng G) (RL : RngLaws G R) w1 w2 sh recs es1 es2 id1 id2 k s1 s2,
      answer_to (sp_task (split_run (@split_new G w1 sh recs) es1)) id1 = Some (Err (Io k s1)) ->
      answer_to (sp_task (split_run (@split_new G w2 sh recs) es2)) id2 = Some (Err (Io k s2)) -> s1 = s2.
Proof.
  intros H.
  assert (RetryV1 = Abort) as Q; [|discriminate].
  apply (H (toy true) (toy_laws true) (list N) draws draws_laws (PWriter toy_in (Writer [WFail UnexpectedEof] [] [])) (PWriter toy_in fresh)
    (Shaper config_new []) [] [Ev (Send (Command 7 (Decrypted [x00; x01]))); Ev (Poll false false)]
    [Ev (Send (Command 7 (Decrypted [x00; x01]))); Ev Kill] 7 7 UnexpectedEof); vm_compute; reflexivity.
Qed.
Print Assumptions C121_suggestion_by_kind_refuted.

(** A payload whose padding fails, in both drivers, and a call after the end of the task. *)
Example C121_example :
  let p := PWriter toy_in (Writer [WFail (OtherKind 32)] [] []) in
  let pl := Decrypted [x00; x01] in
  match @play (toy true) _ draws (shared_new p (Shaper all_random [1; 5]) []) [CallWrite pl; App; App; App] with
  | Some s => returned s = [(pl, Err (Io (OtherKind 32) Abort))]
  | None => False
  end /\
  let run es := sp_task (@split_run (toy true) _ draws (split_new p (Shaper all_random [1; 5]) []) es) in
  answer_to (run [Ev (Send (Command 1 pl)); Ev (Poll false false)]) 1 = Some (Err (Io (OtherKind 32) Abort)) /\
  answer_to (run [Ev Kill; Ev (Send (Command 1 pl))]) 1 = Some (Err (Io UnexpectedEof Abort)) /\
  answer_to (run [Ev (Send (Command 1 pl))]) 1 = None.
Proof. vm_compute. repeat split. Qed.
