(** * TrafficTaskProofs: the writer task suspended inside its branches behaves like the one that is not *)
From Coq Require Import List NArith Bool Lia ZifyBool ZifyN.
From Coq.Strings Require Import Byte.
From Verif Require Import Base BaseFacts Env FsChacha Cipher CipherFacts Histories CipherProofs Handshake
  Transport Io Futures SpecIo Sessions TransportProofs SessionProofs EndpointProofs
  Traffic TrafficIo TrafficFutures SpecTraffic TrafficProofs TrafficIoProofs TrafficFuturesProofs TrafficTask SpecTask.
Import ListNotations.
Local Open Scope N_scope.

Section Split.
Context {E : Env} {EL : EnvLaws E} {G : Type} {R : Rng G} {RL : RngLaws G R}.

Implicit Types t : @task G.
Implicit Types s : @split_task G.

Lemma go_on_finish f p :
  match go_on f p with
  | (Done x, p') => finish_write f p = (x, p')
  | (Blocked f', p') =>
    finish_write f p = finish_write f' p' /\ (hold_ups (pw_writer p') < hold_ups (pw_writer p))%nat
  end.
Proof. unfold go_on. pose proof (poll_write_finish f p) as Q. destruct (poll_write f p) as [[[x|] p'] f']; exact Q. Qed.

Lemma begin_write_finish p pl :
  match begin_write p pl with
  | Ret (Done x, p') => tokio_write p pl = Ret (x, p')
  | Ret (Blocked f, p') =>
    tokio_write p pl = Ret (finish_write f p') /\
    (hold_ups (pw_writer p') < hold_ups (pw_writer p))%nat
  | Panic => tokio_write p pl = Panic
  | NoFuel => tokio_write p pl = NoFuel
  end.
Proof.
  unfold begin_write, start_write, tokio_write.
  destruct (payload_contents pl) as [ct| |]; [|reflexivity..]. cbn [bind].
  destruct (payload_type pl) as [ty| |]; [|reflexivity..]. cbn [bind]. cbn zeta.
  destruct (encrypt _ _ _ _ _) as [[[[u|e] c] pb]| |]; [|reflexivity..]. cbn [bind].
  pose proof (go_on_finish (Writing pb) (PWriter c (pw_writer p))) as Q.
  destruct (go_on (Writing pb) (PWriter c (pw_writer p))) as [[f|x] p'].
  - destruct Q as [Q1 Q2]. split; [|assumption]. rewrite <- Q1. unfold finish_write. cbn [pw_writer pw_cipher].
    destruct (write_flush Tokio (pw_writer p) pb) as [y w]. reflexivity.
  - unfold finish_write in Q. cbn [pw_writer pw_cipher] in Q.
    destruct (write_flush Tokio (pw_writer p) pb) as [y w]. injection Q as <- <-. reflexivity.
Qed.

Lemma finish_write_grows f p x p' : finish_write f p = (x, p') ->
  exists rest, written (pw_writer p') = written (pw_writer p) ++ rest.
Proof.
  pose proof flush_written as Fl.
  unfold finish_write, write_flush, write_all. destruct f as [rest|].
  - destruct (write_script Tokio _ rest) as [[[u|k] s] out].
    + destruct (flush _) as [y w] eqn:F. apply Fl in F. cbn [written] in F.
      intros Q; injection Q as <- <-. cbn [pw_writer]. eauto.
    + intros Q; injection Q as <- <-. cbn [pw_writer written]. eauto.
  - destruct (flush _) as [y w] eqn:F. apply Fl in F.
    intros Q; injection Q as <- <-. cbn [pw_writer]. exists []. now rewrite app_nil_r.
Qed.

Lemma finish_write_script f p x p' : finish_write f p = (x, p') ->
  (hold_ups (pw_writer p') <= hold_ups (pw_writer p))%nat.
Proof.
  assert (Fl : forall w x w', flush w = (x, w') -> (hold_ups w' <= hold_ups w)%nat).
  { intros w y w' F. unfold flush in F. destruct (flush_script (flushes w)) as [r fs] eqn:Q. apply flush_script_len in Q.
    injection F as <- <-. unfold hold_ups. cbn [w_script flushes]. lia. }
  assert (Ws : forall (s : list wev) bs x (s' : list wev) out, write_script Tokio s bs = (x, s', out) -> (length s' <= length s)%nat).
  { induction s as [|ev s IH]; intros bs y s' out; destruct bs as [|b bs]; cbn [write_script];
      try (intros Q; injection Q as <- <- <-; lia).
    destruct ev as [n|k|].
    - destruct (n =? 0); [intros Q; injection Q as <- <- <-; cbn [length]; lia|].
      destruct (len (b :: bs) <=? n); [intros Q; injection Q as <- <- <-; cbn [length]; lia|].
      destruct (write_script Tokio s _) as [[z s2] o2] eqn:W. apply IH in W.
      intros Q; injection Q as <- <- <-. cbn [length]. lia.
    - intros Q; injection Q as <- <- <-. cbn [length]. lia.
    - intros Q. apply IH in Q. cbn [length]. lia. }
  unfold finish_write, write_flush, write_all. destruct f as [rest|].
  - destruct (write_script Tokio _ rest) as [[[u|k] s] out] eqn:W; apply Ws in W.
    + destruct (flush _) as [y w] eqn:F. apply Fl in F. unfold hold_ups in *. cbn [w_script flushes] in F.
      intros Q; injection Q as <- <-. cbn [pw_writer]. lia.
    + intros Q; injection Q as <- <-. unfold hold_ups. cbn [pw_writer w_script flushes]. lia.
  - destruct (flush _) as [y w] eqn:F. apply Fl in F.
    intros Q; injection Q as <- <-. cbn [pw_writer]. exact F.
Qed.

Lemma tokio_write_grows p pl x p' : tokio_write p pl = Ret (x, p') ->
  exists rest, written (pw_writer p') = written (pw_writer p) ++ rest.
Proof.
  intros H. pose proof (begin_write_finish p pl) as Q. unfold begin_write in Q.
  unfold tokio_write in H.
  apply bind_ret_inv in H. destruct H as (ct & _ & H).
  apply bind_ret_inv in H. destruct H as (t & _ & H). cbn zeta in H.
  apply bind_ret_inv in H. destruct H as ([[y c] pb] & _ & H).
  destruct y as [u|e]; [|injection H as <- <-; exists []; now rewrite app_nil_r].
  apply (finish_write_grows (Writing pb) (PWriter c (pw_writer p)) x p').
  unfold finish_write. cbn [pw_writer pw_cipher]. destruct (write_flush _ _ _) as [z w]. injection H as <- <-. reflexivity.
Qed.

(** The branch in which the task is suspended, run to its end. *)
Definition finish s : task :=
  let t := sp_task s in
  match sp_place s with
  | AtSelect => t
  | InDecoy f => let '(_, w) := finish_write f (tk_writer t) in turn t w (tk_shaper t) (queue t) [] []
  | InPayload f c =>
    let '(x, w) := finish_write f (tk_writer t) in turn t w (tk_shaper t) (queue t) [] [(cmd_id c, x)]
  | InPad f c =>
    match finish_write f (tk_writer t) with
    | (Err e, w) => turn t w (tk_shaper t) (queue t) [] [(cmd_id c, Err e)]
    | (Ok _, w) =>
      match tokio_write w (cmd_payload c) with
      | Ret (x, w) => turn t w (tk_shaper t) (queue t) [] [(cmd_id c, x)]
      | _ => stop t w
      end
    end
  end.

Lemma finish_branch_end t w ans : finish (branch_end t w ans) = turn t w (tk_shaper t) (queue t) [] ans.
Proof. reflexivity. Qed.

(** A write begun or gone on with ends like the rest of the branch. *)
Lemma payload_wrote_finish t c f p :
  finish (payload_wrote t c (go_on f p)) =
  (let '(x, w) := finish_write f p in turn t w (tk_shaper t) (queue t) [] [(cmd_id c, x)]).
Proof.
  pose proof (go_on_finish f p) as Q. destruct (go_on f p) as [[f'|x] p']; cbn [payload_wrote].
  - destruct Q as [-> _]. unfold finish. cbn [sp_task sp_place with_writer tk_writer].
    destruct (finish_write f' p') as [x w]. reflexivity.
  - now rewrite Q.
Qed.

Lemma write_payload_finish t c x w :
  tokio_write (tk_writer t) (cmd_payload c) = Ret (x, w) ->
  finish (write_payload t c) = turn t w (tk_shaper t) (queue t) [] [(cmd_id c, x)].
Proof.
  intros H. unfold write_payload. pose proof (begin_write_finish (tk_writer t) (cmd_payload c)) as Q. rewrite H in Q.
  destruct (begin_write _ _) as [[[f|y] p']| |]; try discriminate.
  - destruct Q as [Q _]. injection Q as Q. cbn [payload_wrote]. unfold finish. cbn [sp_task sp_place with_writer tk_writer].
    rewrite <- Q. reflexivity.
  - injection Q as <- <-. reflexivity.
Qed.

Lemma pad_wrote_finish t c f p :
  running (finish (SplitTask (with_writer t p) (InPad f c))) = true ->
  finish (pad_wrote t c (go_on f p)) = finish (SplitTask (with_writer t p) (InPad f c)).
Proof.
  pose proof (go_on_finish f p) as Q. destruct (go_on f p) as [[f'|x] p']; cbn [pad_wrote].
  - destruct Q as [Q _]. unfold finish. cbn [sp_task sp_place with_writer tk_writer]. rewrite Q.
    intros _. destruct (finish_write f' p') as [[u|e] w]; [|reflexivity].
    destruct (tokio_write w (cmd_payload c)) as [[y v]| |]; reflexivity.
  - unfold finish at 1 3. cbn [sp_task sp_place with_writer tk_writer]. rewrite Q.
    destruct x as [u|e]; [|reflexivity].
    destruct (tokio_write p' (cmd_payload c)) as [[y v]| |] eqn:W; intros Ru; [|discriminate..].
    apply (write_payload_finish (with_writer t p') c y v W).
Qed.

Lemma decoy_wrote_finish t f p :
  finish (decoy_wrote t (go_on f p)) =
  (let '(_, w) := finish_write f p in turn t w (tk_shaper t) (queue t) [] []).
Proof.
  pose proof (go_on_finish f p) as Q. destruct (go_on f p) as [[f'|x] p']; cbn [decoy_wrote].
  - destruct Q as [-> _]. unfold finish. cbn [sp_task sp_place with_writer tk_writer].
    destruct (finish_write f' p') as [x w]. reflexivity.
  - now rewrite Q.
Qed.

Lemma turn_app t w sh q recs ans :
  turn (Task (tk_writer t) sh q (senders t) (sel t) (running t) (tk_records t ++ recs) (answers t)) w sh q [] ans =
  turn t w sh q recs ans.
Proof. unfold turn. cbn [senders tk_records answers]. now rewrite app_nil_r. Qed.

Lemma handle_finish t c q : running (handle t c q) = true -> finish (split_handle t c q) = handle t c q.
Proof.
  unfold handle, split_handle. destruct (shaper_pad _ _) as [[[d sh] recs]| |]; [|discriminate..].
  set (t' := Task (tk_writer t) sh q (senders t) (sel t) (running t) (tk_records t ++ recs) (answers t)).
  assert (T : forall w ans, turn t' w (tk_shaper t') (queue t') [] ans = turn t w sh q recs ans) by (intros; apply turn_app).
  assert (T' : forall w w' ans, turn (with_writer t' w') w sh q [] ans = turn t w sh q recs ans).
  { intros. unfold turn, with_writer, t'. cbn [senders tk_records answers]. now rewrite app_nil_r. }
  destruct d as [d|].
  - pose proof (begin_write_finish (tk_writer t') d) as Q. change (tk_writer t) with (tk_writer t').
    destruct (begin_write (tk_writer t') d) as [[[f|x] p']| |].
    + destruct Q as [Q _]. rewrite Q. cbn [pad_wrote]. unfold finish. cbn [sp_task sp_place with_writer tk_writer].
      destruct (finish_write f p') as [[u|e] w]; [|intros _; apply T'].
      destruct (tokio_write w (cmd_payload c)) as [[y v]| |]; intros Ru; [|discriminate..]. apply T'.
    + rewrite Q. cbn [pad_wrote]. destruct x as [u|e].
      * destruct (tokio_write p' (cmd_payload c)) as [[y v]| |] eqn:W; intros Ru; [|discriminate..].
        rewrite (write_payload_finish (with_writer t' p') c y v W). apply T'.
      * intros _. rewrite finish_branch_end. apply T.
    + rewrite Q. discriminate.
    + rewrite Q. discriminate.
  - change (tk_writer t) with (tk_writer t').
    destruct (tokio_write (tk_writer t') (cmd_payload c)) as [[y v]| |] eqn:W; intros Ru; [|discriminate..].
    rewrite (write_payload_finish t' c y v W). apply T.
Qed.

Lemma tick_finish t : running (tick t) = true -> finish (split_tick t) = tick t.
Proof.
  unfold tick, split_tick. destruct (shaper_decoy _) as [[d sh] recs].
  set (t' := Task (tk_writer t) sh (queue t) (senders t) (sel t) (running t) (tk_records t ++ recs) (answers t)).
  assert (T : forall w ans, turn t' w (tk_shaper t') (queue t') [] ans = turn t w sh (queue t) recs ans) by (intros; apply turn_app).
  assert (T' : forall w w' ans, turn (with_writer t' w') w sh (queue t) [] ans = turn t w sh (queue t) recs ans).
  { intros. unfold turn, with_writer, t'. cbn [senders tk_records answers]. now rewrite app_nil_r. }
  destruct d as [d|].
  - pose proof (begin_write_finish (tk_writer t') d) as Q. change (tk_writer t) with (tk_writer t').
    destruct (begin_write (tk_writer t') d) as [[[f|x] p']| |].
    + destruct Q as [Q _]. rewrite Q. cbn [decoy_wrote]. unfold finish. cbn [sp_task sp_place with_writer tk_writer].
      destruct (finish_write f p') as [u w]. intros _. apply T'.
    + rewrite Q. cbn [decoy_wrote]. intros _. rewrite finish_branch_end. apply T.
    + rewrite Q. discriminate.
    + rewrite Q. discriminate.
  - intros _. rewrite finish_branch_end. apply T.
Qed.

(** A poll at the [select!]. *)
Lemma poll_at_select order el s :
  sp_place s = AtSelect -> running (poll_task order el (sp_task s)) = true ->
  finish (split_poll order el s) = poll_task order el (sp_task s).
Proof.
  destruct s as [t pl]. cbn [sp_place sp_task]. intros -> Ru. unfold split_poll, poll_task in *. cbn [sp_task sp_place].
  destruct (running t); [|reflexivity].
  destruct (select _ _ _) as [[|i]| |d]; try reflexivity.
  - destruct (queue t) as [|c q]; [reflexivity|]. now apply handle_finish.
  - now apply tick_finish.
Qed.

(** A poll inside a branch. *)
Lemma poll_in_branch order el s :
  sp_place s <> AtSelect -> running (finish s) = true -> finish (split_poll order el s) = finish s.
Proof.
  destruct s as [t pl]. cbn [sp_place]. intros Hp Ru. unfold split_poll. cbn [sp_place sp_task].
  destruct (running t); [|reflexivity].
  assert (W : forall pl, SplitTask t pl = SplitTask (with_writer t (tk_writer t)) pl) by (intros; now destruct t).
  destruct pl as [|f c|f c|f]; [contradiction|..].
  - rewrite W in *. rewrite <- pad_wrote_finish by assumption. reflexivity.
  - rewrite payload_wrote_finish. reflexivity.
  - rewrite decoy_wrote_finish. reflexivity.
Qed.

Lemma running_finish_poll order el s :
  running (sp_task s) = true -> running (finish (split_poll order el s)) = true ->
  running (sp_task (split_poll order el s)) = true.
Proof.
  destruct s as [t pl]. cbn [sp_task]. intros Ru.
  assert (P : forall t r c, running t = true -> running (finish (payload_wrote t c r)) = true -> running (sp_task (payload_wrote t c r)) = true).
  { intros t' [[f|x] w] c Ht H; cbn [payload_wrote sp_task with_writer running] in *; [assumption|reflexivity]. }
  assert (WP : forall t c, running t = true -> running (finish (write_payload t c)) = true -> running (sp_task (write_payload t c)) = true).
  { intros t' c Ht. unfold write_payload. destruct (begin_write _ _) as [r| |]; [now apply P|discriminate..]. }
  assert (PW : forall t r c, running t = true -> running (finish (pad_wrote t c r)) = true -> running (sp_task (pad_wrote t c r)) = true).
  { intros t' [[f|[u|e]] w] c Ht H; cbn [pad_wrote] in *; [assumption| |reflexivity]. now apply WP. }
  assert (D : forall t r, running t = true -> running (finish (decoy_wrote t r)) = true -> running (sp_task (decoy_wrote t r)) = true).
  { intros t' [[f|x] w] Ht H; cbn [decoy_wrote sp_task with_writer running] in *; [assumption|reflexivity]. }
  unfold split_poll. cbn [sp_task sp_place]. rewrite Ru. destruct pl as [|f c|f c|f]; [|auto..].
  destruct (select _ _ _) as [[|i]| |d]; [| |discriminate|reflexivity].
  - destruct (queue t) as [|c q]; [intros; assumption|]. unfold split_handle.
    destruct (shaper_pad _ _) as [[[d sh] recs]| |]; [|discriminate..].
    destruct d as [d|]; [|now apply WP].
    destruct (begin_write _ _) as [r| |]; [now apply PW|discriminate..].
  - unfold split_tick. destruct (shaper_decoy _) as [[d sh] recs].
    destruct d as [d|]; [|reflexivity].
    destruct (begin_write _ _) as [r| |]; [now apply D|discriminate..].
Qed.

(** Other events. *)
Lemma finish_send s c :
  running (sp_task s) = true -> running (finish s) = true ->
  finish (SplitTask (task_step (sp_task s) (Send c)) (sp_place s)) = task_step (finish s) (Send c) /\
  running (task_step (sp_task s) (Send c)) = true.
Proof.
  destruct s as [t pl]. cbn [sp_task sp_place task_step]. intros Ru Rf. rewrite Ru, Rf, !andb_true_r.
  split; [|destruct (senders t); [reflexivity|assumption]].
  unfold finish in *. cbn [sp_task sp_place] in *.
  destruct pl as [|f k|f k|f]; [reflexivity|..].
  - destruct (finish_write f (tk_writer t)) as [[u|e] w] eqn:F.
    + destruct (tokio_write w (cmd_payload k)) as [[x v]| |] eqn:W; [|discriminate..].
      cbn [turn senders]. destruct (senders t) eqn:Sn; cbn [tk_writer]; rewrite F, W; unfold turn; now rewrite ?Sn.
    + cbn [turn senders]. destruct (senders t) eqn:Sn; cbn [tk_writer]; rewrite F; unfold turn; now rewrite ?Sn.
  - destruct (finish_write f (tk_writer t)) as [x w] eqn:F.
    cbn [turn senders]. destruct (senders t) eqn:Sn; cbn [tk_writer]; rewrite F; unfold turn; now rewrite ?Sn.
  - destruct (finish_write f (tk_writer t)) as [x w] eqn:F.
    cbn [turn senders]. destruct (senders t) eqn:Sn; cbn [tk_writer]; rewrite F; unfold turn; now rewrite ?Sn.
Qed.

Lemma finish_drop_senders s :
  running (sp_task s) = true -> running (finish s) = true ->
  finish (SplitTask (task_step (sp_task s) DropSenders) (sp_place s)) = task_step (finish s) DropSenders /\
  running (task_step (sp_task s) DropSenders) = true.
Proof.
  destruct s as [t pl]. cbn [sp_task sp_place task_step]. intros Ru Rf. split; [|assumption].
  unfold finish in *. cbn [sp_task sp_place tk_writer] in *.
  destruct pl as [|f k|f k|f]; [reflexivity|..]; destruct (finish_write f (tk_writer t)) as [[u|e] w]; try reflexivity.
  destruct (tokio_write w (cmd_payload k)) as [[x v]| |]; [reflexivity|discriminate..].
Qed.

(** ** Refinement *)

Lemma events_of_app es1 es2 : events_of (es1 ++ es2) = events_of es1 ++ events_of es2.
Proof. apply flat_map_app. Qed.

Lemma split_run_app s es1 es2 : split_run s (es1 ++ es2) = split_run (split_run s es1) es2.
Proof. apply fold_left_app. Qed.

Lemma task_run_app t es1 es2 : task_run t (es1 ++ es2) = task_run (task_run t es1) es2.
Proof. apply fold_left_app. Qed.

Theorem split_refines p sh recs k : counted k (pw_cipher p) -> forall es,
  (overflow_checks = true -> k + 2 * len es < 2 ^ 32) ->
  Forall event_sound (events_of es) -> alive (events_of es) ->
  let s := split_run (split_new p sh recs) es in
  running (sp_task s) = true /\
  exists es', alive es' /\ Forall event_sound es' /\ (length es' <= length es)%nat /\
    accepted es' = accepted (events_of es) /\ is_open es' = is_open (events_of es) /\
    task_run (task_new p sh recs) es' = finish s.
Proof.
  intros H. induction es as [|e es IH] using List.rev_ind; intros Hr F A s; subst s.
  { split; [reflexivity|]. exists []. cbn. repeat split; auto. }
  rewrite events_of_app in F, A. rewrite len_app in Hr. change (len [e]) with 1 in Hr.
  apply Forall_app in F. destruct F as [F Fe].
  assert (alive (events_of es)) as Ae. { intros Q. apply A. apply in_or_app. now left. }
  destruct IH as (Ru & es' & A' & F' & L & Ac & Op & T); [intros Ho; specialize (Hr Ho); lia|assumption..|].
  rewrite split_run_app, app_length, events_of_app. set (s := split_run (split_new p sh recs) es) in *. clearbody s.
  change (length [e]) with 1%nat.
  change (split_run s [e]) with (split_step s e).
  assert (len es' <= len es) as Ln by (unfold len; lia).
  assert (Rf : running (finish s) = true).
  { rewrite <- T. apply (task_runs p sh recs k); [assumption| |assumption..]. intros Ho; specialize (Hr Ho); lia. }
  destruct e as [e|id].
  2:{ cbn [split_step events_of flat_map app]. rewrite app_nil_r. split; [assumption|]. exists es'. repeat split; auto. lia. }
  cbn [events_of flat_map app] in *. inversion Fe as [|? ? Se _]; subst.
  assert (Snoc : forall x, x = e -> x <> Kill /\ alive (es' ++ [x]) /\ Forall event_sound (es' ++ [x]) /\ (length (es' ++ [x]) <= length es + 1)%nat /\
    accepted (es' ++ [x]) = accepted (events_of es ++ [x]) /\ is_open (es' ++ [x]) = is_open (events_of es ++ [x]) /\
    task_run (task_new p sh recs) (es' ++ [x]) = task_step (finish s) x /\ running (task_step (finish s) x) = true).
  { intros x ->.
    assert (e <> Kill) as NK. { intros ->. apply A. apply in_or_app. right. now left. }
    assert (alive (es' ++ [e])) as A2 by (apply alive_snoc; auto).
    assert (Forall event_sound (es' ++ [e])) as F2 by (apply Forall_app; auto).
    rewrite app_length, !accepted_snoc, !is_open_snoc, Ac, Op, task_run_app, T. cbn [length].
    repeat split; auto; [lia|].
    rewrite <- T. change (task_step (task_run (task_new p sh recs) es') e) with (task_run (task_run (task_new p sh recs) es') [e]).
    rewrite <- task_run_app. apply (task_runs p sh recs k); [assumption| |assumption..].
    rewrite len_app. change (len [e]) with 1. intros Ho; specialize (Hr Ho); lia. }
  destruct (Snoc e eq_refl) as (NK & S1 & S2 & S3 & S4 & S5 & S6 & S7). clear Snoc.
  destruct e as [c| |tf el|]; [| | |contradiction].
  - destruct (finish_send s c Ru Rf) as [Q1 Q2]. cbn [split_step]. cbn [sp_task]. split; [exact Q2|].
    exists (es' ++ [Send c]). rewrite Q1. auto 10.
  - destruct (finish_drop_senders s Ru Rf) as [Q1 Q2]. cbn [split_step]. cbn [sp_task]. split; [exact Q2|].
    exists (es' ++ [DropSenders]). rewrite Q1. auto 10.
  - cbn [split_step]. cbn [task_step] in S6, S7.
    destruct (sp_place s) eqn:Pl.
    + assert (finish s = sp_task s) as Fs by (unfold finish; now rewrite Pl).
      rewrite Fs in S6, S7.
      pose proof (poll_at_select (order_of tf) el s Pl S7) as Q.
      split; [apply running_finish_poll; [assumption|]; now rewrite Q|].
      exists (es' ++ [Poll tf el]). rewrite Q. auto 10.
    + assert (sp_place s <> AtSelect) as NP by (rewrite Pl; discriminate).
      pose proof (poll_in_branch (order_of tf) el s NP Rf) as Q.
      split; [apply running_finish_poll; [assumption|]; now rewrite Q|].
      exists es'. rewrite Q, accepted_snoc, is_open_snoc, andb_true_r. repeat split; auto; [lia|].
      rewrite Ac. destruct (is_open (events_of es)); now rewrite app_nil_r.
    + assert (sp_place s <> AtSelect) as NP by (rewrite Pl; discriminate).
      pose proof (poll_in_branch (order_of tf) el s NP Rf) as Q.
      split; [apply running_finish_poll; [assumption|]; now rewrite Q|].
      exists es'. rewrite Q, accepted_snoc, is_open_snoc, andb_true_r. repeat split; auto; [lia|].
      rewrite Ac. destruct (is_open (events_of es)); now rewrite app_nil_r.
    + assert (sp_place s <> AtSelect) as NP by (rewrite Pl; discriminate).
      pose proof (poll_in_branch (order_of tf) el s NP Rf) as Q.
      split; [apply running_finish_poll; [assumption|]; now rewrite Q|].
      exists es'. rewrite Q, accepted_snoc, is_open_snoc, andb_true_r. repeat split; auto; [lia|].
      rewrite Ac. destruct (is_open (events_of es)); now rewrite app_nil_r.
Qed.

(** How far the suspended task is behind. *)
Lemma finish_extends s : running (finish s) = true ->
  queue (finish s) = queue (sp_task s) /\ tk_records (finish s) = tk_records (sp_task s) /\
  (exists rest, written (pw_writer (tk_writer (finish s))) = written (pw_writer (tk_writer (sp_task s))) ++ rest) /\
  (exists ans, answers (finish s) = answers (sp_task s) ++ ans /\ map fst ans = waiting (sp_place s)).
Proof.
  destruct s as [t pl]. unfold finish. cbn [sp_task sp_place]. intros Ru.
  destruct pl as [|f c|f c|f].
  - split; [reflexivity|]. split; [reflexivity|]. split; exists []; rewrite app_nil_r; auto.
  - destruct (finish_write f (tk_writer t)) as [[u|e] w] eqn:F; apply finish_write_grows in F; destruct F as [o1 F].
    + destruct (tokio_write w (cmd_payload c)) as [[x v]| |] eqn:W; [|discriminate..].
      apply tokio_write_grows in W. destruct W as [o2 W].
      cbn [turn queue tk_records tk_writer answers]. rewrite app_nil_r. split; [reflexivity|]. split; [reflexivity|].
      split; [|eexists; split; reflexivity]. exists (o1 ++ o2). now rewrite W, F, app_assoc.
    + cbn [turn queue tk_records tk_writer answers]. rewrite app_nil_r. split; [reflexivity|]. split; [reflexivity|].
      split; [eauto|eexists; split; reflexivity].
  - destruct (finish_write f (tk_writer t)) as [x w] eqn:F; apply finish_write_grows in F; destruct F as [o1 F].
    cbn [turn queue tk_records tk_writer answers]. rewrite app_nil_r. split; [reflexivity|]. split; [reflexivity|].
    split; [eauto|eexists; split; reflexivity].
  - destruct (finish_write f (tk_writer t)) as [x w] eqn:F; apply finish_write_grows in F; destruct F as [o1 F].
    cbn [turn queue tk_records tk_writer answers]. rewrite !app_nil_r. split; [reflexivity|]. split; [reflexivity|].
    split; [eauto|]. exists []. now rewrite app_nil_r.
Qed.

(** Without a [Kill], the task is where the unsplit one is, or on the way there. *)
Theorem split_is_task p sh recs k es :
  counted k (pw_cipher p) -> (overflow_checks = true -> k + 2 * len es < 2 ^ 32) ->
  Forall event_sound (events_of es) -> alive (events_of es) ->
  let s := split_run (split_new p sh recs) es in
  running (sp_task s) = true /\
  exists es', alive es' /\ Forall event_sound es' /\ (length es' <= length es)%nat /\
    accepted es' = accepted (events_of es) /\
    let t := task_run (task_new p sh recs) es' in
    running t = true /\ (sp_place s = AtSelect -> sp_task s = t) /\
    queue t = queue (sp_task s) /\ tk_records t = tk_records (sp_task s) /\
    (exists rest, written (pw_writer (tk_writer t)) = written (pw_writer (tk_writer (sp_task s))) ++ rest) /\
    (exists ans, answers t = answers (sp_task s) ++ ans /\ map fst ans = waiting (sp_place s)).
Proof.
  intros H Hr F A s. destruct (split_refines p sh recs k H es Hr F A) as (Ru & es' & A' & F' & L & Ac & Op & T).
  split; [assumption|]. exists es'. split; [assumption|]. split; [assumption|]. split; [assumption|]. split; [assumption|].
  cbn zeta.
  assert (Rt : running (task_run (task_new p sh recs) es') = true).
  { apply (task_runs p sh recs k); [assumption| |assumption..]. intros Ho; specialize (Hr Ho). unfold len in *. lia. }
  split; [assumption|]. rewrite T in *. split; [intros Q; unfold finish; fold s; now rewrite Q|].
  exact (finish_extends s Rt).
Qed.

(** ** Being dropped *)

Lemma stopped_run : forall es s, running (sp_task s) = false ->
  let s' := split_run s es in
  running (sp_task s') = false /\ tk_writer (sp_task s') = tk_writer (sp_task s) /\
  answers (sp_task s') = answers (sp_task s) /\ tk_records (sp_task s') = tk_records (sp_task s) /\ sp_place s' = sp_place s.
Proof.
  induction es as [|e es IH]; intros s Ru s'; subst s'; [auto|].
  change (split_run s (e :: es)) with (split_run (split_step s e) es).
  assert (Q : running (sp_task (split_step s e)) = false /\ tk_writer (sp_task (split_step s e)) = tk_writer (sp_task s) /\
    answers (sp_task (split_step s e)) = answers (sp_task s) /\ tk_records (sp_task (split_step s e)) = tk_records (sp_task s) /\
    sp_place (split_step s e) = sp_place s).
  { destruct s as [t pl]. cbn [sp_task] in Ru. destruct e as [[c| |tf el|]|id]; cbn [split_step task_step sp_task sp_place].
    - rewrite Ru, andb_false_r. auto.
    - cbn. auto.
    - unfold split_poll. cbn [sp_task]. rewrite Ru. auto.
    - rewrite Ru. auto.
    - auto. }
  destruct Q as (Q1 & Q2 & Q3 & Q4 & Q5). destruct (IH _ Q1) as (R1 & R2 & R3 & R4 & R5).
  rewrite R2, R3, R4, R5. auto.
Qed.

Lemma first_kill : forall es, alive (events_of es) \/
  exists es1 es2, es = es1 ++ Ev Kill :: es2 /\ alive (events_of es1).
Proof.
  induction es as [|e es IH]; [left; intros []|].
  destruct e as [e|id].
  - destruct e as [c| |tf el|].
    4:{ right. exists [], es. split; [reflexivity|intros []]. }
    all: destruct IH as [IH|(es1 & es2 & -> & IH)];
      [left; intros [Q|Q]; [discriminate|now apply IH]
      |right; eexists (_ :: es1), es2; split; [reflexivity|intros [Q|Q]; [discriminate|now apply IH]]].
  - destruct IH as [IH|(es1 & es2 & -> & IH)]; [left; assumption|].
    right. exists (Abandon id :: es1), es2. split; [reflexivity|assumption].
Qed.

Lemma accepted_prefix : forall es1 es2, exists more, accepted (es1 ++ es2) = accepted es1 ++ more.
Proof.
  induction es1 as [|e es1 IH]; intros es2; cbn [app accepted]; [eauto|].
  destruct (IH es2) as [more Q]. destruct e; cbn [app]; try rewrite Q; eauto.
Qed.

(** Whatever happens, the wire is a prefix of complete blocks. *)
Theorem split_serves p sh recs k es :
  counted k (pw_cipher p) -> (overflow_checks = true -> k + 2 * len es < 2 ^ 32) ->
  Forall event_sound (events_of es) ->
  let s := split_run (split_new p sh recs) es in
  let t := sp_task s in
  exists handled rest rs bs p' tail ans,
    accepted (events_of es) = handled ++ rest /\ (running t = true -> rest = queue t) /\
    Forall (block_ok (sh_config sh)) bs /\ serves Tokio p bs rs p' /\
    map fst rs = map cmd_payload handled /\
    tk_records t = recs ++ flat_map block_sizes bs /\ (packets bs <= 2 * length es)%nat /\
    written (pw_writer p') = written (pw_writer (tk_writer t)) ++ tail /\
    combine (map cmd_id handled) (map snd rs) = answers t ++ ans /\ map fst ans = waiting (sp_place s) /\
    (sp_place s = AtSelect -> p' = tk_writer t).
Proof.
  intros H Hr F s t. subst t. destruct (first_kill es) as [A|(es1 & es2 & -> & A)].
  - destruct (split_is_task p sh recs k es H Hr F A) as (Ru & es' & A' & F' & L & Ac & Q). cbn zeta in Q.
    fold s in Ru, Q. destruct Q as (Rt & Eq & Qu & Rc & (tail & Wr) & (ans & An & Wt)).
    destruct (task_serves p sh recs k es' H) as (handled & rest & rs & bs & T1 & T2 & T3 & T4 & T5 & T6 & T7 & T8);
      [intros Ho; specialize (Hr Ho); unfold len in *; lia|assumption|].
    specialize (T2 Rt).
    exists handled, rest, rs, bs, (tk_writer (task_run (task_new p sh recs) es')), tail, ans.
    rewrite <- Ac, <- Rc, <- T6, <- Qu. repeat split; try assumption; [auto|lia|].
    intros Q. now rewrite (Eq Q).
  - rewrite events_of_app in F. apply Forall_app in F. destruct F as [F _].
    rewrite len_app, len_cons in Hr.
    destruct (split_is_task p sh recs k es1 H) as (Ru & es' & A' & F' & L & Ac & Q);
      [intros Ho; specialize (Hr Ho); lia|assumption..|]. cbn zeta in Q.
    subst s. rewrite split_run_app. set (s1 := split_run (split_new p sh recs) es1) in *. clearbody s1.
    destruct Q as (Rt & Eq & Qu & Rc & (tail & Wr) & (ans & An & Wt)).
    change (split_run s1 (Ev Kill :: es2)) with (split_run (split_step s1 (Ev Kill)) es2).
    assert (K : running (sp_task (split_step s1 (Ev Kill))) = false /\
      tk_writer (sp_task (split_step s1 (Ev Kill))) = tk_writer (sp_task s1) /\
      answers (sp_task (split_step s1 (Ev Kill))) = answers (sp_task s1) /\
      tk_records (sp_task (split_step s1 (Ev Kill))) = tk_records (sp_task s1) /\
      sp_place (split_step s1 (Ev Kill)) = sp_place s1).
    { cbn [split_step sp_task sp_place task_step]. rewrite Ru. cbn. auto. }
    destruct K as (K1 & K2 & K3 & K4 & K5).
    destruct (stopped_run es2 _ K1) as (R1 & R2 & R3 & R4 & R5).
    rewrite R1, R2, R3, R4, R5, K2, K3, K4, K5.
    destruct (task_serves p sh recs k es' H) as (handled & rest & rs & bs & T1 & T2 & T3 & T4 & T5 & T6 & T7 & T8);
      [intros Ho; specialize (Hr Ho); unfold len in *; lia|assumption|].
    rewrite events_of_app. destruct (accepted_prefix (events_of es1) (events_of (Ev Kill :: es2))) as [more M].
    exists handled, (rest ++ more), rs, bs, (tk_writer (task_run (task_new p sh recs) es')), tail, ans.
    rewrite M, <- Ac, T1, <- app_assoc, <- Rc, <- T6, app_length. repeat split; try assumption; [discriminate|lia|].
    intros Q. now rewrite (Eq Q).
Qed.

(** ** Progress *)

(** A poll that leaves the task inside a branch has used up an event of the transport. *)
Lemma blocked_poll order el s :
  running (sp_task s) = true -> sp_place s <> AtSelect -> sp_place (split_poll order el s) <> AtSelect ->
  (hold_ups (pw_writer (tk_writer (sp_task (split_poll order el s)))) <
   hold_ups (pw_writer (tk_writer (sp_task s))))%nat.
Proof.
  destruct s as [t pl]. cbn [sp_place sp_task]. intros Ru Hp. unfold split_poll. cbn [sp_task sp_place]. rewrite Ru.
  destruct pl as [|f c|f c|f]; [contradiction|..]; pose proof (go_on_finish f (tk_writer t)) as Q;
    destruct (go_on f (tk_writer t)) as [[f'|x] p'] eqn:Gn; cbn [payload_wrote decoy_wrote].
  - intros _. destruct Q as [_ Q]. exact Q.
  - cbn [pad_wrote]. destruct x as [u|e]; [|intros Q'; exfalso; now apply Q'].
    unfold write_payload. cbn [with_writer tk_writer].
    pose proof (begin_write_finish p' (cmd_payload c)) as B.
    destruct (begin_write p' (cmd_payload c)) as [[[f2|y] p2]| |]; cbn [payload_wrote].
    + intros _. destruct B as [_ B]. cbn [sp_task with_writer tk_writer].
      enough (hold_ups (pw_writer p') <= hold_ups (pw_writer (tk_writer t)))%nat by lia.
      apply finish_write_script in Q. exact Q.
    + intros Q'; exfalso; now apply Q'.
    + intros Q'; exfalso; now apply Q'.
    + intros Q'; exfalso; now apply Q'.
  - intros _. destruct Q as [_ Q]. exact Q.
  - intros Q'; exfalso; now apply Q'.
  - intros _. destruct Q as [_ Q]. exact Q.
  - intros Q'; exfalso; now apply Q'.
Qed.

(** So a branch is left after a bounded number of polls. *)
Lemma branch_left : forall n s (sels : list (bool * bool)),
  (hold_ups (pw_writer (tk_writer (sp_task s))) < n)%nat -> length sels = n ->
  running (sp_task s) = true -> running (finish s) = true -> sp_place s <> AtSelect ->
  exists m, (0 < m <= n)%nat /\
    let s' := split_run s (map (fun b => Ev (Poll (fst b) (snd b))) (firstn m sels)) in
    sp_place s' = AtSelect /\ sp_task s' = finish s.
Proof.
  induction n as [|n IH]; intros s sels Hn Hl Ru Rf Hp; [lia|].
  destruct sels as [|[tf el] sels]; [discriminate|].
  pose proof (poll_in_branch (order_of tf) el s Hp Rf) as Fq.
  assert (running (sp_task (split_poll (order_of tf) el s)) = true) as Ru'
    by (apply running_finish_poll; [assumption|now rewrite Fq]).
  assert (D : sp_place (split_poll (order_of tf) el s) = AtSelect \/ sp_place (split_poll (order_of tf) el s) <> AtSelect)
    by (destruct (sp_place (split_poll (order_of tf) el s)); [now left|right; discriminate..]).
  destruct D as [D|D].
  - exists 1%nat. split; [lia|]. cbn [firstn map split_run fold_left split_step fst snd]. split; [assumption|].
    rewrite <- Fq. unfold finish. now rewrite D.
  - pose proof (blocked_poll (order_of tf) el s Ru Hp D) as Sh.
    destruct (IH (split_poll (order_of tf) el s) sels) as (m & Hm & Q1 & Q2); [lia|now injection Hl|assumption|now rewrite Fq|assumption|].
    exists (S m). split; [lia|]. cbn [firstn map fst snd].
    match goal with |- context [split_run s (?e :: ?l)] => change (split_run s (e :: l)) with (split_run (split_step s e) l) end.
    cbn [split_step]. rewrite Q2, Fq. auto.
Qed.

Theorem split_progress p sh recs k es sels :
  counted k (pw_cipher p) -> (overflow_checks = true -> k + 2 * len es < 2 ^ 32) ->
  Forall event_sound (events_of es) -> alive (events_of es) ->
  let s := split_run (split_new p sh recs) es in
  sp_place s <> AtSelect -> length sels = S (hold_ups (pw_writer (tk_writer (sp_task s)))) ->
  exists m, (0 < m <= length sels)%nat /\
    let s' := split_run s (map (fun b => Ev (Poll (fst b) (snd b))) (firstn m sels)) in
    sp_place s' = AtSelect /\ running (sp_task s') = true /\ queue (sp_task s') = queue (sp_task s) /\
    map fst (answers (sp_task s')) = map fst (answers (sp_task s)) ++ waiting (sp_place s).
Proof.
  intros H Hr F A s Hp Hl. destruct (split_refines p sh recs k H es Hr F A) as (Ru & es' & A' & F' & L & Ac & Op & T).
  fold s in Ru, T.
  assert (Rf : running (finish s) = true).
  { rewrite <- T. apply (task_runs p sh recs k); [assumption| |assumption..]. intros Ho; specialize (Hr Ho). unfold len in *. lia. }
  destruct (branch_left (length sels) s sels ltac:(lia) eq_refl Ru Rf Hp) as (m & Hm & Q1 & Q2).
  exists m. split; [assumption|]. cbn zeta. rewrite Q2. split; [assumption|]. split; [assumption|].
  destruct (finish_extends s Rf) as (X1 & _ & _ & ans & X2 & X3).
  split; [assumption|]. now rewrite X2, map_app, X3.
Qed.

End Split.
