(** * Property C90: a shaped session that is not split *)
From Coq Require Import List NArith ZArith Bool Lia.
From Coq.Strings Require Import Byte.
From Verif Require Import Base BaseFacts Env FsChacha Cipher Handshake Transport Io Futures Sessions UnsplitProofs
  Traffic TrafficIo TrafficFutures SpecTraffic TrafficTask SpecTask ShapedUnsplit Toy PropsHandshake PropsIo PropsTraffic PropsSession PropsBacklog.
Import ListNotations.
Local Open Scope N_scope.

(** ** Vocabulary *)

(** The moves of the writer half alone, and the number of reads. *)
Definition writer_moves (ms : list session_move) : list move :=
  flat_map (fun m => match m with SWrite pl => [CallWrite pl] | SApp => [App] | SDrop => [CallDrop] | SThread => [Thread] | _ => [] end) ms.
Definition reads_done (ms : list session_move) : nat :=
  length (filter (fun m => match m with SReadReturn => true | _ => false end) ms).

(** The events of the task alone, and what is done with the futures of reads. *)
Definition task_events (us : list shaped_use) : list split_event :=
  flat_map (fun u => match u with
    | AWrite c => [Ev (Send c)] | ADropSession => [Ev DropSenders] | ATask t e => [Ev (Poll t e)] | AKill => [Ev Kill] | _ => [] end) us.
Definition read_actions (us : list shaped_use) : list action :=
  flat_map (fun u => match u with APollRead => [DoPoll] | ADropFuture => [DoCancel] | _ => [] end) us.
Definition read_future_of (b : session_borrow) : read_future := match b with Reading f => f | _ => FreshFuture end.

Section WithEnv.
Context {E : Env} {G : Type} {R : Rng G}.

(** No future of a write is dropped before the write is done. *)
Definition writes_awaited (s : @shaped_async G) (us : list shaped_use) : Prop :=
  forall us1 us2 s1 id, us = us1 ++ ADropFuture :: us2 -> shaped_run s us1 = Ret (Some s1) -> sa_borrow s1 <> Awaiting id.

(** ** Proofs *)

Lemma session_halves : forall ms (s s' : @shaped_session G), session_run s ms = Ret (Some s') ->
  play (ss_shared s) (writer_moves ms) = Some (ss_shared s') /\
  exists xs recs, shaped_reads (reads_done ms) (ss_reader s) = Ret (xs, ss_reader s', recs) /\
    ss_reads s' = ss_reads s ++ xs /\ ss_recorded s' = ss_recorded s ++ recs.
Proof.
  induction ms as [|m ms IH]; intros s s' H; cbn [session_run] in H.
  - injection H as <-. split; [reflexivity|]. exists [], []. rewrite !app_nil_r. repeat split.
  - apply bind_ret_inv in H. destruct H as ([s1|] & St & H); [|discriminate].
    destruct (IH _ _ H) as (P & xs & recs & Rd & Xs & Rc). clear IH H.
    assert (W : forall mv, (exists sh, do_move (ss_shared s) mv = Some sh /\ s1 = ShapedSession (ss_reader s) sh (ss_reading s) (ss_reads s) (ss_recorded s)) ->
      writer_moves (m :: ms) = mv :: writer_moves ms -> reads_done (m :: ms) = reads_done ms ->
      play (ss_shared s) (writer_moves (m :: ms)) = Some (ss_shared s') /\
      exists xs recs, shaped_reads (reads_done (m :: ms)) (ss_reader s) = Ret (xs, ss_reader s', recs) /\
        ss_reads s' = ss_reads s ++ xs /\ ss_recorded s' = ss_recorded s ++ recs).
    { intros mv (sh & D & ->) Wm Rm. rewrite Wm, Rm. cbn [play]. rewrite D. split; [exact P|]. exists xs, recs. auto. }
    destruct m as [pl| | | | |]; cbn [session_step] in St.
    + destruct (ss_reading s) eqn:Rg; [discriminate St|]. eapply (W (CallWrite pl)); [|reflexivity..].
      unfold on_shared in St. rewrite ?Rg in St. destruct (do_move (ss_shared s) (CallWrite pl)) as [sh|] eqn:D; [|discriminate St]. injection St as <-. eauto.
    + destruct (ss_reading s) eqn:Rg; [discriminate St|]. eapply (W App); [|reflexivity..].
      unfold on_shared in St. rewrite ?Rg in St. destruct (do_move (ss_shared s) App) as [sh|] eqn:D; [|discriminate St]. injection St as <-. eauto.
    + destruct (ss_reading s) eqn:Rg; [discriminate St|]. eapply (W CallDrop); [|reflexivity..].
      unfold on_shared in St. rewrite ?Rg in St. destruct (do_move (ss_shared s) CallDrop) as [sh|] eqn:D; [|discriminate St]. injection St as <-. eauto.
    + eapply (W Thread); [|reflexivity..].
      unfold on_shared in St. destruct (do_move (ss_shared s) Thread) as [sh|] eqn:D; [|discriminate St]. injection St as <-. eauto.
    + injection St as St. destruct (ss_reading s), (app_at (ss_shared s)); try discriminate. injection St as <-.
      split; [exact P|]. exists xs, recs. auto.
    + destruct (ss_reading s); [|discriminate]. apply bind_ret_inv in St. destruct St as ([[x r1] rc] & Q & St). injection St as <-.
      cbn [ss_shared ss_reader ss_reads ss_recorded] in *. split; [exact P|].
      exists (x :: xs), (rc ++ recs). change (reads_done (SReadReturn :: ms)) with (S (reads_done ms)). cbn [shaped_reads].
      rewrite Q. cbn [bind]. rewrite Rd. cbn [bind]. rewrite Xs, Rc, <- !app_assoc. repeat split.
Qed.


Lemma reading_out : forall ms (s s' : @shaped_session G), session_run s ms = Ret (Some s') ->
  (ss_reading s = true -> app_at (ss_shared s) = AppOut) -> ss_reading s' = true -> app_at (ss_shared s') = AppOut.
Proof.
  induction ms as [|m ms IH]; intros s s' H I; cbn [session_run] in H; [injection H as <-; exact I|].
  apply bind_ret_inv in H. destruct H as ([s1|] & St & H); [|discriminate]. apply (IH _ _ H). clear IH H.
  destruct m as [pl| | | | |]; cbn [session_step] in St.
  - destruct (ss_reading s) eqn:Rg; [discriminate St|]. unfold on_shared in St. rewrite Rg in St.
    destruct (do_move _ _); [|discriminate St]. injection St as <-. discriminate.
  - destruct (ss_reading s) eqn:Rg; [discriminate St|]. unfold on_shared in St. rewrite Rg in St.
    destruct (do_move _ _); [|discriminate St]. injection St as <-. discriminate.
  - destruct (ss_reading s) eqn:Rg; [discriminate St|]. unfold on_shared in St. rewrite Rg in St.
    destruct (do_move _ _); [|discriminate St]. injection St as <-. discriminate.
  - unfold on_shared in St. destruct (do_move (ss_shared s) Thread) as [sh|] eqn:D; [|discriminate St].
    injection St as <-. cbn [ss_reading ss_shared]. intros Rg. specialize (I Rg). clear Rg. cbn [do_move] in D. unfold thread_step in D.
    destruct (thread_at (ss_shared s)); try discriminate D; injection D as <-; try exact I.
    + destruct (lock (ss_shared s)); [destruct (poisoned (ss_shared s))| |]; exact I.
    + destruct (shaper_decoy _) as ((d & sh1) & rc). destruct d; exact I.
    + destruct (sync_write _ _) as [(x & w)| |]; exact I.
  - injection St as St. destruct (ss_reading s); [discriminate St|]. destruct (app_at (ss_shared s)) eqn:A; try discriminate St.
    injection St as <-. intros _. exact A.
  - destruct (ss_reading s); [|discriminate St]. apply bind_ret_inv in St. destruct St as ([[x r1] rc] & _ & St). injection St as <-.
    discriminate.
Qed.

(** Asynchronous. *)

Lemma shaped_ready_fresh f r x r' f' recs : poll_shaped_read f r = Ret (Ready x, r', f', recs) -> f' = FreshFuture.
Proof.
  unfold poll_shaped_read. intros H. apply bind_ret_inv in H. destruct H as ([[y r1] f1] & Q & H).
  destruct y as [[p|e]|].
  - apply bind_ret_inv in H. destruct H as (c & _ & H). injection H as _ _ <- _. exact (poll_ready_fresh _ _ _ _ _ Q).
  - injection H as _ _ <- _. exact (poll_ready_fresh _ _ _ _ _ Q).
  - discriminate H.
Qed.

Lemma schedule_app : forall a1 a2 f r,
  shaped_schedule (a1 ++ a2) f r =
  let! (xs, r1, f1, rc) := shaped_schedule a1 f r in
  let! (ys, r2, f2, rc') := shaped_schedule a2 f1 r1 in Ret (xs ++ ys, r2, f2, rc ++ rc').
Proof.
  induction a1 as [|[|] a1 IH]; intros a2 f r; cbn [app shaped_schedule bind].
  - destruct (shaped_schedule a2 f r) as [[[[ys r2] f2] rc]| |]; reflexivity.
  - destruct (poll_shaped_read f r) as [[[[x r1] f1] rc]| |]; cbn [bind]; try reflexivity. rewrite IH.
    destruct (shaped_schedule a1 f1 r1) as [[[[ys r2] f2] rc2]| |]; cbn [bind]; try reflexivity.
    destruct (shaped_schedule a2 f2 r2) as [[[[zs r3] f3] rc3]| |]; cbn [bind]; try reflexivity. rewrite app_assoc. now destruct x.
  - apply IH.
Qed.

Lemma send_stopped (t : @split_task G) c : running (sp_task t) = false -> split_step t (Ev (Send c)) = t.
Proof. intros Ru. destruct t as [t pl]. cbn in *. rewrite Ru, andb_false_r. reflexivity. Qed.

Lemma step_halves u (s s' : @shaped_async G) : shaped_step s u = Ret (Some s') ->
  sa_task s' = split_run (sa_task s) (task_events [u]) /\
  exists xs recs, shaped_schedule (read_actions [u]) (read_future_of (sa_borrow s)) (sa_reader s) =
      Ret (xs, sa_reader s', read_future_of (sa_borrow s'), recs) /\
    sa_reads s' = sa_reads s ++ xs /\ sa_recorded s' = sa_recorded s ++ recs.
Proof.
  assert (Po : forall f, f = read_future_of (sa_borrow s) -> shaped_poll s f = Ret (Some s') ->
    sa_task s' = sa_task s /\ exists xs recs, shaped_schedule [DoPoll] (read_future_of (sa_borrow s)) (sa_reader s) =
      Ret (xs, sa_reader s', read_future_of (sa_borrow s'), recs) /\
    sa_reads s' = sa_reads s ++ xs /\ sa_recorded s' = sa_recorded s ++ recs).
  { intros f -> H. unfold shaped_poll in H. apply bind_ret_inv in H. destruct H as ([[[x r1] f1] rc] & Q & H).
    cbn [shaped_schedule]. rewrite Q. cbn [bind]. destruct x as [a|]; injection H as <-; cbn [sa_reader sa_task sa_borrow sa_reads sa_recorded read_future_of].
    - rewrite (shaped_ready_fresh _ _ _ _ _ _ Q). split; [reflexivity|]. exists [a], (rc ++ []). rewrite app_nil_r. repeat split.
    - split; [reflexivity|]. exists [], (rc ++ []). rewrite !app_nil_r. repeat split. }
  assert (No : forall t b ws, t = split_run (sa_task s) (task_events [u]) ->
    read_actions [u] = [] -> read_future_of b = read_future_of (sa_borrow s) ->
    s' = ShapedAsync (sa_reader s) t b (sa_reads s) (sa_recorded s) ws ->
    sa_task s' = split_run (sa_task s) (task_events [u]) /\
    exists xs recs, shaped_schedule (read_actions [u]) (read_future_of (sa_borrow s)) (sa_reader s) =
      Ret (xs, sa_reader s', read_future_of (sa_borrow s'), recs) /\
    sa_reads s' = sa_reads s ++ xs /\ sa_recorded s' = sa_recorded s ++ recs).
  { intros t b ws T Ra Rb ->. split; [exact T|]. rewrite Ra. exists [], []. cbn. rewrite Rb, !app_nil_r. repeat split. }
  intros H. destruct u as [|c| | | |tf el|]; cbn [shaped_step] in H.
  - destruct (sa_borrow s) eqn:B; try discriminate H.
    + destruct (Po FreshFuture eq_refl H) as (T & Q). split; [exact T|exact Q].
    + destruct (Po f eq_refl H) as (T & Q). split; [exact T|exact Q].
  - destruct (sa_borrow s) eqn:B; try discriminate H. injection H as H. destruct (running _) eqn:Ru.
    + eapply No; [reflexivity|reflexivity| |symmetry; exact H]. reflexivity.
    + eapply No; [symmetry; apply send_stopped; exact Ru|reflexivity| |symmetry; exact H]. reflexivity.
  - destruct (sa_borrow s) eqn:B; try discriminate H. injection H as H. destruct (answer_to _ _).
    + eapply No; [reflexivity|reflexivity| |symmetry; exact H]. reflexivity.
    + subst s'. destruct s as [r t b rs rc ws]. eapply No; [reflexivity|reflexivity| |reflexivity]. cbn in *. subst b. reflexivity.
  - assert (H' : s' = ShapedAsync (sa_reader s) (sa_task s) Unborrowed (sa_reads s) (sa_recorded s) (sa_writes s)).
    { destruct (sa_borrow s); try discriminate H; injection H as <-; reflexivity. }
    subst s'. split; [reflexivity|]. exists [], []. cbn. rewrite !app_nil_r. repeat split.
  - destruct (sa_borrow s) eqn:B; try discriminate H. injection H as H.
    eapply No; [reflexivity|reflexivity| |symmetry; exact H]. reflexivity.
  - injection H as H. eapply No; [reflexivity|reflexivity| |symmetry; exact H]. reflexivity.
  - injection H as H. eapply No; [reflexivity|reflexivity| |symmetry; exact H]. reflexivity.
Qed.

Lemma run_halves : forall us (s s' : @shaped_async G), shaped_run s us = Ret (Some s') ->
  sa_task s' = split_run (sa_task s) (task_events us) /\
  exists xs recs, shaped_schedule (read_actions us) (read_future_of (sa_borrow s)) (sa_reader s) =
      Ret (xs, sa_reader s', read_future_of (sa_borrow s'), recs) /\
    sa_reads s' = sa_reads s ++ xs /\ sa_recorded s' = sa_recorded s ++ recs.
Proof.
  induction us as [|u us IH]; intros s s' H; cbn [shaped_run] in H.
  - injection H as <-. split; [reflexivity|]. exists [], []. rewrite !app_nil_r. repeat split.
  - apply bind_ret_inv in H. destruct H as ([s1|] & St & H); [|discriminate H].
    destruct (step_halves _ _ _ St) as (T1 & xs & rc & Q1 & X1 & R1). destruct (IH _ _ H) as (T & ys & rc' & Q & X & Rc).
    change (u :: us) with ([u] ++ us). unfold task_events, read_actions. rewrite !flat_map_app.
    fold (task_events [u]). fold (task_events us). fold (read_actions [u]). fold (read_actions us). split.
    + rewrite T, T1. unfold split_run. rewrite fold_left_app. reflexivity.
    + exists (xs ++ ys), (rc ++ rc'). rewrite schedule_app, Q1. cbn [bind]. rewrite Q. cbn [bind].
      rewrite X, Rc, X1, R1, <- !app_assoc. repeat split.
Qed.

(** What a caller has got, it keeps. *)
Definition keeps (t t' : @task G) : Prop :=
  (exists more, answers t' = answers t ++ more) /\ (running t = false -> running t' = false /\ answers t' = answers t).

Lemma keeps_refl t : keeps t t.
Proof. split; [exists []; rewrite app_nil_r; reflexivity|auto]. Qed.
Lemma keeps_ans (t t' : @task G) more : running t = true -> answers t' = answers t ++ more -> keeps t t'.
Proof. intros Ru A. split; [exists more; exact A|congruence]. Qed.

Lemma keeps_answer t t' id x : keeps t t' -> answer_to t id = Some x -> answer_to t' id = Some x.
Proof.
  intros ((more & A) & K) H. unfold answer_to in *.
  assert (Fd : forall l, find (fun a => fst a =? id) (answers t ++ l) =
    match find (fun a => fst a =? id) (answers t) with Some y => Some y | None => find (fun a => fst a =? id) l end).
  { intros l. generalize (answers t) as q. induction q as [|y q IH]; [reflexivity|]. cbn. destruct (fst y =? id); [reflexivity|exact IH]. }
  destruct (find (fun a => fst a =? id) (answers t)) as [[i y]|] eqn:F.
  - rewrite A, Fd. exact H.
  - destruct (running t) eqn:Ru; [discriminate H|]. destruct (K eq_refl) as (Ru' & A'). rewrite A', F, Ru'. exact H.
Qed.

Lemma poll_keeps order el (s : @split_task G) : keeps (sp_task s) (sp_task (split_poll order el s)).
Proof.
  unfold split_poll. destruct (running (sp_task s)) eqn:Ru; [|apply keeps_refl].
  assert (An : exists more, answers (sp_task (split_poll order el s)) = answers (sp_task s) ++ more); [|unfold split_poll in An; rewrite Ru in An;
    destruct An as (more & An); apply (keeps_ans _ _ more Ru An)].
  unfold split_poll. rewrite Ru.
  assert (PW : forall (t : @task G) cmd r, exists more, answers (sp_task (payload_wrote t cmd r)) = answers t ++ more).
  { intros t cmd ([f|x] & w); [exists []; cbn; rewrite app_nil_r; reflexivity|eexists; reflexivity]. }
  assert (WP : forall (t : @task G) cmd, exists more, answers (sp_task (write_payload t cmd)) = answers t ++ more).
  { intros t cmd. unfold write_payload. destruct (begin_write _ _); [apply PW|exists []; cbn; rewrite app_nil_r; reflexivity..]. }
  assert (PD : forall (t : @task G) cmd r, exists more, answers (sp_task (pad_wrote t cmd r)) = answers t ++ more).
  { intros t cmd ([f|[u|x]] & w); cbn [pad_wrote]; [exists []; cbn; rewrite app_nil_r; reflexivity|apply (WP (with_writer t w))|eexists; reflexivity]. }
  assert (DW : forall (t : @task G) r, exists more, answers (sp_task (decoy_wrote t r)) = answers t ++ more).
  { intros t ([f|x] & w); [exists []; cbn; rewrite app_nil_r; reflexivity|eexists; reflexivity]. }
  assert (Sa : exists more, answers (sp_task s) = answers (sp_task s) ++ more) by (exists []; rewrite app_nil_r; reflexivity).
  destruct (sp_place s).
  - destruct (select _ _ _) as [[|i]| |d]; [|  |exact Sa|exact Sa].
    + destruct (queue (sp_task s)) as [|cmd q]; [exact Sa|].
      unfold split_handle. destruct (shaper_pad _ _) as [((d & sh) & recs)| |]; [|exact Sa|exact Sa].
      set (t' := Task _ _ _ _ _ _ _ _). change (answers (sp_task s)) with (answers t').
      destruct d as [d|]; [|apply WP]. destruct (begin_write _ _); [apply PD|exists []; cbn; rewrite app_nil_r; reflexivity..].
    + unfold split_tick. destruct (shaper_decoy _) as ((d & sh) & recs).
      set (t' := Task _ _ _ _ _ _ _ _). change (answers (sp_task s)) with (answers t').
      destruct d as [d|]; [|eexists; reflexivity]. destruct (begin_write _ _); [apply DW|exists []; cbn; rewrite app_nil_r; reflexivity..].
  - apply PD.
  - apply PW.
  - apply DW.
Qed.

Lemma step_keeps (s : @split_task G) e : keeps (sp_task s) (sp_task (split_step s e)).
Proof.
  destruct e as [[c| |tf el|]|id]; cbn [split_step].
  - cbn [sp_task task_step]. destruct (senders _ && _); [|apply keeps_refl].
    split; [exists []; cbn; rewrite app_nil_r; reflexivity|]. cbn. auto.
  - split; [exists []; cbn; rewrite app_nil_r; reflexivity|]. cbn. auto.
  - apply poll_keeps.
  - cbn [sp_task task_step]. destruct (running (sp_task s)) eqn:Ru; [|apply keeps_refl].
    apply (keeps_ans _ _ []); [exact Ru|]. cbn. rewrite app_nil_r. reflexivity.
  - apply keeps_refl.
Qed.

Lemma events_keep : forall es (s : @split_task G) id x, answer_to (sp_task s) id = Some x -> answer_to (sp_task (split_run s es)) id = Some x.
Proof.
  induction es as [|e es IH]; intros s id x H; [exact H|]. unfold split_run. cbn [fold_left]. apply IH.
  eapply keeps_answer; [apply step_keeps|exact H].
Qed.

Lemma shaped_run_snoc : forall us u (s s' : @shaped_async G), shaped_run s (us ++ [u]) = Ret (Some s') ->
  exists s1, shaped_run s us = Ret (Some s1) /\ shaped_step s1 u = Ret (Some s').
Proof.
  induction us as [|v us IH]; intros u s s' H; cbn [app shaped_run] in H.
  - exists s. split; [reflexivity|]. apply bind_ret_inv in H. destruct H as ([s1|] & St & H); [|discriminate H].
    injection H as <-. exact St.
  - apply bind_ret_inv in H. destruct H as ([s1|] & St & H); [|discriminate H]. destruct (IH _ _ _ H) as (s2 & R2 & S2).
    exists s2. split; [|exact S2]. cbn [shaped_run]. rewrite St. exact R2.
Qed.

Lemma trail_sent : forall es (s : @split_task G), incl (trail s) [] -> incl (trail (split_run s es)) (senders_of es).
Proof.
  intros es s I. induction es as [|e es IH] using List.rev_ind; [exact I|].
  unfold split_run. rewrite fold_left_app. cbn [fold_left]. fold (split_run s es). set (s1 := split_run s es) in *. clearbody s1.
  unfold senders_of. rewrite flat_map_app. fold (senders_of es). fold (senders_of [e]).
  assert (Sh : forall s', shrinks s1 s' -> incl (trail s') (senders_of es ++ senders_of [e])).
  { intros s' ((rest & T) & _) x Ix. apply in_or_app. left. apply IH. rewrite T. apply in_or_app. left. exact Ix. }
  destruct e as [[c| |tf el|]|id]; cbn [split_step task_step].
  - destruct (senders _ && _).
    + unfold trail, held. cbn. rewrite map_app. intros x Ix. rewrite !app_assoc in Ix. apply in_app_or in Ix.
      apply in_or_app. destruct Ix as [Ix|Ix]; [left; apply IH; unfold trail, held; rewrite app_assoc; exact Ix|right; exact Ix].
    + apply Sh. apply shrinks_same; [destruct s1; reflexivity|cbn; lia].
  - apply Sh. apply shrinks_same; [reflexivity|cbn; lia].
  - apply Sh. apply poll_shrinks.
  - apply Sh. destruct (running _).
    + split; unfold trail, held; cbn; [|rewrite !app_length; cbn; lia].
      exists (map cmd_id (queue (sp_task s1))). rewrite app_nil_r, <- app_assoc. reflexivity.
    + apply shrinks_same; [destruct s1; reflexivity|cbn; lia].
  - apply Sh. apply shrinks_same; [reflexivity|lia].
Qed.

Definition new_session (r : tokio_reader) (w : pwriter) (sh : shaper G) (recs : list N) : @shaped_async G :=
  ShapedAsync r (split_new w sh recs) Unborrowed [] [] [].

Lemma unsent_unanswered (t : @task G) id : ~ In id (map fst (answers t)) ->
  answer_to t id = if running t then None else Some (Err gone).
Proof.
  intros No. unfold answer_to. destruct (find _ _) as [[i x]|] eqn:F; [|reflexivity].
  apply find_some in F. destruct F as (I & Eq). cbn in Eq. apply N.eqb_eq in Eq. subst i. exfalso. apply No.
  apply in_map_iff. exists (id, x). split; [reflexivity|exact I].
Qed.

Lemma senders_task us u : senders_of (task_events (us ++ [u])) = senders_of (task_events us) ++ senders_of (task_events [u]).
Proof. unfold task_events, senders_of. rewrite !flat_map_app. reflexivity. Qed.

(** The writes that have returned gave what the task answered. *)
Lemma writes_right r w sh recs : forall us s, shaped_run (new_session r w sh recs) us = Ret (Some s) ->
  NoDup (senders_of (task_events us)) ->
  Forall (fun a => answer_to (sp_task (sa_task s)) (fst a) = Some (snd a)) (sa_writes s).
Proof.
  intros us. induction us as [|u us IH] using List.rev_ind; intros s H Nd.
  - injection H as <-. constructor.
  - apply shaped_run_snoc in H. destruct H as (s1 & H & St). rewrite senders_task in Nd.
    specialize (IH s1 H (nodup_l _ _ Nd)).
    destruct (run_halves _ _ _ H) as (T1 & _). destruct (step_halves _ _ _ St) as (T & _).
    assert (Ke : forall ws, Forall (fun a => answer_to (sp_task (sa_task s1)) (fst a) = Some (snd a)) ws ->
      Forall (fun a => answer_to (sp_task (sa_task s)) (fst a) = Some (snd a)) ws).
    { intros ws F. eapply Forall_impl; [|exact F]. intros (i & x) A. rewrite T. apply events_keep. exact A. }
    assert (Sm : sa_writes s = sa_writes s1 ->
      Forall (fun a => answer_to (sp_task (sa_task s)) (fst a) = Some (snd a)) (sa_writes s)) by (intros ->; apply Ke, IH).
    assert (Po : forall f, shaped_poll s1 f = Ret (Some s) -> sa_writes s = sa_writes s1).
    { intros f Q. unfold shaped_poll in Q. apply bind_ret_inv in Q. destruct Q as ([[[x r1] f1] rc] & _ & Q).
      destruct x; injection Q as <-; reflexivity. }
    destruct u as [|c| | | |tf el|]; cbn [shaped_step] in St.
    + destruct (sa_borrow s1); try discriminate St; apply Sm; eapply Po; exact St.
    + destruct (sa_borrow s1); try discriminate St. destruct (running (sp_task (sa_task s1))) eqn:Ru; injection St as <-; [apply Sm; reflexivity|].
      cbn [write_done sa_writes sa_task]. apply Forall_app. split; [exact IH|]. constructor; [|constructor]. cbn [fst snd].
      rewrite unsent_unanswered, Ru; [reflexivity|]. intros Ia.
      assert (It : In (cmd_id c) (trail (sa_task s1))) by (unfold trail; apply in_or_app; left; exact Ia).
      rewrite T1 in It. apply trail_sent in It; [|intros x []].
      eapply nodup_disjoint; [exact Nd|exact It|left; reflexivity].
    + destruct (sa_borrow s1); try discriminate St. destruct (answer_to _ id) as [x|] eqn:A; injection St as <-; [|apply Sm; reflexivity].
      cbn [write_done sa_writes sa_task]. apply Forall_app. split; [exact IH|]. constructor; [exact A|constructor].
    + destruct (sa_borrow s1); try discriminate St; injection St as <-; apply Sm; reflexivity.
    + destruct (sa_borrow s1); try discriminate St; injection St as <-; apply Sm; reflexivity.
    + injection St as <-. apply Sm. reflexivity.
    + injection St as <-. apply Sm. reflexivity.
Qed.

(** Of the writes begun at most the one awaited has no answer. *)
Lemma writes_open r w sh recs : forall us s, shaped_run (new_session r w sh recs) us = Ret (Some s) ->
  writes_awaited (new_session r w sh recs) us ->
  forall id, In id (senders_of (task_events us)) -> answer_to (sp_task (sa_task s)) id = None -> sa_borrow s = Awaiting id.
Proof.
  intros us. induction us as [|u us IH] using List.rev_ind; intros s H Aw id Ii A; [destruct Ii|].
  apply shaped_run_snoc in H. destruct H as (s1 & H & St). rewrite senders_task in Ii.
  destruct (step_halves _ _ _ St) as (T & _).
  assert (Aw1 : writes_awaited (new_session r w sh recs) us).
  { intros us1 us2 s2 i Eq. apply (Aw us1 (us2 ++ [u]) s2 i). rewrite Eq, <- app_assoc. reflexivity. }
  assert (A1 : answer_to (sp_task (sa_task s1)) id = None).
  { destruct (answer_to (sp_task (sa_task s1)) id) as [x|] eqn:Q; [|reflexivity]. rewrite T, (events_keep _ _ _ _ Q) in A. discriminate A. }
  specialize (IH s1 H Aw1 id).
  apply in_app_or in Ii. destruct Ii as [Ii|Ii].
  - specialize (IH Ii A1). destruct u as [|c| | | |tf el|]; cbn [shaped_step] in St; try rewrite IH in St; try discriminate St.
    + rewrite A1 in St. injection St as <-. exact IH.
    + exfalso. exact (Aw us [] s1 id eq_refl H IH).
    + injection St as <-. reflexivity.
    + injection St as <-. reflexivity.
  - destruct u as [|c| | | |tf el|]; try (destruct Ii; fail). destruct Ii as [<-|[]]. cbn [shaped_step] in St.
    destruct (sa_borrow s1); try discriminate St. destruct (running (sp_task (sa_task s1))) eqn:Ru; injection St as <-; [reflexivity|].
    unfold answer_to in A1. rewrite Ru in A1. destruct (find _ _) as [[i x]|]; discriminate A1.
Qed.

Lemma task_cons u us : task_events (u :: us) = task_events [u] ++ task_events us.
Proof. unfold task_events. rewrite <- flat_map_app. reflexivity. Qed.

(** Every prefix of the events of the task ends a prefix of the uses. *)
Lemma prefix_of_uses : forall us es1 c es2, task_events us = es1 ++ Ev (Send c) :: es2 ->
  exists us1 us2, us = us1 ++ AWrite c :: us2 /\ task_events us1 = es1.
Proof.
  induction us as [|u us IH]; intros es1 c es2 H; [destruct es1; discriminate H|].
  assert (One : forall e, task_events (u :: us) = e :: task_events us -> (forall c', e = Ev (Send c') -> u = AWrite c') ->
    exists us1 us2, u :: us = us1 ++ AWrite c :: us2 /\ task_events us1 = es1).
  { intros e Q W. rewrite Q in H. destruct es1 as [|e1 es1].
    - injection H as -> _. rewrite (W c eq_refl). exists [], us. split; reflexivity.
    - injection H as -> H. destruct (IH _ _ _ H) as (us1 & us2 & -> & Eq). exists (u :: us1), us2. split; [reflexivity|].
      rewrite task_cons, Eq. rewrite task_cons in Q.
      change (e1 :: task_events (us1 ++ AWrite c :: us2)) with ([e1] ++ task_events (us1 ++ AWrite c :: us2)) in Q.
      apply app_inv_tail in Q. rewrite Q. reflexivity. }
  assert (Non : task_events (u :: us) = task_events us -> task_events [u] = [] ->
    exists us1 us2, u :: us = us1 ++ AWrite c :: us2 /\ task_events us1 = es1).
  { intros Q W. rewrite Q in H. destruct (IH _ _ _ H) as (us1 & us2 & -> & Eq). exists (u :: us1), us2. split; [reflexivity|].
    rewrite task_cons, W. exact Eq. }
  destruct u; try (apply Non; reflexivity); (eapply One; [reflexivity|]); intros c' Q; try discriminate Q. injection Q as ->. reflexivity.
Qed.

Lemma shaped_run_prefix : forall us1 us2 (s s' : @shaped_async G), shaped_run s (us1 ++ us2) = Ret (Some s') ->
  exists s1, shaped_run s us1 = Ret (Some s1) /\ shaped_run s1 us2 = Ret (Some s').
Proof.
  induction us1 as [|u us1 IH]; intros us2 s s' H; cbn [app shaped_run] in H; [exists s; split; [reflexivity|exact H]|].
  apply bind_ret_inv in H. destruct H as ([s1|] & St & H); [|discriminate H]. destruct (IH _ _ _ H) as (s2 & R2 & S2).
  exists s2. split; [|exact S2]. cbn [shaped_run]. rewrite St. exact R2.
Qed.

Lemma session_patient r w sh recs us s : shaped_run (new_session r w sh recs) us = Ret (Some s) ->
  writes_awaited (new_session r w sh recs) us -> NoDup (senders_of (task_events us)) ->
  patient (split_new w sh recs) (task_events us).
Proof.
  intros H Aw Nd. split; [exact Nd|]. intros es1 c es2 id Eq Ii A.
  destruct (prefix_of_uses _ _ _ _ Eq) as (us1 & us2 & -> & <-).
  destruct (shaped_run_prefix _ _ _ _ H) as (s1 & H1 & H2).
  destruct (run_halves _ _ _ H1) as (T1 & _). cbn [new_session sa_task] in T1.
  assert (B : sa_borrow s1 = Awaiting id).
  { apply (writes_open r w sh recs us1 s1 H1); [|exact Ii|rewrite T1; exact A].
    intros v1 v2 s2 i Q. apply (Aw v1 (v2 ++ AWrite c :: us2) s2 i). rewrite Q, <- app_assoc. reflexivity. }
  cbn [shaped_run shaped_step] in H2. rewrite B in H2. discriminate H2.
Qed.

End WithEnv.

(** ** C90 *)

(** Blocking: the two halves of a session that is not split do what they do when split. *)
Theorem C90_blocking : forall (E : Env) (G : Type) (R : Rng G) ms r (sh : @shared G) s',
  session_run (ShapedSession r sh false [] []) ms = Ret (Some s') ->
  play sh (writer_moves ms) = Some (snd (session_split s')) /\
  shaped_reads (reads_done ms) r = Ret (ss_reads s', fst (session_split s'), ss_recorded s').
Proof.
  intros E G R ms r sh s' H. destruct (session_halves _ _ _ H) as (P & xs & recs & Rd & X & Rc).
  cbn [ss_shared ss_reader ss_reads ss_recorded app] in *. split; [exact P|]. cbn. rewrite X, Rc. exact Rd.
Qed.
Print Assumptions C90_blocking.

(** What splitting adds: without it no write is in progress while a read is. *)
Theorem C90_one_call : forall (E : Env) (G : Type) (R : Rng G) ms r (sh : @shared G) s',
  session_run (ShapedSession r sh false [] []) ms = Ret (Some s') ->
  ss_reading s' = true -> app_at (ss_shared s') = AppOut.
Proof. intros E G R ms r sh s' H. apply (reading_out _ _ _ H). discriminate. Qed.
Print Assumptions C90_one_call.

(** Asynchronous: the same; and the writes return what the task answers. *)
Theorem C90_async : forall (E : Env) (G : Type) (R : Rng G) us r w (sh : shaper G) recs s',
  shaped_run (new_session r w sh recs) us = Ret (Some s') ->
  snd (async_split s') = split_run (split_new w sh recs) (task_events us) /\
  shaped_schedule (read_actions us) FreshFuture r = Ret (sa_reads s', fst (async_split s'), read_future_of (sa_borrow s'), sa_recorded s') /\
  (NoDup (senders_of (task_events us)) ->
   Forall (fun a => answer_to (sp_task (sa_task s')) (fst a) = Some (snd a)) (sa_writes s')).
Proof.
  intros E G R us r w sh recs s' H. destruct (run_halves _ _ _ H) as (T & xs & rc & Q & X & Rc).
  cbn [new_session sa_task sa_reader sa_borrow sa_reads sa_recorded app read_future_of] in *.
  split; [exact T|]. split; [cbn; rewrite X, Rc; exact Q|]. apply (writes_right r w sh recs us s' H).
Qed.
Print Assumptions C90_async.

(** An application that drops no write before it is done is patient in the sense of C88, so at most one command is held for it. *)
Theorem C90_patient : forall (E : Env) (G : Type) (R : Rng G) us r w (sh : shaper G) recs s',
  shaped_run (new_session r w sh recs) us = Ret (Some s') ->
  writes_awaited (new_session r w sh recs) us -> NoDup (senders_of (task_events us)) ->
  patient (split_new w sh recs) (task_events us) /\
  (length (queue (sp_task (sa_task s'))) + length (waiting (sp_place (sa_task s'))) <= 1)%nat.
Proof.
  intros E G R us r w sh recs s' H Aw Nd. pose proof (session_patient _ _ _ _ _ _ H Aw Nd) as Pa. split; [exact Pa|].
  destruct (run_halves _ _ _ H) as (T & _). rewrite T. exact (C88_patient E G R w sh recs _ Pa).
Qed.
Print Assumptions C90_patient.

(** One borrow of the session at a time is not enough for that: the future of a write may be dropped, and its command stays. *)
Theorem C90_one_held_refuted :
  ~ forall (E : Env) (EL : EnvLaws E) (G : Type) (R : Rng G) (RL : RngLaws G R) us r w (sh : shaper G) recs s',
      shaped_run (new_session r w sh recs) us = Ret (Some s') -> NoDup (senders_of (task_events us)) ->
      (length (queue (sp_task (sa_task s'))) + length (waiting (sp_place (sa_task s'))) <= 1)%nat.
Proof.
  intros H.
  pose (us := [AWrite (Command 1 (genuine [x01])); ADropFuture; AWrite (Command 2 (genuine [x01])); ADropFuture]).
  pose (r := TReader toy_in (TokioReader [] 0 []) init_reading_length).
  pose (w := PWriter toy_in fresh).
  pose (sh := Shaper (Config Disabled Disabled) ([] : list N)).
  specialize (H (toy true) (toy_laws true) _ draws draws_laws us r w sh []).
  destruct (@shaped_run (toy true) _ draws (new_session r w sh []) us) as [[s'|]| |] eqn:Q; [|vm_compute in Q; discriminate Q..].
  specialize (H s' eq_refl). vm_compute in Q. injection Q as <-. cbn in H. cut (2 <= 1)%nat; [lia|]. apply H.
  repeat constructor; cbn; intuition discriminate.
Qed.
Print Assumptions C90_one_held_refuted.

(** A blocking session writes, reads, writes; an asynchronous one gives up a read, writes, and reads on; the second write of it is
    given up and sent all the same. *)
Definition whole_session : @shaped_session (list N) :=
  ShapedSession (SyncReader toy_in (ChainReader (take 9 two_packets) false [Chunk (drop 9 two_packets)]))
    (shared_new (PWriter toy_in fresh) (Shaper (Config Disabled Disabled) []) []) false [] [].
Definition whole_async : @shaped_async (list N) :=
  new_session (TReader toy_in (TokioReader [] 0 [Chunk (take 9 two_packets); Pending; Chunk (drop 9 two_packets); Pending]) init_reading_length)
    (PWriter toy_in (Writer [Accept 5; WPending] [] [])) (Shaper (Config Disabled Disabled) []) [].
Example C90_example :
  (match @session_run (toy true) _ draws whole_session
     [SWrite (genuine [x01; x02; x03]); SApp; SThread; SApp; SApp; SRead; SThread; SReadReturn; SWrite (decoy []); SApp; SApp; SApp; SRead] with
   | Ret (Some s) =>
     ss_reads s = [Ok (Decrypted [x00; x01; x02; x03])] /\ ss_recorded s = [3] /\ ss_reading s = true /\ app_at (ss_shared s) = AppOut /\
     written (pw_writer (st_writer (ss_shared s))) = two_packets
   | _ => False
   end) /\
  @session_run (toy true) _ draws whole_session [SWrite (genuine [x01]); SApp; SRead] = Ret None /\
  @session_run (toy true) _ draws whole_session [SRead; SWrite (genuine [x01])] = Ret None /\
  (match @shaped_run (toy true) _ draws whole_async
     [APollRead; ADropFuture; AWrite (Command 1 (genuine [x01; x02; x03])); ATask false false; APollWrite; ATask false false; APollWrite;
      APollRead; APollRead; AWrite (Command 2 (decoy [])); ADropFuture; ATask false false; APollRead] with
   | Ret (Some s) =>
     sa_reads s = [Ok (Decrypted [x00; x01; x02; x03]); Ok (Decrypted [x80])] /\ sa_recorded s = [3; 0] /\ sa_writes s = [(1, Ok tt)] /\
     sa_borrow s = Reading AtLength /\ answers (sp_task (sa_task s)) = [(1, Ok tt); (2, Ok tt)] /\
     written (pw_writer (tk_writer (sp_task (sa_task s)))) = two_packets
   | _ => False
   end) /\
  @shaped_run (toy true) _ draws whole_async [AWrite (Command 1 (genuine [x01])); APollRead] = Ret None.
Proof. vm_compute. repeat split. Qed.
