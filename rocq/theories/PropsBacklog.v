(** * Property C88: how much waits in the channel to the writer task of traffic/src/futures.rs *)
From Coq Require Import List NArith ZArith Bool Lia.
From Coq.Strings Require Import Byte.
From Verif Require Import Base BaseFacts Env FsChacha Cipher Handshake Transport Io Futures
  Traffic TrafficFutures TrafficTask SpecTask Toy PropsHandshake PropsIo PropsTraffic.
Import ListNotations.
Local Open Scope N_scope.

(** ** Vocabulary *)

(** The callers that have put a command into the channel. *)
Definition senders_of (es : list split_event) : list N :=
  flat_map (fun e => match e with Ev (Send c) => [cmd_id c] | _ => [] end) es.

Section WithEnv.
Context {E : Env} {G : Type} {R : Rng G}.

(** Nobody gives up: whenever somebody writes, all the writes before have returned.  [write] takes [&mut self] and the writer
    cannot be cloned, so this is so unless the future of a [write] is dropped. *)
Definition patient (s : @split_task G) (es : list split_event) : Prop :=
  NoDup (senders_of es) /\
  forall es1 c es2 id, es = es1 ++ Ev (Send c) :: es2 -> In id (senders_of es1) ->
    answer_to (sp_task (split_run s es1)) id <> None.

(** The commands held for callers: those in the channel and the one being written. *)
Definition held (s : @split_task G) : list N := waiting (sp_place s) ++ map cmd_id (queue (sp_task s)).

(** ** Proofs *)

Definition trail (s : @split_task G) : list N := map fst (answers (sp_task s)) ++ held s.

Definition shrinks (s s' : @split_task G) : Prop :=
  (exists rest, trail s = trail s' ++ rest) /\ (length (held s') <= length (held s))%nat.

Lemma shrinks_same s s' : trail s = trail s' -> (length (answers (sp_task s)) <= length (answers (sp_task s')))%nat -> shrinks s s'.
Proof.
  intros T A. split; [exists []; rewrite app_nil_r; exact T|].
  apply (f_equal (@length N)) in T. unfold trail in T. rewrite !app_length, !map_length in T. lia.
Qed.

Lemma shrinks_trans s s' s'' : shrinks s s' -> shrinks s' s'' -> shrinks s s''.
Proof.
  intros ((r & T) & H) ((r' & T') & H'). split; [|lia]. exists (r' ++ r). rewrite T, T', app_assoc. reflexivity.
Qed.

(** What a branch of the task does from the moment on at which it has [cmd] in its hand. *)
Definition in_hand (t : @task G) (cmd : list N) : list N := map fst (answers t) ++ cmd ++ map cmd_id (queue t).

Definition from_hand (t : @task G) (cmd : list N) (s' : @split_task G) : Prop :=
  (exists rest, in_hand t cmd = trail s' ++ rest) /\ (length (held s') <= length (cmd ++ map cmd_id (queue t)))%nat.

Lemma hand_panic t cmd : from_hand t cmd (branch_panic t).
Proof.
  split; cbn; [|lia]. exists (cmd ++ map cmd_id (queue t)). unfold in_hand, trail, held. cbn. rewrite app_nil_r. reflexivity.
Qed.

Lemma hand_end t w cmd x : from_hand t [cmd] (branch_end t w [(cmd, x)]).
Proof.
  split; cbn; [|lia]. exists []. unfold in_hand, trail, held. cbn. rewrite map_app, app_nil_r, <- app_assoc. reflexivity.
Qed.

Lemma hand_end0 t w : from_hand t [] (branch_end t w []).
Proof.
  split; cbn; [|lia]. exists []. unfold in_hand, trail, held. cbn. rewrite !app_nil_r. reflexivity.
Qed.

Lemma hand_payload_wrote t cmd r : from_hand t [cmd_id cmd] (payload_wrote t cmd r).
Proof.
  destruct r as ([f|x] & w); cbn [payload_wrote]; [|apply hand_end].
  split; cbn; [|lia]. exists []. unfold in_hand, trail, held. cbn. rewrite app_nil_r. reflexivity.
Qed.

Lemma hand_write_payload t cmd : from_hand t [cmd_id cmd] (write_payload t cmd).
Proof. unfold write_payload. destruct (begin_write _ _); [apply hand_payload_wrote|apply hand_panic..]. Qed.

Lemma hand_pad_wrote t cmd r : from_hand t [cmd_id cmd] (pad_wrote t cmd r).
Proof.
  destruct r as ([f|[u|e]] & w); cbn [pad_wrote]; [|apply (hand_write_payload (with_writer t w))|apply hand_end].
  split; cbn; [|lia]. exists []. unfold in_hand, trail, held. cbn. rewrite app_nil_r. reflexivity.
Qed.

Lemma hand_decoy_wrote t r : from_hand t [] (decoy_wrote t r).
Proof.
  destruct r as ([f|x] & w); cbn [decoy_wrote]; [|apply hand_end0].
  split; cbn; [|lia]. exists []. unfold in_hand, trail, held. cbn. rewrite app_nil_r. reflexivity.
Qed.

Lemma shrinks_of_hand s cmd s' : waiting (sp_place s) = cmd -> from_hand (sp_task s) cmd s' -> shrinks s s'.
Proof. intros <- F. exact F. Qed.

Lemma poll_shrinks order elapsed s : shrinks s (split_poll order elapsed s).
Proof.
  assert (Refl : shrinks s s) by (apply shrinks_same; [reflexivity|lia]).
  unfold split_poll. destruct (running (sp_task s)) eqn:Ru; [|exact Refl].
  destruct (sp_place s) eqn:Pl.
  - destruct (select _ _ _) as [[|i]| |d].
    + destruct (queue (sp_task s)) as [|cmd q] eqn:Qu; [exact Refl|].
      set (t := sp_task s) in *.
      assert (K : forall (t' : @task G) s', map fst (answers t') = map fst (answers t) -> queue t' = q ->
        from_hand t' [cmd_id cmd] s' -> shrinks s s').
      { intros t' s' A Q (X & L). unfold shrinks, trail, held. fold t. rewrite Pl, Qu. cbn [waiting map app].
        unfold in_hand in X. rewrite A, Q in X. rewrite Q in L. split; [exact X|exact L]. }
      assert (KP : shrinks s (branch_panic t)).
      { split; unfold trail, held; fold t; rewrite Pl, Qu; cbn; [|lia].
        exists (cmd_id cmd :: map cmd_id q). rewrite app_nil_r. reflexivity. }
      unfold split_handle. destruct (shaper_pad _ _) as [((d & sh) & recs)| |]; try exact KP.
      destruct d as [d|].
      * destruct (begin_write _ _) as [r| |].
        -- eapply K; [| |apply hand_pad_wrote]; reflexivity.
        -- eapply K; [| |apply hand_panic]; reflexivity.
        -- eapply K; [| |apply hand_panic]; reflexivity.
      * eapply K; [| |apply hand_write_payload]; reflexivity.
    + unfold split_tick. destruct (shaper_decoy _) as ((d & sh) & recs).
      set (t' := Task _ _ _ _ _ _ _ _).
      assert (K : forall s', from_hand t' [] s' -> shrinks s s').
      { intros s' (X & L). unfold shrinks, trail, held. rewrite Pl. split; [exact X|exact L]. }
      destruct d as [d|].
      * destruct (begin_write _ _) as [r| |]; apply K; [apply hand_decoy_wrote|apply hand_panic..].
      * apply K, hand_end0.
    + apply (shrinks_of_hand s []); [rewrite Pl; reflexivity|]. apply hand_panic.
    + split; unfold trail, held; rewrite Pl; cbn; [|lia]. exists []. rewrite app_nil_r. reflexivity.
  - apply (shrinks_of_hand s [cmd_id cmd]); [rewrite Pl; reflexivity|]. apply hand_pad_wrote.
  - apply (shrinks_of_hand s [cmd_id cmd]); [rewrite Pl; reflexivity|]. apply hand_payload_wrote.
  - apply (shrinks_of_hand s []); [rewrite Pl; reflexivity|]. apply hand_decoy_wrote.
Qed.

(** A task that is gone has nothing in its channel. *)
Lemma poll_stopped order elapsed s :
  (running (sp_task s) = false -> queue (sp_task s) = []) ->
  running (sp_task (split_poll order elapsed s)) = false -> queue (sp_task (split_poll order elapsed s)) = [].
Proof.
  intros H0. unfold split_poll. destruct (running (sp_task s)) eqn:Ru; [clear H0|intros _; apply H0; reflexivity].
  assert (PW : forall (t : @task G) cmd r, running t = true -> running (sp_task (payload_wrote t cmd r)) = false ->
    queue (sp_task (payload_wrote t cmd r)) = []).
  { intros t cmd ([f|x] & w) Rt; cbn; congruence. }
  assert (WP : forall (t : @task G) cmd, running t = true -> running (sp_task (write_payload t cmd)) = false ->
    queue (sp_task (write_payload t cmd)) = []).
  { intros t cmd Rt. unfold write_payload. destruct (begin_write _ _); [apply PW; exact Rt|reflexivity..]. }
  assert (PD : forall (t : @task G) cmd r, running t = true -> running (sp_task (pad_wrote t cmd r)) = false ->
    queue (sp_task (pad_wrote t cmd r)) = []).
  { intros t cmd ([f|[u|x]] & w) Rt; cbn [pad_wrote]; [cbn; congruence|apply WP; exact Rt|cbn; congruence]. }
  assert (DW : forall (t : @task G) r, running t = true -> running (sp_task (decoy_wrote t r)) = false ->
    queue (sp_task (decoy_wrote t r)) = []).
  { intros t ([f|x] & w) Rt; cbn; congruence. }
  destruct (sp_place s).
  - destruct (select _ _ _) as [[|i]| |d].
    + destruct (queue (sp_task s)) as [|cmd q]; [congruence|].
      unfold split_handle. destruct (shaper_pad _ _) as [((d & sh) & recs)| |]; try reflexivity.
      destruct d as [d|]; [|apply WP; exact Ru].
      destruct (begin_write _ _); [apply PD; exact Ru|reflexivity..].
    + unfold split_tick. destruct (shaper_decoy _) as ((d & sh) & recs).
      destruct d as [d|]; [|cbn; discriminate]. destruct (begin_write _ _); [apply DW; exact Ru|reflexivity..].
    + reflexivity.
    + cbn. discriminate.
  - apply PD; exact Ru.
  - apply PW; exact Ru.
  - apply DW; exact Ru.
Qed.

Lemma answered_in (t : @task G) id : running t = true -> answer_to t id <> None -> In id (map fst (answers t)).
Proof.
  intros Ru A. unfold answer_to in A. destruct (find _ _) as [(i & x)|] eqn:Fi.
  - apply find_some in Fi. destruct Fi as (Hin & Eq). cbn in Eq. apply N.eqb_eq in Eq. subst i.
    apply in_map_iff. exists (id, x). split; [reflexivity|exact Hin].
  - rewrite Ru in A. contradiction.
Qed.

Record backlog_inv (es : list split_event) (s : @split_task G) : Prop := {
  bi_nodup : NoDup (trail s);
  bi_sent : incl (trail s) (senders_of es);
  bi_stop : running (sp_task s) = false -> queue (sp_task s) = [];
  bi_one : (length (held s) <= 1)%nat
}.


Lemma nodup_l (l r : list N) : NoDup (l ++ r) -> NoDup l.
Proof.
  induction l as [|x l IH]; cbn; intros H; constructor; inversion H; subst.
  - intros I. apply H2, in_or_app. left. exact I.
  - apply IH. assumption.
Qed.

Lemma nodup_disjoint (l r : list N) x : NoDup (l ++ r) -> In x l -> In x r -> False.
Proof.
  induction l as [|y l IH]; cbn; [intros _ []|]. intros H [->|Il] Ir; inversion H; subst.
  - apply H2, in_or_app. right. exact Ir.
  - apply IH; assumption.
Qed.

Lemma nodup_snoc (l : list N) x : NoDup l -> ~ In x l -> NoDup (l ++ [x]).
Proof.
  induction l as [|y l IH]; cbn; intros H Nx; [repeat constructor; intros []|].
  inversion H; subst. constructor.
  - intros I. apply in_app_or in I. destruct I as [I|[->|[]]]; [contradiction|]. apply Nx. left. reflexivity.
  - apply IH; [assumption|]. intros I. apply Nx. right. exact I.
Qed.

Lemma senders_snoc es e : senders_of (es ++ [e]) = senders_of es ++ senders_of [e].
Proof. apply flat_map_app. Qed.

Lemma inv_shrinks es e s s' : backlog_inv es s -> shrinks s s' ->
  (running (sp_task s') = false -> queue (sp_task s') = []) -> backlog_inv (es ++ [e]) s'.
Proof.
  intros [Nd Se St On] ((rest & T) & L) St'. split.
  - rewrite T in Nd. apply nodup_l in Nd. exact Nd.
  - intros x I. rewrite senders_snoc. apply in_or_app. left. apply Se. rewrite T. apply in_or_app. left. exact I.
  - exact St'.
  - lia.
Qed.

Lemma backlog_inv_run s0 : backlog_inv [] s0 -> forall es, patient s0 es -> backlog_inv es (split_run s0 es).
Proof.
  intros I0 es. induction es as [|e es IH] using List.rev_ind; [intros _; exact I0|].
  intros (Nd & Pa). unfold split_run. rewrite fold_left_app. cbn [fold_left]. fold (split_run s0 es).
  rewrite senders_snoc in Nd.
  assert (I : backlog_inv es (split_run s0 es)).
  { apply IH. split.
    - eapply nodup_l. exact Nd.
    - intros es1 c es2 id Eq. apply (Pa es1 c (es2 ++ [e]) id). rewrite Eq, <- app_assoc. reflexivity. }
  specialize (fun c id => Pa es c [] id). clear IH I0. set (s := split_run s0 es) in *. clearbody s.
  destruct e as [[c| |tf el|]|id]; cbn [split_step task_step].
  - destruct (senders (sp_task s) && running (sp_task s)) eqn:Ac.
    + apply andb_true_iff in Ac. destruct Ac as (_ & Ru).
      assert (H0 : held s = []).
      { destruct (held s) as [|x l] eqn:Hh; [reflexivity|exfalso].
        assert (Ix : In x (trail s)) by (unfold trail; rewrite Hh; apply in_or_app; right; left; reflexivity).
        pose proof (answered_in (sp_task s) x Ru (Pa c x eq_refl (bi_sent _ _ I x Ix))) as A.
        pose proof (bi_nodup _ _ I) as Nt. unfold trail in Nt. rewrite Hh in Nt.
        eapply nodup_disjoint; [exact Nt|exact A|left; reflexivity]. }
      set (s' := SplitTask _ _).
      assert (H1 : held s' = [cmd_id c]).
      { unfold held in *. apply app_eq_nil in H0. destruct H0 as (Hw & Hq). subst s'. cbn. rewrite Hw, map_app, Hq. reflexivity. }
      assert (T1 : trail s' = trail s ++ [cmd_id c]).
      { unfold trail. rewrite H1, H0, app_nil_r. reflexivity. }
      split.
      * rewrite T1. apply nodup_snoc; [exact (bi_nodup _ _ I)|]. intros Ix. apply (bi_sent _ _ I) in Ix.
        eapply nodup_disjoint; [exact Nd|exact Ix|left; reflexivity].
      * rewrite T1, senders_snoc. intros x Ix. apply in_or_app. apply in_app_or in Ix.
        destruct Ix as [Ix|Ix]; [left; apply (bi_sent _ _ I); exact Ix|right; exact Ix].
      * subst s'. cbn. congruence.
      * rewrite H1. cbn. lia.
    + destruct s as [t pl]. apply (inv_shrinks es _ (SplitTask t pl)); [exact I| |exact (bi_stop _ _ I)].
      apply shrinks_same; [reflexivity|cbn; lia].
  - apply (inv_shrinks es _ s); [exact I| |exact (bi_stop _ _ I)]. apply shrinks_same; [reflexivity|cbn; lia].
  - apply (inv_shrinks es _ s); [exact I|apply poll_shrinks|apply poll_stopped; exact (bi_stop _ _ I)].
  - destruct (running (sp_task s)) eqn:Ru.
    + apply (inv_shrinks es _ s); [exact I| |reflexivity]. split; unfold trail, held; cbn; [|rewrite !app_length; cbn; lia].
      exists (map cmd_id (queue (sp_task s))). rewrite app_nil_r, <- app_assoc. reflexivity.
    + destruct s as [t pl]. apply (inv_shrinks es _ (SplitTask t pl)); [exact I| |exact (bi_stop _ _ I)].
      apply shrinks_same; [reflexivity|cbn; lia].
  - apply (inv_shrinks es _ s); [exact I| |exact (bi_stop _ _ I)]. apply shrinks_same; [reflexivity|lia].
Qed.

Lemma backlog_inv_new w sh recs : backlog_inv [] (split_new w sh recs).
Proof. split; cbn; [constructor|intros x []|reflexivity|lia]. Qed.

End WithEnv.

(** ** C88 *)

(** As long as nobody gives up a write, at most one command is held, in the channel or by the task. *)
Theorem C88_patient : forall (E : Env) (G : Type) (R : Rng G) p sh recs es,
  patient (split_new p sh recs) es ->
  let s := split_run (split_new p sh recs) es in
  (length (queue (sp_task s)) + length (waiting (sp_place s)) <= 1)%nat.
Proof.
  intros E G R p sh recs es Pa s.
  pose proof (bi_one _ _ (backlog_inv_run _ (backlog_inv_new p sh recs) es Pa)) as H. fold s in H.
  unfold held in H. rewrite app_length, map_length in H. lia.
Qed.
Print Assumptions C88_patient.

(** A task in the middle of a packet which the transport does not take. *)
Definition in_packet (pl : place) : Prop :=
  exists b rest, match pl with InPad f _ | InPayload f _ | InDecoy f => f = Writing (b :: rest) | AtSelect => False end.

(** A command sent while the transport takes nothing stays in the channel, also when its caller has given up: polled ever so
    often, the task neither begins it nor removes it. *)
Theorem C88_stalled : forall (E : Env) (G : Type) (R : Rng G) (s : @split_task G) cs script,
  running (sp_task s) = true -> senders (sp_task s) = true -> in_packet (sp_place s) ->
  w_script (pw_writer (tk_writer (sp_task s))) = repeat WPending (length cs) ++ script ->
  let s' := split_run s (flat_map (fun c => [Ev (Send c); Ev (Poll false true); Abandon (cmd_id c)]) cs) in
  queue (sp_task s') = queue (sp_task s) ++ cs /\ answers (sp_task s') = answers (sp_task s) /\
  written (pw_writer (tk_writer (sp_task s'))) = written (pw_writer (tk_writer (sp_task s))).
Proof.
  intros E G R s cs. revert s. induction cs as [|c cs IH]; intros s script Ru Se Pl Ws; cbn zeta.
  - cbn. rewrite app_nil_r. repeat split.
  - cbn [flat_map app]. unfold split_run. cbn [fold_left].
    set (s1 := split_step (split_step (split_step s _) _) _).
    assert (S1 : running (sp_task s1) = true /\ senders (sp_task s1) = true /\ sp_place s1 = sp_place s /\
      w_script (pw_writer (tk_writer (sp_task s1))) = repeat WPending (length cs) ++ script /\
      queue (sp_task s1) = queue (sp_task s) ++ [c] /\ answers (sp_task s1) = answers (sp_task s) /\
      written (pw_writer (tk_writer (sp_task s1))) = written (pw_writer (tk_writer (sp_task s)))).
    { subst s1. destruct s as [[[ci [ws fl wr]] sh q se sl ru rc an] pl]. cbn in Ru, Se, Ws. subst ru se ws.
      destruct Pl as (b & rest & Pl).
      destruct pl as [|f cmd|f cmd|f]; [contradiction|cbn in Pl; subst f..]; cbn; rewrite app_nil_r; repeat split. }
    destruct S1 as (Ru1 & Se1 & Pl1 & Ws1 & Q1 & A1 & W1).
    rewrite <- Pl1 in Pl. destruct (IH s1 script Ru1 Se1 Pl Ws1) as (Q & A & W). unfold split_run in Q, A, W.
    rewrite Q, A, W, Q1, A1, W1, <- app_assoc. repeat split.
Qed.
Print Assumptions C88_stalled.

Definition stuck_task (n : nat) : @split_task (list N) :=
  @split_run (toy true) _ draws
    (split_new (PWriter toy_in (Writer (Accept 5 :: WPending :: repeat WPending n) [] [])) (Shaper (Config Disabled Disabled) []) [])
    [Ev (Send (Command 0 (genuine [x01]))); Ev (Poll false false)].

(** So no bound holds for what waits in the channel when callers give up, say after a time limit of their own. *)
Theorem C88_bounded_refuted :
  ~ exists bound, forall (E : Env) (EL : EnvLaws E) (G : Type) (R : Rng G) (RL : RngLaws G R) p sh recs es,
      NoDup (senders_of es) -> (length (queue (sp_task (split_run (split_new p sh recs) es))) <= bound)%nat.
Proof.
  intros (bound & H).
  set (cs := map (fun i => Command (N.of_nat i) (genuine [x02])) (seq 1 (S bound))).
  assert (L : length cs = S bound) by (unfold cs; rewrite map_length, seq_length; reflexivity).
  pose proof (C88_stalled (toy true) _ draws (stuck_task (length cs)) cs []) as St. cbn zeta in St.
  destruct St as (Q & _ & _); [reflexivity|reflexivity|eexists _, _; reflexivity|rewrite app_nil_r; reflexivity|].
  specialize (H (toy true) (toy_laws true) _ draws draws_laws
    (PWriter toy_in (Writer (Accept 5 :: WPending :: repeat WPending (length cs)) [] [])) (Shaper (Config Disabled Disabled) []) []
    ([Ev (Send (Command 0 (genuine [x01]))); Ev (Poll false false)] ++
     flat_map (fun c => [Ev (Send c); Ev (Poll false true); Abandon (cmd_id c)]) cs)).
  match type of H with _ -> (length (queue (sp_task ?s)) <= _)%nat =>
    assert (Eq : s = @split_run (toy true) _ draws (stuck_task (length cs))
      (flat_map (fun c => [Ev (Send c); Ev (Poll false true); Abandon (cmd_id c)]) cs)) end.
  { unfold split_run. rewrite fold_left_app. reflexivity. }
  rewrite Eq, Q, app_length, L in H. clear Eq Q. cut (NoDup (0 :: map cmd_id cs)).
  { intros Nd. assert (Sn : forall l, senders_of (flat_map (fun c => [Ev (Send c); Ev (Poll false true); Abandon (cmd_id c)]) l) =
      map cmd_id l).
    { induction l as [|c l IH]; [reflexivity|]. cbn [flat_map map]. rewrite <- IH. reflexivity. }
    cut (S bound <= bound)%nat; [lia|]. eapply Nat.le_trans; [|apply H].
    - rewrite (Nat.add_comm _ (S bound)). apply Nat.le_add_r.
    - change (NoDup (0 :: senders_of (flat_map (fun c => [Ev (Send c); Ev (Poll false true); Abandon (cmd_id c)]) cs))).
      rewrite Sn. exact Nd. }
  replace (0 :: map cmd_id cs) with (map N.of_nat (seq 0 (S (S bound)))).
  - apply FinFun.Injective_map_NoDup; [|apply seq_NoDup]. intros x y. apply Nnat.Nat2N.inj.
  - unfold cs. cbn [seq]. rewrite map_map. reflexivity.
Qed.
Print Assumptions C88_bounded_refuted.

(** Patient callers: one write returns before the next.  Impatient ones: three commands lie in the channel of a stalled session,
    and all three are sent, in order, once the transport takes the first packet. *)
Example C88_example :
  let new n := split_new (PWriter toy_in (Writer (Accept 5 :: repeat WPending n) [] [])) (Shaper (Config Disabled Disabled) []) [] in
  let send i := Ev (Send (Command i (genuine [x02]))) in
  let poll := Ev (Poll false false) in
  let calm := @split_run (toy true) _ draws (new 1%nat) [send 1; poll; poll; send 2; poll; send 3] in
  let stuck := @split_run (toy true) _ draws (new 4%nat) [send 1; poll; Abandon 1; send 2; poll; Abandon 2; send 3; poll; Abandon 3; send 4] in
  let freed := @split_run (toy true) _ draws stuck (repeat poll 6) in
  map fst (answers (sp_task calm)) = [1; 2] /\ map cmd_id (queue (sp_task calm)) = [3] /\ sp_place calm = AtSelect /\
  answers (sp_task stuck) = [] /\ map cmd_id (queue (sp_task stuck)) = [2; 3; 4] /\ waiting (sp_place stuck) = [1] /\
  answers (sp_task freed) = [(1, Ok tt); (2, Ok tt); (3, Ok tt); (4, Ok tt)] /\ queue (sp_task freed) = [].
Proof. vm_compute. repeat split. Qed.
