(** * Property C97: decoys and time *)
From Coq Require Import List NArith Bool Arith Lia.
From Coq.Strings Require Import Byte.
From Verif Require Import Base BaseFacts Env FsChacha Cipher Histories CipherProofs Handshake
  Transport Io SpecIo Futures Sessions SessionProofs EndpointProofs Toy PropsHandshake PropsIo
  Traffic TrafficIo TrafficFutures SpecTraffic TrafficProofs TrafficFuturesProofs TrafficSessionProofs PropsTraffic
  TrafficTask SpecTask TrafficTaskProofs PropsTask Timed SpecTimed.
Import ListNotations.
Local Open Scope N_scope.

Section WithEnv.
Context {E : Env} {EL : EnvLaws E} {G : Type} {R : Rng G} {RL : RngLaws G R}.

Lemma timed_run_app (s : @timed_task G) es1 es2 : timed_run s (es1 ++ es2) = timed_run (timed_run s es1) es2.
Proof. apply fold_left_app. Qed.

(** ** The task is the task *)

Lemma timed_split_step (s : @timed_task G) e :
  (exists ms, e = Elapse ms /\ tt_split (timed_step s e) = tt_split s) \/
  (exists e1 e2, e = Happens e1 /\ same_event e1 e2 /\ tt_split (timed_step s e) = split_step (tt_split s) e2).
Proof.
  destruct e as [ms|e]; [left; exists ms; auto|right].
  assert (D : same_event e e) by (destruct e as [[]|]; reflexivity).
  destruct e as [[c| |f rd|]|i]; try (eexists _, _; split; [reflexivity|]; split; [exact D|reflexivity]).
  eexists _, (Ev (Poll f (rd && (tt_deadline s <=? tt_now s)))). split; [reflexivity|]. split; [reflexivity|].
  cbn [timed_step]. unfold timed_poll. destruct (ticking _ _ _); reflexivity.
Qed.

Lemma timed_is_split (s : @timed_task G) es :
  exists es', Forall2 same_event (untimed es) es' /\ tt_split (timed_run s es) = split_run (tt_split s) es'.
Proof.
  revert s. induction es as [|e es IH]; intros s; [exists []; split; [constructor|reflexivity]|].
  destruct (IH (timed_step s e)) as (es' & F & Q). change (timed_run s (e :: es)) with (timed_run (timed_step s e) es).
  destruct (timed_split_step s e) as [(ms & -> & Z)|(e1 & e2 & -> & Se & Z)].
  - exists es'. split; [exact F|]. now rewrite Q, Z.
  - exists (e2 :: es'). split; [constructor; assumption|]. now rewrite Q, Z.
Qed.

Lemma same_event_cases a b : same_event a b ->
  a = b \/ exists f x y, a = Ev (Poll f x) /\ b = Ev (Poll f y).
Proof.
  destruct a as [[c| |f x|]|i]; cbn [same_event]; auto.
  destruct b as [[c| |f' y|]|i]; try discriminate. intros ->. right. now exists f', x, y.
Qed.

Lemma same_events_accepted es es' : Forall2 same_event es es' ->
  accepted (events_of es') = accepted (events_of es) /\ (Forall event_sound (events_of es) -> Forall event_sound (events_of es')) /\
  (alive (events_of es) -> alive (events_of es')) /\ length es' = length es.
Proof.
  unfold alive. induction 1 as [|a b es es' Sa F (I1 & I2 & I3 & I4)]; [cbn; auto|].
  unfold events_of in *. cbn [flat_map length]. rewrite I4.
  destruct (same_event_cases _ _ Sa) as [->|(f & x & y & -> & ->)].
  - split; [destruct b as [[]|]; cbn [app accepted]; congruence|]. split.
    + rewrite !Forall_app. intuition.
    + split; [|reflexivity]. rewrite !in_app_iff. intuition.
  - cbn [app accepted]. split; [exact I1|]. split; [|split; [|reflexivity]].
    + intros Q. inversion Q; subst. constructor; auto.
    + intros Q [P|P]; [discriminate P|]. apply I3; [|exact P]. intros T. apply Q. now right.
Qed.

(** ** The rate of the task *)

Definition steady (start : N) (s : @timed_task G) : Prop :=
  tt_deadline s = start + 100 * len (tt_ticks s) /\ start <= tt_now s /\ tt_deadline s <= tt_now s + 100 /\
  (forall i t b, nth_error (tt_ticks s) i = Some (t, b) -> start + 100 * N.of_nat i <= t <= tt_now s).

Lemma steady_step start (s : @timed_task G) e : steady start s -> steady start (timed_step s e).
Proof.
  intros (D & L & L2 & T).
  assert (K : forall sp, steady start (TimedTask sp (tt_deadline s) (tt_now s) (tt_ticks s))).
  { intros sp. split; [exact D|]. split; [exact L|]. split; [exact L2|]. exact T. }
  destruct e as [ms|[[c| |f rd|]|i]]; cbn [timed_step]; try apply K.
  - split; [exact D|]. cbn [tt_now tt_deadline tt_ticks]. split; [lia|]. split; [lia|].
    intros i t b Q. specialize (T i t b Q). lia.
  - unfold timed_poll. destruct (ticking _ _ _) eqn:Tk; [|apply K].
    assert (rd && (tt_deadline s <=? tt_now s) = true) as Q.
    { destruct (rd && (tt_deadline s <=? tt_now s)) eqn:Q; [reflexivity|]. exfalso.
      unfold ticking in Tk. cbn [poll_tick] in Tk. destruct (running _); [|discriminate]. destruct (sp_place _); try discriminate.
      destruct f; cbn [order_of select nth] in Tk; destruct (poll_recv _); cbn [set_nth] in Tk; destruct (sel _) as [|[|] [|[|] ?]]; cbn in Tk;
        try discriminate; destruct (forallb _ _); discriminate. }
    apply andb_prop in Q. destruct Q as [_ Q]. apply N.leb_le in Q.
    unfold steady. cbn [tt_deadline tt_now tt_ticks]. rewrite len_app. change (len [(tt_now s, makes_decoy (tk_shaper (sp_task (tt_split s))))]) with 1.
    change DEFAULT_CHECK_INTERVAL_MS with 100. split; [lia|]. split; [exact L|]. split; [lia|].
    intros i t b N1. destruct (Nat.lt_ge_cases i (length (tt_ticks s))) as [Li|Li].
    + rewrite nth_error_app1 in N1 by assumption. apply (T i t b N1).
    + rewrite nth_error_app2 in N1 by assumption. assert (Z : (i - length (tt_ticks s))%nat = 0%nat).
      { destruct (i - length (tt_ticks s))%nat as [|[|k]]; [reflexivity|discriminate..]. }
      rewrite Z in N1. cbn in N1. injection N1 as <- _. assert (N.of_nat i = len (tt_ticks s)) by (unfold len; lia). lia.
Qed.

Lemma steady_run start p sh recs es : steady start (timed_run (timed_new start p sh recs) es).
Proof.
  apply (List.rev_ind (fun es => steady start (timed_run (timed_new start p sh recs) es))).
  - split; [|split; [|split]]; cbn; [lia..|]. intros [] t b Q; discriminate.
  - intros e es0 IH. rewrite timed_run_app. apply steady_step, IH.
Qed.

Lemma timed_now (s : @timed_task G) es : tt_now (timed_run s es) = tt_now s + passed es.
Proof.
  revert s. induction es as [|e es IH]; intros s; [cbn; lia|]. change (timed_run s (e :: es)) with (timed_run (timed_step s e) es).
  rewrite IH. unfold passed. cbn [fold_right]. fold (passed es).
  destruct e as [ms|[[c| |f rd|]|i]]; cbn [timed_step tt_now]; try lia. unfold timed_poll. destruct (ticking _ _ _); cbn [tt_now]; lia.
Qed.

(** ** Catching up *)

Definition tick_enabled (s : @split_task G) : Prop := nth 1 (sel (sp_task s)) true = false.

Lemma branch_enabled t w ans : tick_enabled (@branch_end G t w ans).
Proof. reflexivity. Qed.

Lemma wrote_enabled t c r : nth 1 (sel t) true = false -> tick_enabled (@payload_wrote G t c r).
Proof. destruct r as [[f|x] w]; cbn [payload_wrote]; intros H; [exact H|reflexivity]. Qed.

Lemma write_payload_enabled t c : nth 1 (sel t) true = false -> tick_enabled (@write_payload E G t c).
Proof. intros H. unfold write_payload. destruct (begin_write _ _); [now apply wrote_enabled|exact H..]. Qed.

Lemma pad_enabled t c r : nth 1 (sel t) true = false -> tick_enabled (@pad_wrote E G t c r).
Proof.
  destruct r as [[f|[u|x]] w]; cbn [pad_wrote]; intros H; [exact H| |reflexivity]. apply write_payload_enabled, H.
Qed.

Lemma decoy_enabled t r : nth 1 (sel t) true = false -> tick_enabled (@decoy_wrote G t r).
Proof. destruct r as [[f|x] w]; cbn [decoy_wrote]; intros H; [exact H|reflexivity]. Qed.

Lemma select_enabled f l rp el : nth 1 l true = false ->
  match select (order_of f) l [rp; poll_tick el] with Wait d => nth 1 d true = false | _ => True end.
Proof.
  intros H. destruct l as [|a [|b l]]; try discriminate H. cbn [nth] in H. subst b.
  destruct f, a, rp, el; cbn; try exact I; try (destruct (forallb (fun b : bool => b) l)); try exact I; try reflexivity.
Qed.

Lemma enabled_step (s : @split_task G) e : tick_enabled s -> tick_enabled (split_step s e).
Proof.
  unfold tick_enabled at 1. intros H. destruct s as [t pl]. cbn [sp_task] in H.
  destruct e as [[c| |f rd|]|i]; cbn [split_step sp_task sp_place].
  - unfold tick_enabled. cbn [sp_task task_step]. destruct (_ && _)%bool; exact H.
  - exact H.
  - unfold split_poll. cbn [sp_task sp_place]. destruct (running t); [|exact H].
    pose proof (select_enabled f (sel t) (poll_recv t) rd H) as Sl.
    destruct pl as [|fu c|fu c|fu].
    + destruct (select _ _ _) as [[|n]| |d].
      * destruct (queue t) as [|c q]; [exact H|]. unfold split_handle.
        destruct (shaper_pad _ _) as [[[[dd|] sh] recs]| |]; try exact H.
        -- destruct (begin_write _ _); [apply pad_enabled, H|exact H..].
        -- apply write_payload_enabled, H.
      * unfold split_tick. destruct (shaper_decoy _) as [[[dd|] sh] recs]; [|reflexivity].
        destruct (begin_write _ _); [apply decoy_enabled, H|exact H..].
      * exact H.
      * exact Sl.
    + apply pad_enabled, H.
    + apply wrote_enabled, H.
    + apply decoy_enabled, H.
  - unfold tick_enabled. cbn [sp_task task_step]. destruct (running t); exact H.
  - exact H.
Qed.

Lemma enabled_run p sh recs es : tick_enabled (split_run (@split_new G p sh recs) es).
Proof.
  apply (List.rev_ind (fun es => tick_enabled (split_run (split_new p sh recs) es))); [reflexivity|].
  intros e es0 IH. rewrite split_run_app. apply enabled_step, IH.
Qed.

Lemma select_takes_tick f l rp : nth 1 l true = false -> rp <> BMatch -> select (order_of f) l [rp; poll_tick true] = Taken 1.
Proof.
  intros H Nm. destruct l as [|a [|b l]]; try discriminate H. cbn [nth] in H. subst b.
  destruct f, a, rp; cbn; try reflexivity; contradiction.
Qed.

Definition idle (s : @timed_task G) : Prop :=
  let t := sp_task (tt_split s) in
  running t = true /\ sp_place (tt_split s) = AtSelect /\ queue t = [] /\ hold_ups (pw_writer (tk_writer t)) = 0%nat /\ tick_enabled (tt_split s).

Lemma tick_once (s : @timed_task G) f :
  idle s -> tt_deadline s <= tt_now s -> running (sp_task (tt_split (timed_poll f true s))) = true ->
  let s' := timed_poll f true s in
  idle s' /\ tt_deadline s' = tt_deadline s + 100 /\ tt_now s' = tt_now s /\ exists b, tt_ticks s' = tt_ticks s ++ [(tt_now s, b)].
Proof.
  intros (Ru & At & Qe & Ho & En) Due Ru'. cbv zeta. unfold timed_poll in *. rewrite (proj2 (N.leb_le _ _) Due) in *. cbn [andb] in *.
  assert (Se : select (order_of f) (sel (sp_task (tt_split s))) [poll_recv (sp_task (tt_split s)); poll_tick true] = Taken 1).
  { apply select_takes_tick; [exact En|]. unfold poll_recv. rewrite Qe. destruct (senders _); discriminate. }
  assert (Ti : ticking (order_of f) true (tt_split s) = true) by (unfold ticking; rewrite Ru, At, Se; reflexivity).
  rewrite Ti in *. cbn [tt_split tt_deadline tt_now tt_ticks] in *.
  split; [|split; [reflexivity|split; [reflexivity|eexists; reflexivity]]].
  unfold idle. cbn [tt_split]. split; [exact Ru'|]. revert Ru'. unfold split_poll. rewrite Ru, At, Se. unfold split_tick.
  destruct (shaper_decoy _) as [[[d|] sh] recs]; [|intros _; cbn; repeat split; assumption].
  cbn [tk_writer]. pose proof (begin_write_finish (tk_writer (sp_task (tt_split s))) d) as Bf.
  destruct (begin_write _ d) as [[[fu|x] w]| |] eqn:Bw; [| |discriminate..].
  - destruct Bf as [_ Bf]. lia.
  - intros _. cbn. split; [reflexivity|]. split; [exact Qe|]. split; [|reflexivity].
    clear - Ho Bw. unfold begin_write in Bw. apply bind_ret_inv in Bw. destruct Bw as ([y p'] & Sw & Bw).
    assert (pw_writer p' = pw_writer (tk_writer (sp_task (tt_split s)))) as Pw.
    { unfold start_write in Sw. apply bind_ret_inv in Sw. destruct Sw as (ct & _ & Sw). apply bind_ret_inv in Sw. destruct Sw as (pt & _ & Sw).
      apply bind_ret_inv in Sw. destruct Sw as ([[z c] buf] & _ & Sw). destruct z; injection Sw as _ <-; reflexivity. }
    destruct y as [fu|e]; [|injection Bw as _ <-; rewrite Pw; exact Ho].
    pose proof (go_on_finish fu p') as Q. injection Bw as Bw. rewrite Bw in Q. apply finish_write_script in Q. rewrite Pw in Q. lia.
Qed.

Lemma ticks_many n f : forall (s : @timed_task G),
  idle s -> tt_deadline s + 100 * N.of_nat n <= tt_now s + 100 ->
  (forall m, running (sp_task (tt_split (timed_run s (repeat (Happens (Ev (Poll f true))) m)))) = true \/ (n < m)%nat) ->
  let s' := timed_run s (repeat (Happens (Ev (Poll f true))) n) in
  tt_now s' = tt_now s /\ tick_times (tt_ticks s') = tick_times (tt_ticks s) ++ repeat (tt_now s) n.
Proof.
  induction n as [|n IH]; intros s I Due Ru; cbv zeta. { cbn. rewrite app_nil_r. auto. }
  cbn [repeat]. change (timed_run s (Happens (Ev (Poll f true)) :: ?l)) with (timed_run (timed_poll f true s) l).
  destruct (tick_once s f I) as (I' & D' & N' & b & T'); [lia| |].
  { destruct (Ru 1%nat) as [Q|Q]; [exact Q|lia]. }
  destruct (IH (timed_poll f true s) I') as (Z1 & Z2).
  - rewrite D', N'. lia.
  - intros m. destruct (Ru (S m)) as [Q|Q]; [left; exact Q|right; lia].
  - rewrite Z1, Z2, N', T'. split; [reflexivity|]. unfold tick_times. rewrite map_app, <- app_assoc. reflexivity.
Qed.

(** ** The thread *)

Lemma timed_do_play (s s' : @timed_shared G) m : timed_do s m = Some s' ->
  match m with Later _ => ts_shared s' = ts_shared s | Acts m => do_move (ts_shared s) m = Some (ts_shared s') end.
Proof.
  destruct m as [ms|m]; cbn [timed_do]; [intros H; injection H as <-; reflexivity|].
  assert (K : forall m, m <> Thread -> timed_do s (Acts m) = Some s' -> do_move (ts_shared s) m = Some (ts_shared s')).
  { clear m. intros m Nt H. destruct m; cbn [timed_do] in H; try contradiction; destruct (do_move (ts_shared s) _) as [y|] eqn:D;
      try discriminate H; injection H as <-; reflexivity. }
  destruct m; [apply (K (CallWrite pl)); discriminate|apply (K CallDrop); discriminate|apply (K App); discriminate|clear K].
  unfold timed_thread. cbn [do_move]. destruct (thread_step (ts_shared s)) as [x|] eqn:Ts; [|discriminate].
  destruct (thread_at (ts_shared s)); try (intros H; injection H as <-; reflexivity).
  destruct (_ <=? _); [|discriminate]. intros H; injection H as <-; reflexivity.
Qed.

Lemma timed_is_play ms : forall s s' : @timed_shared G, timed_play s ms = Some s' ->
  play (ts_shared s) (untimed_moves ms) = Some (ts_shared s').
Proof.
  induction ms as [|m ms IH]; intros s s' H; cbn [timed_play] in H; [injection H as <-; reflexivity|].
  destruct (timed_do s m) as [s1|] eqn:D; [|discriminate]. specialize (IH _ _ H). pose proof (timed_do_play _ _ _ D) as Q.
  destruct m as [d|m]; [rewrite <- Q; exact IH|]. unfold untimed_moves. cbn [flat_map app play]. rewrite Q. exact IH.
Qed.

(** Every decoy so far is a period behind the present, where the next can be made. *)
Definition rested (s : @timed_shared G) : Prop :=
  spaced 100 (ts_decoys s) /\
  forall x, In x (ts_decoys s) ->
    x <= ts_now s /\
    match thread_at (ts_shared s) with ThSleep => x + 100 <= ts_wake s | ThTryLock | ThDecoy => x + 100 <= ts_now s | _ => True end.

Lemma spaced_snoc l x : spaced 100 l -> (forall y, In y l -> y + 100 <= x) -> spaced 100 (l ++ [x]).
Proof.
  induction l as [|a [|b l] IH]; cbn [app spaced]; [auto| |].
  - intros _ H. split; [apply H; now left|exact I].
  - intros [H1 H2] H. split; [exact H1|]. apply IH; [exact H2|]. intros y Iy. apply H. now right.
Qed.

Lemma other_thread_at (s s' : @shared G) m : do_move s m = Some s' -> m <> Thread -> thread_at s' = thread_at s.
Proof.
  destruct m; cbn [do_move]; intros H Nt; try contradiction.
  - destruct (app_at s); try discriminate. now injection H as <-.
  - destruct (app_at s); try discriminate; now injection H as <-.
  - unfold app_step in H. repeat (match type of H with context [match ?x with _ => _ end] => destruct x eqn:?; try discriminate end);
      injection H as <-; cbn; congruence.
Qed.

Lemma rested_do (s s' : @timed_shared G) m : rested s -> timed_do s m = Some s' -> rested s'.
Proof.
  intros [Sp Re] H. destruct m as [d|m].
  - injection H as <-. split; [exact Sp|]. cbn [ts_decoys ts_now ts_shared ts_wake]. intros x Ix. destruct (Re x Ix) as [R1 R2].
    split; [lia|]. destruct (thread_at (ts_shared s)); auto; lia.
  - assert (K : forall m, m <> Thread -> timed_do s (Acts m) = Some s' -> rested s').
    { clear H m. intros m Nt H. assert (exists y, do_move (ts_shared s) m = Some y /\ s' = TimedShared y (ts_wake s) (ts_now s) (ts_decoys s)) as (y & D & ->).
      { destruct m; cbn [timed_do] in H; try contradiction; destruct (do_move _ _) as [y|]; try discriminate; injection H as <-; eauto. }
      pose proof (other_thread_at _ _ _ D Nt) as T. split; [exact Sp|]. cbn [ts_decoys ts_now ts_shared ts_wake]. rewrite T. exact Re. }
    destruct m; try (eapply K; [|exact H]; discriminate). clear K. cbn [timed_do] in H. unfold timed_thread in H.
    destruct (thread_step (ts_shared s)) as [y|] eqn:Ts; [|discriminate]. unfold thread_step in Ts.
    destruct (thread_at (ts_shared s)) eqn:At; try discriminate.
    + injection H as <-. injection Ts as <-. split; [exact Sp|]. cbn [ts_decoys ts_now ts_shared ts_wake]. intros x Ix.
      destruct (Re x Ix) as [R1 _]. split; [exact R1|]. cbn [set_thread thread_at]. change DEFAULT_CHECK_INTERVAL_MS with 100.
      destruct (shutdown (ts_shared s)); [exact I|lia].
    + destruct (N.leb_spec (ts_wake s) (ts_now s)) as [Le|]; [|discriminate]. injection H as <-. injection Ts as <-.
      split; [exact Sp|]. cbn [ts_decoys ts_now ts_shared ts_wake set_thread thread_at]. intros x Ix. destruct (Re x Ix) as [R1 R2]. lia.
    + injection H as <-. split; [exact Sp|]. cbn [ts_decoys ts_now ts_shared ts_wake]. intros x Ix. destruct (Re x Ix) as [R1 R2].
      split; [exact R1|]. destruct (lock (ts_shared s)); [destruct (poisoned (ts_shared s))|..]; injection Ts as <-;
        cbn [set_thread set_lock thread_at]; auto.
    + injection H as <-. assert (Th : thread_at y = ThCheck \/ exists d, thread_at y = ThWrite d).
      { destruct (shaper_decoy _) as [[[d|] sh] recs]; injection Ts as <-; cbn; eauto. }
      unfold rested. cbn [ts_decoys ts_now ts_shared ts_wake]. split.
      * destruct (makes_decoy _); [|rewrite app_nil_r; exact Sp]. apply spaced_snoc; [exact Sp|]. intros x Ix. apply (Re x Ix).
      * intros x Ix. split; [|destruct Th as [->|[d ->]]; exact I]. apply in_app_iff in Ix. destruct Ix as [Ix|Ix]; [apply (Re x Ix)|].
        destruct (makes_decoy _); [|contradiction]. destruct Ix as [<-|[]]. lia.
    + injection H as <-. split; [exact Sp|]. cbn [ts_decoys ts_now ts_shared ts_wake]. intros x Ix. destruct (Re x Ix) as [R1 _].
      split; [exact R1|]. destruct (sync_write _ _) as [[? ?]| |]; injection Ts as <-; cbn; auto.
Qed.

Lemma rested_play ms : forall s s' : @timed_shared G, rested s -> timed_play s ms = Some s' -> rested s'.
Proof.
  induction ms as [|m ms IH]; intros s s' Re H; cbn [timed_play] in H; [injection H as <-; exact Re|].
  destruct (timed_do s m) as [s1|] eqn:D; [|discriminate]. apply (IH s1); [|exact H]. eapply rested_do; eassumption.
Qed.

End WithEnv.

(** ** Counting *)

Lemma spaced_tail a l : spaced 100 (a :: l) -> spaced 100 l /\ forall x, In x l -> a + 100 <= x.
Proof.
  revert a. induction l as [|b l IH]; intros a H; [split; [exact I|contradiction]|]. destruct H as [H1 H2].
  split; [exact H2|]. intros x [<-|Ix]; [exact H1|]. destruct (IH b H2) as [_ Q]. specialize (Q x Ix). lia.
Qed.

Lemma spaced_count t hi l : forall lo, spaced 100 l -> (forall x, In x l -> lo <= x) ->
  100 * len (filter (fun x => (t <=? x) && (x <=? hi)) l) <= hi + 100 - lo.
Proof.
  induction l as [|a l IH]; intros lo Sp Lo; [cbn; lia|]. destruct (spaced_tail _ _ Sp) as [Sp' Hi].
  specialize (IH (a + 100) Sp' Hi). pose proof (Lo a (or_introl eq_refl)). cbn [filter].
  destruct (N.leb_spec t a), (N.leb_spec a hi); cbn [andb]; rewrite ?len_cons; lia.
Qed.

Lemma spaced_within t d l : spaced 100 l -> within t d l <= d / 100 + 1.
Proof.
  intros Sp. unfold within.
  assert (K : exists l', filter (fun x => (t <=? x) && (x <=? t + d)) l = filter (fun x => (t <=? x) && (x <=? t + d)) l' /\ spaced 100 l' /\ forall x, In x l' -> t <= x).
  { induction l as [|a l IH]; [exists []; repeat split; contradiction|]. destruct (spaced_tail _ _ Sp) as [Sp' Hi].
    destruct (N.leb_spec t a) as [Le|Lt].
    - exists (a :: l). split; [reflexivity|]. split; [exact Sp|]. intros x [<-|Ix]; [exact Le|]. specialize (Hi x Ix). lia.
    - destruct (IH Sp') as (l' & E1 & E2 & E3). exists l'. split; [|auto]. cbn [filter].
      rewrite (proj2 (N.leb_gt _ _) Lt). exact E1. }
  destruct K as (l' & -> & Sp' & Lo). pose proof (spaced_count t (t + d) l' t Sp' Lo) as C.
  assert (Q : 100 * len (filter (fun x => (t <=? x) && (x <=? t + d)) l') <= d + 100) by lia.
  pose proof (N.div_mod d 100). pose proof (N.mod_lt d 100). lia.
Qed.

(** ** The theorems *)

(** The clock only chooses which polls find the interval elapsed, and when the thread moves: the task with the clock is the task of
    C56 and C57, the thread with the clock is the thread of C45 to C55. *)
Theorem C97_same : forall (E : Env) (G : Type) (R : Rng G) start p (sh : shaper G) recs,
  (forall es, exists es', Forall2 same_event (untimed es) es' /\
     tt_split (timed_run (timed_new start p sh recs) es) = split_run (split_new p sh recs) es') /\
  (forall ms s, timed_play (timed_shared_new start p sh recs) ms = Some s ->
     play (shared_new p sh recs) (untimed_moves ms) = Some (ts_shared s)).
Proof.
  intros E G R start p sh recs. split.
  - intros es. exact (timed_is_split (timed_new start p sh recs) es).
  - intros ms s H. exact (timed_is_play ms _ _ H).
Qed.
Print Assumptions C97_same.

(** The task: the i-th tick is not taken before its time, so there are never more ticks, hence decoys, than periods. *)
Theorem C97_task_rate : forall (E : Env) (G : Type) (R : Rng G) start p (sh : shaper G) recs es,
  let s := timed_run (timed_new start p sh recs) es in
  tt_now s = start + passed es /\
  (forall i t, nth_error (tick_times (tt_ticks s)) i = Some t -> start + 100 * N.of_nat i <= t <= tt_now s) /\
  len (decoy_times (tt_ticks s)) <= len (tick_times (tt_ticks s)) /\
  len (tick_times (tt_ticks s)) <= passed es / 100 + 1.
Proof.
  intros E G R start p sh recs es s. destruct (steady_run start p sh recs es) as (D & L & L2 & T). fold s in D, L, L2, T.
  assert (Nw : tt_now s = start + passed es) by (unfold s; rewrite timed_now; reflexivity).
  split; [exact Nw|]. split; [|split].
  - intros i t Q. unfold tick_times in Q. rewrite nth_error_map in Q. destruct (nth_error (tt_ticks s) i) as [[t' b]|] eqn:Q'; [|discriminate].
    injection Q as <-. exact (T i t' b Q').
  - unfold decoy_times, tick_times, len. rewrite !map_length. clear. induction (tt_ticks s) as [|[t []] l IH]; cbn [filter snd length]; lia.
  - unfold tick_times, len. rewrite map_length. unfold len in D. pose proof (N.div_mod (passed es) 100). pose proof (N.mod_lt (passed es) 100). lia.
Qed.
Print Assumptions C97_task_rate.

(** And it catches up: whatever came before, once it is back at its [select!] with no command waiting and a transport that does not
    hold it up, as many polls as ticks are missing take all of them, without any time passing between them. *)
Theorem C97_task_catches_up : forall (E : Env) (EL : EnvLaws E) (G : Type) (R : Rng G) (RL : RngLaws G R) start p (sh : shaper G) recs k es f,
  let s := timed_run (timed_new start p sh recs) es in
  let n := (N.to_nat (passed es / 100 + 1) - length (tt_ticks s))%nat in
  let s' := timed_run s (repeat (Happens (Ev (Poll f true))) n) in
  counted k (pw_cipher p) -> (overflow_checks = true -> k + 2 * (len es + passed es / 100 + 1) < 2 ^ 32) ->
  Forall event_sound (events_of (untimed es)) -> alive (events_of (untimed es)) ->
  sp_place (tt_split s) = AtSelect -> queue (sp_task (tt_split s)) = [] -> hold_ups (pw_writer (tk_writer (sp_task (tt_split s)))) = 0%nat ->
  tt_now s' = tt_now s /\
  tick_times (tt_ticks s') = tick_times (tt_ticks s) ++ repeat (tt_now s) n /\
  len (tick_times (tt_ticks s')) = passed es / 100 + 1.
Proof.
  intros E EL G R RL start p sh recs k es f s n s' Ck Rm So Al At Qe Ho.
  assert (St : steady start s) by apply steady_run. destruct St as (D & L & L2 & T).
  assert (Nw : tt_now s = start + passed es) by (unfold s; rewrite timed_now; reflexivity).
  assert (Ln : len (tt_ticks s) <= passed es / 100 + 1).
  { pose proof (N.div_mod (passed es) 100). pose proof (N.mod_lt (passed es) 100). lia. }
  assert (Nn : N.of_nat n + len (tt_ticks s) = passed es / 100 + 1) by (unfold n, len in *; lia).
  assert (Ru : forall m, (m <= n)%nat -> running (sp_task (tt_split (timed_run s (repeat (Happens (Ev (Poll f true))) m)))) = true).
  { intros m Lm. unfold s. rewrite <- timed_run_app.
    destruct (timed_is_split (timed_new start p sh recs) (es ++ repeat (Happens (Ev (Poll f true))) m)) as (es' & F & Q).
    rewrite Q. destruct (same_events_accepted _ _ F) as (_ & I2 & I3 & I4).
    assert (Up : events_of (untimed (repeat (Happens (Ev (Poll f true))) m)) = repeat (Poll f true) m).
    { clear. induction m as [|m IH]; [reflexivity|]. cbn. now rewrite <- IH. }
    assert (Ue : untimed (es ++ repeat (Happens (Ev (Poll f true))) m) = untimed es ++ untimed (repeat (Happens (Ev (Poll f true))) m))
      by apply flat_map_app.
    assert (Uv : events_of (untimed (es ++ repeat (Happens (Ev (Poll f true))) m)) = events_of (untimed es) ++ repeat (Poll f true) m).
    { rewrite Ue. unfold events_of at 1. rewrite flat_map_app. fold (events_of (untimed es)). f_equal. exact Up. }
    rewrite Uv in I2, I3.
    apply (C56_like_unsplit E EL G R RL p sh recs k es' Ck).
    - intros O. specialize (Rm O). unfold len at 1. rewrite I4, Ue, app_length.
      assert (length (untimed es) <= length es)%nat by (clear; unfold untimed; induction es as [|[|] es IH]; cbn [flat_map app length]; lia).
      assert (length (untimed (repeat (Happens (Ev (Poll f true))) m)) = m) by (clear; unfold untimed; induction m as [|m IH]; cbn [repeat flat_map app length]; [reflexivity|now rewrite IH]).
      unfold len in Rm. unfold len in Nn. lia.
    - apply I2, Forall_app. split; [exact So|]. apply Forall_forall. intros x Ix. apply repeat_spec in Ix. subst x. exact I.
    - apply I3. unfold alive in *. rewrite in_app_iff. intros [Q'|Q']; [exact (Al Q')|]. apply repeat_spec in Q'. discriminate. }
  assert (Id : idle s).
  { unfold idle. split; [exact (Ru 0%nat (Nat.le_0_l _))|]. split; [exact At|]. split; [exact Qe|]. split; [exact Ho|].
    destruct (timed_is_split (timed_new start p sh recs) es) as (es' & _ & Q). unfold s. rewrite Q. apply enabled_run. }
  destruct (ticks_many n f s Id) as (Z1 & Z2).
  - pose proof (N.div_mod (passed es) 100). lia.
  - intros m. destruct (Nat.le_gt_cases m n) as [Lm|Lm]; [left; apply Ru, Lm|right; exact Lm].
  - fold s' in Z1, Z2. split; [exact Z1|]. split; [exact Z2|]. rewrite Z2, len_app. unfold tick_times, len in *. rewrite map_length, repeat_length. lia.
Qed.
Print Assumptions C97_task_catches_up.

(** The thread sleeps a whole period between any two decoys, whatever the application does: in no stretch of time are there more
    than one per period, and one. *)
Theorem C97_thread_spacing : forall (E : Env) (G : Type) (R : Rng G) start p (sh : shaper G) recs ms s,
  timed_play (timed_shared_new start p sh recs) ms = Some s ->
  spaced 100 (ts_decoys s) /\ forall t d, within t d (ts_decoys s) <= d / 100 + 1.
Proof.
  intros E G R start p sh recs ms s H.
  assert (Re : rested s). { eapply rested_play; [|exact H]. split; [exact I|contradiction]. }
  split; [exact (proj1 Re)|]. intros t d. apply spaced_within, Re.
Qed.
Print Assumptions C97_thread_spacing.

(** A writer of which the transport takes five bytes, then nothing until the next poll. *)
Definition held_up : pwriter := PWriter toy_in (Writer [Accept 5; WPending] [] []).
Definition poll : timed_event := Happens (Ev (Poll false true)).

(** The decoys of the task are not spaced: one that the transport holds up for a third of a second is followed by three at once. *)
Theorem C97_task_spacing_refuted :
  ~ forall (E : Env) (EL : EnvLaws E) (G : Type) (R : Rng G) (RL : RngLaws G R) start p (sh : shaper G) recs es,
      healthy (pw_writer p) -> counted 0 (pw_cipher p) ->
      spaced 100 (decoy_times (tt_ticks (timed_run (timed_new start p sh recs) es))).
Proof.
  intros H. specialize (H (toy true) (toy_laws true) (list N) draws draws_laws 0 held_up (Shaper all_random [99; 2; 99; 3; 99; 4]) []
    [poll; Elapse 350; poll; poll; poll]).
  assert (Q : healthy (pw_writer held_up)) by (repeat constructor; discriminate).
  assert (C : counted 0 (pw_cipher held_up)) by exact (proj1 (@session_counted (toy true) sample_km Initiator)).
  specialize (H Q C). vm_compute in H. destruct H as [_ [H _]]. now apply H.
Qed.
Print Assumptions C97_task_spacing_refuted.

(** The same run, and what follows: the third and fourth tick draw no decoy, the fifth is not due before its time. *)
Example C97_task_example :
  let s0 := @timed_new (list N) 0 held_up (Shaper all_random [99; 2; 99; 3; 7; 84; 99; 4]) [] in
  let s := @timed_run (toy true) _ draws s0 [poll; Elapse 350] in
  let s1 := @timed_run (toy true) _ draws s [poll] in
  let s2 := @timed_run (toy true) _ draws s1 [poll; poll; poll] in
  let s3 := @timed_run (toy true) _ draws s2 [poll; Elapse 49; poll] in
  let s4 := @timed_run (toy true) _ draws s3 [Elapse 1; poll] in
  tt_ticks s = [(0, true)] /\ sp_place (tt_split s) <> AtSelect /\
  sp_place (tt_split s1) = AtSelect /\ hold_ups (pw_writer (tk_writer (sp_task (tt_split s1)))) = 0%nat /\ tt_ticks s1 = tt_ticks s /\
  tt_ticks s2 = [(0, true); (350, true); (350, false); (350, false)] /\
  tt_ticks s3 = tt_ticks s2 /\ tt_ticks s4 = tt_ticks s2 ++ [(400, true)].
Proof. vm_compute. repeat split. discriminate. Qed.

(** The thread: it cannot move while it sleeps; a decoy, a second one later than it could be, and the next one a whole period
    behind that. *)
Example C97_thread_example :
  let s0 := timed_shared_new 0 toy_writer (Shaper all_random [99; 2; 99; 3; 99; 4]) [] in
  let round := repeat (Acts Thread) 4 in
  @timed_play (toy true) _ draws s0 [Acts Thread; Later 99; Acts Thread] = None /\
  match @timed_play (toy true) _ draws s0 ([Acts Thread; Later 100] ++ round ++ [Acts Thread; Later 350] ++ round) with
  | Some s =>
    ts_decoys s = [100; 450] /\ @timed_play (toy true) _ draws s [Acts Thread; Later 99; Acts Thread] = None /\
    match @timed_play (toy true) _ draws s ([Acts Thread; Later 100] ++ round) with
    | Some s' => ts_decoys s' = [100; 450; 550] /\ within 400 150 (ts_decoys s') = 2
    | None => False
    end
  | None => False
  end.
Proof. vm_compute. repeat split. Qed.
