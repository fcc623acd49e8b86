(** * PropsFair: fair schedules and liveness of shaped writers (C76) *)
From Coq Require Import List NArith Bool Lia PeanoNat.
From Coq.Strings Require Import Byte.
From Verif Require Import Base BaseFacts Env Toy FsChacha Cipher CipherProofs Handshake Transport Io Futures Sessions
  Traffic TrafficIo TrafficFutures SpecTraffic TrafficIoProofs TrafficFuturesProofs SpecFair FairProofs
  PropsHandshake PropsTraffic.
Import ListNotations.
Local Open Scope N_scope.

(** ** C76 *)
(** A strongly fair scheduler: every call of [write] returns, or panics because the mutex was poisoned. *)
Theorem C76_write : forall (E : Env) (G : Type) (R : Rng G) x p (sh : shaper G) recs,
  executes x -> at_time x 0 = shared_new p sh recs -> weakly_fair x Thread -> strongly_fair x App ->
  forall i pl, in_flight (app_at (at_time x i)) = [pl] ->
  exists j, (i <= j)%nat /\
    ((app_at (at_time x j) = AppOut /\ exists y, returned (at_time x j) = returned (at_time x i) ++ [(pl, y)]) \/
     (app_at (at_time x j) = AppPanicked /\ poisoned (at_time x j) = true)).
Proof.
  intros E G R x p sh recs Ex S0 WT SA i pl C. eapply (fair_write x Ex); eauto.
Qed.
Print Assumptions C76_write.

(** Without overflow checks and with payloads a caller can make, it returns. *)
Theorem C76_write_returns : forall (E : Env) (EL : EnvLaws E) (G : Type) (R : Rng G) (RL : RngLaws G R) x p (sh : shaper G) recs k,
  overflow_checks = false -> counted k (pw_cipher p) ->
  executes x -> at_time x 0 = shared_new p sh recs -> weakly_fair x Thread -> strongly_fair x App ->
  (forall i pl, moved x i = Some (CallWrite pl) -> sound_payload pl) ->
  forall i pl, in_flight (app_at (at_time x i)) = [pl] ->
  exists j y, (i <= j)%nat /\ app_at (at_time x j) = AppOut /\ returned (at_time x j) = returned (at_time x i) ++ [(pl, y)].
Proof.
  intros E EL G R RL x p sh recs k Oc Ck Ex S0 WT SA So i pl C.
  destruct (C76_write E G R x p sh recs Ex S0 WT SA i pl C) as (j & L & [(A & y & Rt)|(A & P)]); [eauto|]. exfalso.
  destruct (reached x Ex j) as (ms & Pl & F). rewrite S0 in Pl.
  assert (Forall sound_payload (calls ms)) as Sm.
  { clear -F So. induction F as [|m ms (l & M) F IH]; [constructor|]. destruct m as [q| | |]; cbn [calls]; try assumption.
    constructor; [|assumption]. eapply So. eassumption. }
  destruct (C43_no_panic E EL G R RL p sh recs k ms (at_time x j) Ck ltac:(congruence) Sm Pl) as (_ & N & _). congruence.
Qed.
Print Assumptions C76_write_returns.

(** A weakly fair scheduler: [drop] returns. *)
Theorem C76_drop : forall (E : Env) (G : Type) (R : Rng G) (RL : RngLaws G R) x p (sh : shaper G) recs,
  executes x -> at_time x 0 = shared_new p sh recs -> weakly_fair x Thread -> weakly_fair x App ->
  forall i, app_at (at_time x i) = AppJoin -> exists j, (i <= j)%nat /\ app_at (at_time x j) = AppDropped.
Proof.
  intros E G R RL x p sh recs Ex S0 WT WA i A. eapply (fair_drop x Ex); eauto.
Qed.
Print Assumptions C76_drop.

(** Weak fairness is not enough for [write]: whenever the application gets its turn the decoy thread has the mutex. *)
Theorem C76_weakly_fair_write_refuted :
  ~ forall (E : Env) (EL : EnvLaws E) (G : Type) (R : Rng G) (RL : RngLaws G R) x p (sh : shaper G) recs,
      executes x -> at_time x 0 = shared_new p sh recs -> weakly_fair x Thread -> weakly_fair x App ->
      forall i pl, in_flight (app_at (at_time x i)) = [pl] ->
      exists j, (i <= j)%nat /\ in_flight (app_at (at_time x j)) <> [pl].
Proof.
  intros H. pose (sh := Shaper (Config Disabled Disabled) tt). pose (pl := genuine [x01]).
  pose (s1 := Shared toy_writer sh Free false false (AppLock pl) ThCheck [] []).
  pose (s2 := Shared toy_writer sh Free false false (AppLock pl) ThSleep [] []).
  pose (s3 := Shared toy_writer sh Free false false (AppLock pl) ThTryLock [] []).
  pose (s4 := Shared toy_writer sh ByDecoy false false (AppLock pl) ThDecoy [] []).
  pose (f := fix f (i : nat) : @shared unit :=
    match i with 0 => s1 | 1 => s2 | 2 => s3 | 3 => s4 | S (S (S (S i))) => f i end%nat).
  assert (forall i, @thread_step (toy true) _ high (f i) = Some (f (S i)) /\ app_at (f i) = AppLock pl) as Cy.
  { assert (forall i, (@thread_step (toy true) _ high (f i) = Some (f (S i)) /\ app_at (f i) = AppLock pl) /\
                      (@thread_step (toy true) _ high (f (S i)) = Some (f (S (S i))) /\ app_at (f (S i)) = AppLock pl) /\
                      (@thread_step (toy true) _ high (f (S (S i))) = Some (f (S (S (S i)))) /\ app_at (f (S (S i))) = AppLock pl) /\
                      (@thread_step (toy true) _ high (f (S (S (S i)))) = Some (f (S (S (S (S i))))) /\ app_at (f (S (S (S i)))) = AppLock pl)) as Q.
    { induction i as [|i (I1 & I2 & I3 & I4)]; [repeat split; reflexivity|].
      split; [exact I2|]. split; [exact I3|]. split; [exact I4|]. exact I1. }
    intros i. apply Q. }
  assert (forall i, exists k, (i <= k)%nat /\ lock (f k) = ByDecoy) as Lk.
  { assert (forall n, f (4 * n + 3)%nat = s4) as Q.
    { induction n as [|n IH]; [reflexivity|]. replace (4 * S n + 3)%nat with (S (S (S (S (4 * n + 3))))) by lia. exact IH. }
    intros i. exists (4 * i + 3)%nat. split; [lia|]. now rewrite Q. }
  pose (x := Execution (fun i => match i with O => shared_new toy_writer sh [] | S i => f i end)
               (fun i => match i with O => Some (CallWrite pl) | S _ => Some Thread end)).
  destruct (H (toy true) (toy_laws true) unit high high_laws x toy_writer sh []) with (i := 1%nat) (pl := pl) as (j & Lj & N).
  - intros [|i]; [reflexivity|]. apply Cy.
  - reflexivity.
  - intros i. exists (S i). split; [lia|]. now left.
  - intros i. destruct (Lk i) as (k & L & B). exists (S k). split; [lia|]. right. unfold blocked. cbn [x at_time do_move].
    unfold app_step. destruct (Cy k) as [_ ->]. now rewrite B.
  - reflexivity.
  - apply N. destruct j as [|j]; [lia|]. cbn [x at_time]. destruct (Cy j) as [_ ->]. reflexivity.
Qed.
Print Assumptions C76_weakly_fair_write_refuted.

(** A task polled fairly answers every caller, or it has ended and the callers know. *)
Theorem C76_task : forall (E : Env) (EL : EnvLaws E) (G : Type) (R : Rng G) (RL : RngLaws G R) p (sh : shaper G) recs k es,
  overflow_checks = false -> counted k (pw_cipher p) -> (forall i, event_sound (es i)) -> fairly_polled es ->
  forall i c, In c (accepted (before es i)) ->
  exists j, (i <= j)%nat /\ answer_to (task_run (task_new p sh recs) (before es j)) (cmd_id c) <> None.
Proof.
  intros E EL G R RL p sh recs k es Oc C So F i c H. eapply fair_answer; eassumption.
Qed.
Print Assumptions C76_task.

(** Polling alone is not enough: the timer can come first at every poll. *)
Theorem C76_polled_enough_refuted :
  ~ forall (E : Env) (EL : EnvLaws E) (G : Type) (R : Rng G) (RL : RngLaws G R) p (sh : shaper G) recs k es,
      overflow_checks = false -> counted k (pw_cipher p) -> (forall i, event_sound (es i)) ->
      (forall i, exists k tick_first elapsed, (i <= k)%nat /\ es k = Poll tick_first elapsed) ->
      forall i c, In c (accepted (before es i)) ->
      exists j, (i <= j)%nat /\ answer_to (task_run (task_new p sh recs) (before es j)) (cmd_id c) <> None.
Proof.
  intros H. pose (c := Command 1 (genuine [x01])).
  pose (es i := match i with O => Send c | S _ => Poll true true end).
  pose (w := PWriter (outbound (session_new sample_km Initiator)) (Writer [] [] [])).
  pose (sh := Shaper (Config Disabled Disabled) tt).
  destruct (H (toy false) (toy_laws false) unit high high_laws w sh [] 0 es eq_refl) with (i := 1%nat) (c := c) as (j & L & A).
  - apply session_counted.
  - intros [|i]; [|exact I]. exists (Genuine, [x01]). reflexivity.
  - intros i. exists (S i), true, true. split; [lia|reflexivity].
  - now left.
  - apply A. destruct j as [|j]; [lia|]. clear.
    assert (@task_run (toy false) _ high (task_new w sh []) (before es (S j)) = Task w sh [c] true no_branch_disabled true [] []) as ->.
    { induction j as [|j IH]; [reflexivity|]. unfold before in *. rewrite seq_S, map_app. unfold task_run in *.
      rewrite fold_left_app, IH. reflexivity. }
    reflexivity.
Qed.
Print Assumptions C76_polled_enough_refuted.

(** The application finds the mutex taken twice; then its call returns, and [drop] after it. *)
Definition fair_moves : list move :=
  [Thread; Thread; Thread; CallWrite (genuine [x01]); Thread; Thread; Thread; Thread; Thread; Thread; Thread;
   App; App; Thread; App; App; CallDrop; Thread; Thread; Thread; Thread; App].

Example C76_example :
  let x := @finite (toy true) _ draws (shared_new toy_writer (Shaper all_random [99; 3; 88; 2; 5; 0; 1]) []) fair_moves in
  @executes (toy true) _ draws x /\ @strongly_fair (toy true) _ draws x App /\ @strongly_fair (toy true) _ draws x Thread /\
  lock (at_time x 4) = ByDecoy /\ lock (at_time x 9) = ByDecoy /\
  in_flight (app_at (at_time x 4)) = [genuine [x01]] /\ app_at (at_time x 15) = AppWrite (genuine [x01]) /\
  app_at (at_time x 16) = AppOut /\ returned (at_time x 16) = [(genuine [x01], Ok tt)] /\
  app_at (at_time x 17) = AppJoin /\ app_at (at_time x 22) = AppDropped.
Proof.
  cbn zeta. set (s0 := shared_new _ _ _).
  destruct (@play (toy true) _ draws s0 fair_moves) as [s|] eqn:P; [|vm_compute in P; discriminate].
  assert (do_move (E := toy true) (R := draws) s App = None /\ do_move (E := toy true) (R := draws) s Thread = None) as [B1 B2].
  { vm_compute in P. injection P as <-. split; reflexivity. }
  split; [eapply finite_executes; eassumption|]. split; [eapply finite_fair; eassumption|]. split; [eapply finite_fair; eassumption|].
  clear. vm_compute. repeat split.
Qed.
