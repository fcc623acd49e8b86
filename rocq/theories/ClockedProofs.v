(** * ClockedProofs: what a clock before 1970 does *)
From Coq Require Import List NArith Bool Lia ZifyBool ZifyN Permutation.
From Coq.Strings Require Import Byte.
From Verif Require Import Base BaseFacts Env FsChacha Cipher CipherFacts Histories CipherProofs Handshake
  Transport Io Futures SpecIo Sessions TransportProofs SessionProofs EndpointProofs
  Traffic TrafficIo TrafficFutures SpecTraffic TrafficProofs TrafficIoProofs TrafficLiveProofs TrafficFuturesProofs StatsProofs Clocked.
Import ListNotations.
Local Open Scope N_scope.

Definition fine_clock (t : clock) : Prop := t <> BeforeEpoch.

Lemma fine_now t : fine_clock t -> exists n, now_ms t = Ret n.
Proof. destruct t as [|ms]; [now intros []|]. cbn. eauto. Qed.

Section Clocked.
Context {E : Env} {G : Type} {R : Rng G}.

Implicit Types s : @shared G.

(** ** The shaper *)

Lemma decoy_at_is (sh : shaper G) t : fine_clock t ->
  decoy_at sh t = (Returned (fst (fst (shaper_decoy sh))), snd (fst (shaper_decoy sh)), snd (shaper_decoy sh)).
Proof.
  intros F. destruct (fine_now _ F) as (n & N). unfold decoy_at, shaper_decoy. destruct (decoy_strategy (sh_config sh)); [reflexivity|].
  destruct (gen_range 0 99 (sh_rng sh)) as [q g]. destruct (q <? 85); [reflexivity|].
  destruct (zero_decoy g) as [[d z] g']. rewrite N. reflexivity.
Qed.

Lemma pad_at_is (sh : shaper G) pl t1 t2 : fine_clock t1 -> fine_clock t2 ->
  pad_at sh pl t1 t2 = match shaper_pad sh pl with Ret (d, sh', recs) => (Returned d, sh', recs) | _ => (Unwound, sh, []) end.
Proof.
  intros F1 F2. destruct (fine_now _ F1) as (n1 & N1). destruct (fine_now _ F2) as (n2 & N2). unfold pad_at, shaper_pad.
  destruct (payload_contents pl) as [ct| |]; [|reflexivity..]. cbn [bind]. rewrite N1.
  destruct (padding_strategy (sh_config sh)); [reflexivity|]. destruct (zero_decoy (sh_rng sh)) as [[d z] g]. rewrite N2. reflexivity.
Qed.

Lemma decoy_returned (sh : shaper G) t d sh' recs : decoy_at sh t = (Returned d, sh', recs) -> shaper_decoy sh = (d, sh', recs).
Proof.
  unfold decoy_at, shaper_decoy. destruct (decoy_strategy (sh_config sh)); [congruence|].
  destruct (gen_range 0 99 (sh_rng sh)) as [q g]. destruct (q <? 85); [congruence|].
  destruct (zero_decoy g) as [[d0 z] g']. destruct (now_ms t); congruence.
Qed.

Lemma pad_returned (sh : shaper G) pl t1 t2 d sh' recs :
  pad_at sh pl t1 t2 = (Returned d, sh', recs) -> shaper_pad sh pl = Ret (d, sh', recs).
Proof.
  unfold pad_at, shaper_pad. destruct (payload_contents pl) as [ct| |]; [|discriminate..]. cbn [bind].
  destruct (now_ms t1); [|discriminate..]. destruct (padding_strategy (sh_config sh)); [congruence|].
  destruct (zero_decoy (sh_rng sh)) as [[d0 z] g]. destruct (now_ms t2); congruence.
Qed.

(** What has been recorded by a call that unwinds. *)
Lemma decoy_unwound {RL : RngLaws G R} (sh : shaper G) t sh' recs : decoy_at sh t = (Unwound, sh', recs) ->
  t = BeforeEpoch /\ (length recs <= 1)%nat.
Proof.
  unfold decoy_at. destruct (decoy_strategy (sh_config sh)); [discriminate|].
  destruct (gen_range 0 99 (sh_rng sh)) as [q g]. destruct (q <? 85); [discriminate|].
  destruct (zero_decoy g) as [[d0 z] g']. destruct t as [|ms]; cbn [now_ms]; [|discriminate].
  intros H. injection H as _ <-. auto.
Qed.

Lemma pad_unwound (sh : shaper G) pl t1 t2 sh' recs : pad_at sh pl t1 t2 = (Unwound, sh', recs) ->
  (t1 = BeforeEpoch \/ t2 = BeforeEpoch \/ forall c, payload_contents pl <> Ret c) /\ (length recs <= 2)%nat.
Proof.
  unfold pad_at. destruct (payload_contents pl) as [ct| |].
  - destruct t1 as [|ms]; cbn [now_ms].
    + intros H. injection H as _ <-. cbn. auto.
    + destruct (padding_strategy (sh_config sh)); [discriminate|].
      destruct (zero_decoy (sh_rng sh)) as [[d0 z] g]. destruct t2; cbn [now_ms]; [|discriminate].
      intros H. injection H as _ <-. cbn. auto.
  - intros H. injection H as _ <-. split; [|cbn; lia]. right; right. discriminate.
  - intros H. injection H as _ <-. split; [|cbn; lia]. right; right. discriminate.
Qed.

(** ** The blocking driver *)

(** A move that unwinds because of the clock, or of the payload. *)
Definition unwinds s m s' : Prop :=
  poisoned s' = true /\ st_writer s' = st_writer s /\ returned s' = returned s /\ lock s' = Free /\ shutdown s' = shutdown s /\
  (exists unsent, (length unsent <= 2)%nat /\ records s' = records s ++ unsent) /\
  ((m = App /\ (exists pl, app_at s = AppPad pl) /\ app_at s' = AppPanicked /\ thread_at s' = thread_at s) \/
   (m = Thread /\ thread_at s = ThDecoy /\ thread_at s' = ThPanicked /\ app_at s' = app_at s)).

Context {RL : RngLaws G R}.

Lemma clocked_move s m ts s' : do_clocked s (m, ts) = Some s' -> do_move s m = Some s' \/ unwinds s m s'.
Proof.
  intros H. destruct ts as [t1 t2]. unfold do_clocked in H. destruct m; try (left; exact H).
  - destruct (app_at s) as [|pl|pl|d pl|pl| | |] eqn:A; try (left; exact H). cbn [do_move]. unfold app_step. rewrite A.
    destruct (pad_at (st_shaper s) pl t1 t2) as [[[d|] sh] recs] eqn:Q.
    + left. rewrite (pad_returned _ _ _ _ _ _ _ Q). exact H.
    + right. injection H as <-. destruct (pad_unwound _ _ _ _ _ _ Q) as (_ & L).
      unfold unwinds. do 5 (split; [reflexivity|]). split; [exists recs; auto|]. left. split; [reflexivity|]. split; [eauto|]. split; reflexivity.
  - destruct (thread_at s) eqn:T; try (left; destruct (app_at s); exact H). cbn [do_move]. unfold thread_step. rewrite T.
    assert (Some match decoy_at (st_shaper s) t1 with
         | (Returned (Some d), sh, recs) => set_thread (set_shaper s sh recs) (ThWrite d)
         | (Returned None, sh, recs) => set_thread (set_lock (set_shaper s sh recs) Free) ThCheck
         | (Unwound, sh, recs) => set_thread (poison (set_shaper s sh recs)) ThPanicked
         end = Some s') as H' by (destruct (app_at s); exact H).
    clear H. destruct (decoy_at (st_shaper s) t1) as [[[d|] sh] recs] eqn:Q.
    + left. rewrite (decoy_returned _ _ _ _ _ Q). exact H'.
    + right. injection H' as <-. destruct (decoy_unwound _ _ _ _ Q) as (_ & L).
      unfold unwinds. do 5 (split; [reflexivity|]). split; [exists recs; split; [lia|reflexivity]|]. right. auto.
Qed.

Lemma clocked_fine s m t1 t2 : fine_clock t1 -> fine_clock t2 -> do_clocked s (m, (t1, t2)) = do_move s m.
Proof.
  intros F1 F2. unfold do_clocked. destruct m; try reflexivity.
  - destruct (app_at s) as [|pl|pl|d pl|pl| | |] eqn:A; try reflexivity. cbn [do_move]. unfold app_step. rewrite A.
    rewrite (pad_at_is _ _ _ _ F1 F2). destruct (shaper_pad (st_shaper s) pl) as [[[d sh] recs]| |]; [reflexivity|..];
      destruct s; unfold set_app, poison, set_shaper; cbn; now rewrite app_nil_r.
  - cbn [do_move]. unfold thread_step. destruct (thread_at s) eqn:T; try (destruct (app_at s); reflexivity).
    rewrite (decoy_at_is _ _ F1). destruct (shaper_decoy (st_shaper s)) as [[d sh] recs]. cbn [fst snd].
    destruct (app_at s); reflexivity.
Qed.

Lemma play_fine : forall cs s, Forall (fun c => fine_clock (fst (snd c)) /\ fine_clock (snd (snd c))) cs ->
  play_clocked s cs = play s (map fst cs).
Proof.
  induction cs as [|[m [t1 t2]] cs IH]; intros s F; [reflexivity|]. inversion F as [|? ? [F1 F2] F']; subst.
  cbn [play_clocked map play fst snd] in *. rewrite (clocked_fine _ _ _ _ F1 F2). destruct (do_move s m); auto.
Qed.

Lemma unwinds_locked s m s' : locked s -> unwinds s m s' -> locked s' /\ poison_empties s'.
Proof.
  intros [L X] (Q1 & _ & _ & Q4 & _ & _ & Q7). unfold locked, poison_empties. rewrite Q4.
  destruct Q7 as [(_ & (pl & A) & A' & T')|(_ & T & T' & A')]; rewrite A', T'; cbn [app_inside thread_inside].
  - rewrite A in X. cbn [app_inside andb] in X. rewrite X. cbn. auto.
  - rewrite T in X. cbn [thread_inside] in X. rewrite andb_true_r in X. rewrite X. cbn. auto.
Qed.

Lemma clocked_kept s c s' : locked s -> poison_empties s -> do_clocked s c = Some s' -> locked s' /\ poison_empties s'.
Proof.
  intros L P H. destruct c as [m ts]. destruct (clocked_move _ _ _ _ H) as [M|U].
  - split; [eapply locked_move; eassumption|eapply poison_empties_move; eassumption].
  - eapply unwinds_locked; eassumption.
Qed.

(** Once poisoned, the clock is not read any more. *)
Lemma clocked_silent : forall cs s s', locked s -> poison_empties s -> poisoned s = true -> play_clocked s cs = Some s' ->
  play s (map fst cs) = Some s' /\ poisoned s' = true /\ st_writer s' = st_writer s /\ records s' = records s /\ returned s' = returned s.
Proof.
  induction cs as [|[m ts] cs IH]; intros s s' L P Q H; cbn [play_clocked] in H.
  - injection H as <-. auto.
  - destruct (do_clocked s (m, ts)) as [s1|] eqn:M; [|discriminate].
    destruct (clocked_kept _ _ _ L P M) as (L1 & P1).
    destruct (clocked_move _ _ _ _ M) as [D|(_ & _ & _ & _ & _ & _ & U)].
    + destruct (poisoned_silent _ _ _ Q P D) as (Q1 & W1 & _ & R1 & T1).
      destruct (IH _ _ L1 P1 Q1 H) as (I1 & I2 & I3 & I4 & I5). cbn [map fst play]. rewrite D.
      repeat split; congruence.
    + exfalso. destruct (P Q) as [A T]. destruct U as [(_ & (pl & U) & _)|(_ & U & _)]; rewrite U in *; discriminate.
Qed.

(** A run is a run with a fine clock, up to the move that unwinds. *)
Lemma clocked_split : forall cs s s', locked s -> poison_empties s -> poisoned s = false -> play_clocked s cs = Some s' ->
  (poisoned s' = false /\ play s (map fst cs) = Some s') \/
  exists pre m ts post s0 s1, cs = pre ++ (m, ts) :: post /\ play s (map fst pre) = Some s0 /\ poisoned s0 = false /\ locked s0 /\
    (do_move s0 m = Some s1 \/ unwinds s0 m s1) /\ poisoned s1 = true /\ poisoned s' = true /\
    st_writer s' = st_writer s1 /\ records s' = records s1 /\ returned s' = returned s1.
Proof.
  induction cs as [|[m ts] cs IH]; intros s s' L P Q H; cbn [play_clocked] in H.
  - injection H as <-. left. auto.
  - destruct (do_clocked s (m, ts)) as [s1|] eqn:M; [|discriminate].
    destruct (clocked_kept _ _ _ L P M) as (L1 & P1). pose proof (clocked_move _ _ _ _ M) as D.
    destruct (poisoned s1) eqn:Q1.
    + right. destruct (clocked_silent _ _ _ L1 P1 Q1 H) as (_ & I2 & I3 & I4 & I5).
      exists [], m, ts, cs, s, s1. repeat split; auto; apply L.
    + assert (do_move s m = Some s1) as D1.
      { destruct D as [D|(D & _)]; [assumption|congruence]. }
      destruct (IH _ _ L1 P1 Q1 H) as [[I1 I2]|(pre & m' & ts' & post & s0 & s2 & -> & I2 & I3)].
      * left. split; [assumption|]. cbn [map fst play]. now rewrite D1.
      * right. exists ((m, ts) :: pre), m', ts', post, s0, s2. split; [reflexivity|]. split; [|exact I3].
        cbn [map fst play]. now rewrite D1.
Qed.

Lemma new_kept p (sh : shaper G) recs : locked (shared_new p sh recs) /\ poison_empties (shared_new p sh recs).
Proof. split; [apply locked_new|]. unfold poison_empties. cbn. discriminate. Qed.

Lemma play_snoc ms s s1 m : play s ms = Some s1 -> play s (ms ++ [m]) = do_move s1 m.
Proof. intros H. rewrite play_app, H. cbn. now destruct (do_move s1 m). Qed.

(** With an open cipher, room and payloads a reader accepts only the clock makes a thread panic; what is on the wire then are
    whole blocks. *)
Theorem clocked_wire {EL : EnvLaws E} p (sh : shaper G) recs k cs s :
  counted k (pw_cipher p) -> (overflow_checks = true -> k + len cs < 2 ^ 32) ->
  Forall sound_payload (calls (map fst cs)) ->
  play_clocked (shared_new p sh recs) cs = Some s -> lock s = Free ->
  exists bs unsent rest,
    Forall (block_ok (sh_config sh)) bs /\ serves Sync p bs (returned s) (st_writer s) /\
    calls (map fst cs) = map fst (returned s) ++ rest /\
    records s = recs ++ flat_map block_sizes bs ++ unsent /\ (length unsent <= 2)%nat /\
    (poisoned s = false -> unsent = []).
Proof.
  intros C Hr F H Lk. destruct (new_kept p sh recs) as [L0 P0].
  destruct (clocked_split _ _ _ L0 P0 eq_refl H) as [[Q P]|(pre & m & ts & post & s0 & s1 & -> & P & Q & L & D & Q1 & Q2 & W & Rc & Rt)].
  - destruct (schedule_blocks _ _ _ _ _ P Q Lk) as (Cs & bs & Fb & _ & Sv & Rc).
    exists bs, [], (in_flight (app_at s)). rewrite app_nil_r. repeat split; auto.
  - rewrite map_app, calls_app in F. apply Forall_app in F. destruct F as [F1 F2].
    change (map fst ((m, ts) :: post)) with ([m] ++ map fst post) in F2. rewrite calls_app in F2. apply Forall_app in F2.
    destruct F2 as [F2 F3].
    assert (len (map fst pre ++ [m]) <= len (pre ++ (m, ts) :: post)) as Lm.
    { unfold len. rewrite !app_length, map_length. cbn [length]. lia. }
    assert (unwinds s0 m s1) as U.
    { destruct D as [D|D]; [|assumption]. exfalso. rewrite <- (play_snoc _ _ _ m P) in D.
      destruct (schedule_no_panic p sh recs k (map fst pre ++ [m]) s1 C) as (B & _).
      - intros Ho. specialize (Hr Ho). lia.
      - rewrite calls_app. now apply Forall_app.
      - exact D.
      - congruence. }
    destruct U as (_ & U2 & U3 & _ & _ & (un & U4 & U5) & U6).
    destruct (inv_play _ _ _ _ _ _ _ _ (inv_new p sh recs) P) as (_ & _ & I).
    destruct (I Q) as (_ & _ & Cs & bs & Fb & Pk & B). cbn [app] in Cs. unfold holds_blocks in B.
    assert (serves Sync p bs (returned s0) (st_writer s0) /\ records s0 = recs ++ flat_map block_sizes bs) as [B1 B2].
    { destruct L as [_ X]. destruct U6 as [(_ & (pl & A) & _)|(_ & T & _)].
      - rewrite A in B, X. cbn [app_inside andb] in X. destruct (thread_at s0); try discriminate; exact B.
      - rewrite T in B, X. cbn [thread_inside] in X. rewrite andb_true_r in X.
        destruct (app_at s0); try discriminate; exact B. }
    exists bs, un, (in_flight (app_at s0) ++ calls (m :: map fst post)). rewrite W, Rc, Rt, U2, U3.
    split; [assumption|]. split; [assumption|]. split; [|split; [|split; [assumption|congruence]]].
    + rewrite map_app, calls_app. cbn [map fst]. rewrite Cs. now rewrite <- app_assoc.
    + rewrite U5, B2. now rewrite <- app_assoc.
Qed.

(** ** Shutdown with any clock *)

Lemma clocked_left s ts : shutdown s = true ->
  match do_clocked s (Thread, ts) with
  | Some s' => shutdown s' = true /\ (left_moves (thread_at s') < left_moves (thread_at s))%nat /\ app_at s' = app_at s
  | None => left_moves (thread_at s) = 0%nat
  end.
Proof.
  intros Hs. destruct (do_clocked s (Thread, ts)) as [s'|] eqn:M.
  - destruct (clocked_move _ _ _ _ M) as [D|(_ & _ & _ & _ & Sd & _ & [(U & _)|(_ & T & T' & A)])]; [|discriminate|].
    + cbn [do_move] in D. destruct s as [w sh lk po sd a t rc rt]. cbn in Hs. subst sd. unfold thread_step in D.
      cbn [app_at lock poisoned st_shaper st_writer thread_at shutdown] in *. destruct t; try discriminate; injection D as <-; cbn.
      * repeat split; lia.
      * repeat split; lia.
      * destruct lk; [destruct po|..]; cbn; repeat split; lia.
      * destruct (shaper_decoy sh) as [[[d|] sh'] rec']; cbn; repeat split; lia.
      * destruct (sync_write w d) as [[x w']| |]; cbn; repeat split; lia.
    + rewrite T, T'. cbn. repeat split; try congruence. lia.
  - destruct ts as [t1 t2]. unfold do_clocked, do_move, thread_step in M. destruct (app_at s), (thread_at s); try discriminate; reflexivity.
Qed.

Lemma clocked_joins : forall n s (f : nat -> clock * clock) i, shutdown s = true -> app_at s = AppJoin -> (left_moves (thread_at s) <= n)%nat ->
  exists j s', (j <= n)%nat /\ play_clocked s (map (fun x => (Thread, f x)) (seq i j) ++ [(App, f (i + j)%nat)]) = Some s' /\
    app_at s' = AppDropped.
Proof.
  induction n as [|n IH]; intros s f i Hs A L.
  - exists 0%nat. cbn [seq map app play_clocked]. unfold do_clocked. destruct (f (i + 0)%nat). rewrite A. cbn [do_move]. unfold app_step. rewrite A.
    destruct (thread_at s); cbn in L; try lia; eexists; split; auto; split; reflexivity.
  - pose proof (clocked_left s (f i) Hs) as Q. destruct (do_clocked s (Thread, f i)) as [s1|] eqn:T.
    + destruct Q as (Q1 & Q2 & Q3). destruct (IH s1 f (S i)) as (j & s' & Lj & P & D); try congruence; try lia.
      exists (S j), s'. split; [lia|]. split; [|assumption]. cbn [seq map app play_clocked]. rewrite T.
      replace (i + S j)%nat with (S i + j)%nat by lia. exact P.
    + destruct (IH s f i Hs A) as (j & s' & Lj & P & D); [lia|]. exists j, s'. split; [lia|]. auto.
Qed.

Lemma clocked_shutdown : forall cs s s', (app_at s = AppJoin -> shutdown s = true) -> play_clocked s cs = Some s' ->
  app_at s' = AppJoin -> shutdown s' = true.
Proof.
  induction cs as [|[m ts] cs IH]; intros s s' I H; cbn [play_clocked] in H; [injection H as <-; auto|].
  destruct (do_clocked s (m, ts)) as [s1|] eqn:M; [|discriminate]. eapply IH; [|exact H].
  destruct (clocked_move _ _ _ _ M) as [D|(_ & _ & _ & _ & Sd & _ & [(_ & _ & A & _)|(_ & _ & _ & A)])].
  - clear -D I. destruct s as [w sh lk po sd a t rc rt]. cbn [app_at shutdown] in *. destruct m as [pl| | |]; cbn [do_move app_at] in D.
    + destruct a; inversion D; subst; discriminate.
    + destruct a; inversion D; subst; reflexivity.
    + unfold app_step in D. cbn [app_at lock poisoned st_shaper st_writer thread_at] in D. destruct a; try discriminate.
      * destruct lk; try discriminate. destruct po; injection D as <-; discriminate.
      * injection D as <-. destruct (shaper_pad sh pl) as [[[[d|] sh'] rec']| |]; discriminate.
      * injection D as <-. destruct (sync_write w d) as [[[[]|e] w']| |]; discriminate.
      * injection D as <-. destruct (sync_write w pl) as [[x w']| |]; discriminate.
      * destruct t; inversion D; subst; discriminate.
    + unfold thread_step in D. cbn [app_at lock poisoned st_shaper st_writer thread_at shutdown] in D.
      destruct t; try discriminate; injection D as <-.
      * destruct sd; auto.
      * auto.
      * destruct lk; [destruct po|..]; auto.
      * destruct (shaper_decoy sh) as [[[d|] sh'] rec']; auto.
      * destruct (sync_write w d) as [[x w']| |]; auto.
  - rewrite A. discriminate.
  - rewrite A, Sd. exact I.
Qed.

(** ** The writer task *)

Lemma task_at_cases (t : @task G) e ts :
  task_step_at t (e, ts) = task_step t e \/
  (running t = true /\ exists sh recs, task_step_at t (e, ts) = unwind t sh recs /\ (length recs <= 2)%nat).
Proof.
  destruct ts as [t1 t2]. unfold task_step_at. destruct e as [c| |tf el|]; auto. cbn [task_step]. unfold poll_task.
  destruct (running t); [|auto]. destruct (select _ _ _) as [[|i]| |d]; auto.
  - destruct (queue t) as [|cmd q]; [auto|]. unfold handle_at, handle.
    destruct (pad_at (tk_shaper t) (cmd_payload cmd) t1 t2) as [[[d|] sh] recs] eqn:Q.
    + left. rewrite (pad_returned _ _ _ _ _ _ _ Q). reflexivity.
    + right. split; [reflexivity|]. exists sh, recs. split; [reflexivity|]. now apply pad_unwound in Q.
  - unfold tick_at, tick. destruct (decoy_at (tk_shaper t) t1) as [[[d|] sh] recs] eqn:Q.
    + left. rewrite (decoy_returned _ _ _ _ _ Q). destruct d; reflexivity.
    + right. split; [reflexivity|]. exists sh, recs. split; [reflexivity|]. apply decoy_unwound in Q. lia.
Qed.

Lemma task_at_fine (t : @task G) e t1 t2 : fine_clock t1 -> fine_clock t2 -> task_step_at t (e, (t1, t2)) = task_step t e.
Proof.
  intros F1 F2. unfold task_step_at. destruct e as [c| |tf el|]; auto. cbn [task_step]. unfold poll_task.
  destruct (running t); [|auto]. destruct (select _ _ _) as [[|i]| |d]; auto.
  - destruct (queue t) as [|cmd q]; [auto|]. unfold handle_at, handle. rewrite (pad_at_is _ _ _ _ F1 F2).
    destruct (shaper_pad (tk_shaper t) (cmd_payload cmd)) as [[[d sh] recs]| |]; [reflexivity|..];
      unfold unwind, stop; now rewrite app_nil_r.
  - unfold tick_at, tick. rewrite (decoy_at_is _ _ F1). destruct (shaper_decoy (tk_shaper t)) as [[[d|] sh] recs]; reflexivity.
Qed.

Lemma task_run_fine : forall es (t : @task G), Forall (fun e => fine_clock (fst (snd e)) /\ fine_clock (snd (snd e))) es ->
  task_run_at t es = task_run t (map fst es).
Proof.
  induction es as [|[e [t1 t2]] es IH]; intros t F; [reflexivity|]. inversion F as [|? ? [F1 F2] F']; subst. cbn [fst snd] in *.
  unfold task_run_at, task_run in *. cbn [fold_left map fst]. rewrite (task_at_fine _ _ _ _ F1 F2). now apply IH.
Qed.

Lemma stopped_at : forall es (t : @task G), running t = false -> let t' := task_run_at t es in
  running t' = false /\ tk_writer t' = tk_writer t /\ tk_records t' = tk_records t /\ answers t' = answers t.
Proof.
  induction es as [|[e [t1 t2]] es IH]; intros t H; [auto|]. unfold task_run_at in *. cbn [fold_left]. cbn zeta in *.
  assert (let t' := task_step_at t (e, (t1, t2)) in
    running t' = false /\ tk_writer t' = tk_writer t /\ tk_records t' = tk_records t /\ answers t' = answers t) as (Q1 & Q2 & Q3 & Q4).
  { destruct e as [c| |tf el|]; cbn; rewrite ?H, ?andb_false_r; auto. }
  destruct (IH _ Q1) as (I1 & I2 & I3 & I4). repeat split; congruence.
Qed.

Lemma task_split : forall es (t : @task G),
  task_run_at t es = task_run t (map fst es) \/
  exists pre e ts post unsent, es = pre ++ (e, ts) :: post /\ running (task_run t (map fst pre)) = true /\
    let t' := task_run_at t es in let t0 := task_run t (map fst pre) in
    running t' = false /\ tk_writer t' = tk_writer t0 /\ answers t' = answers t0 /\
    tk_records t' = tk_records t0 ++ unsent /\ (length unsent <= 2)%nat.
Proof.
  induction es as [|[e ts] es IH]; intros t; [now left|].
  destruct (task_at_cases t e ts) as [Q|(Rn & sh & recs & Q & L)].
  - destruct (IH (task_step t e)) as [I|(pre & e' & ts' & post & un & -> & I1 & I2)].
    + left. unfold task_run_at, task_run in *. cbn [fold_left map fst]. rewrite Q. exact I.
    + right. exists ((e, ts) :: pre), e', ts', post, un. split; [reflexivity|].
      unfold task_run_at, task_run in *. cbn [fold_left map fst app] in *. split; [exact I1|]. rewrite Q. exact I2.
  - right. exists [], e, ts, es, recs. split; [reflexivity|]. split; [exact Rn|]. cbn zeta.
    assert (task_run_at t ((e, ts) :: es) = task_run_at (unwind t sh recs) es) as ->.
    { unfold task_run_at. cbn [fold_left]. now rewrite Q. }
    destruct (stopped_at es (unwind t sh recs) eq_refl) as (I1 & I2 & I3 & I4). cbn [task_run map fold_left].
    rewrite I1, I2, I3, I4. auto.
Qed.

Lemma accepted_prefix : forall a b, exists x, accepted (a ++ b) = accepted a ++ x.
Proof.
  induction a as [|e a IH]; intros b; [eexists; reflexivity|]. destruct (IH b) as (x & Q).
  destruct e; cbn [accepted app]; rewrite ?Q; try (now exists x); now exists [].
Qed.

Theorem task_wire {EL : EnvLaws E} p (sh : shaper G) recs k es :
  counted k (pw_cipher p) -> (overflow_checks = true -> k + 2 * len es < 2 ^ 32) ->
  Forall event_sound (map fst es) ->
  let t := task_run_at (task_new p sh recs) es in
  exists handled rest rs bs unsent,
    accepted (map fst es) = handled ++ rest /\
    Forall (block_ok (sh_config sh)) bs /\ serves Tokio p bs rs (tk_writer t) /\
    map fst rs = map cmd_payload handled /\ answers t = combine (map cmd_id handled) (map snd rs) /\
    tk_records t = recs ++ flat_map block_sizes bs ++ unsent /\ (length unsent <= 2)%nat /\ (running t = true -> unsent = []) /\
    (running t = false -> forall id, ~ In id (map cmd_id handled) -> answer_to t id = Some (Err gone)).
Proof.
  intros C Hr F. cbn zeta.
  assert (exists pre post unsent, es = pre ++ post /\ let t := task_run_at (task_new p sh recs) es in
    let t0 := task_run (task_new p sh recs) (map fst pre) in
    tk_writer t = tk_writer t0 /\ answers t = answers t0 /\ tk_records t = tk_records t0 ++ unsent /\ (length unsent <= 2)%nat /\
    (running t = true -> unsent = [])) as (pre & post & un & -> & Q1 & Q2 & Q3 & Q4 & Q5).
  { destruct (task_split es (task_new p sh recs)) as [Q|(pre & e & ts & post & un & -> & _ & Q1 & Q2 & Q3 & Q4 & Q5)].
    - exists es, [], []. rewrite app_nil_r. cbn zeta. rewrite Q, app_nil_r. repeat split; auto.
    - exists pre, ((e, ts) :: post), un. cbn zeta in *. rewrite Q1. repeat split; auto. discriminate. }
  cbn zeta in *. set (t := task_run_at (task_new p sh recs) (pre ++ post)) in *. clearbody t.
  rewrite map_app in *. apply Forall_app in F. destruct F as [F _].
  destruct (accepted_prefix (map fst pre) (map fst post)) as (x & Ax).
  destruct (task_serves p sh recs k (map fst pre) C) as (handled & rest & rs & bs & A1 & _ & A3 & A4 & A5 & A6 & A7 & _).
  { intros Ho. specialize (Hr Ho). rewrite len_app in Hr. unfold len in *. rewrite map_length. lia. }
  { exact F. }
  exists handled, (rest ++ x), rs, bs, un. rewrite Ax, A1, Q1, Q2, Q3, A7.
  split; [now rewrite app_assoc|]. do 3 (split; [assumption|]). split; [assumption|]. split; [now rewrite app_assoc|].
  split; [assumption|]. split; [assumption|].
  intros Rn id Ni. unfold answer_to. rewrite Q2, A6, Rn.
  replace (find (fun a => fst a =? id) (combine (map cmd_id handled) (map snd rs))) with (@None (N * result perror unit)); [reflexivity|].
  clear -Ni. symmetry. generalize (map snd rs) as l. revert Ni. generalize (map cmd_id handled) as h.
  induction h as [|i h IH]; intros Ni l; [reflexivity|]. destruct l as [|y l]; [reflexivity|]. cbn [combine find fst].
  destruct (N.eqb_spec i id) as [->|_]; [exfalso; apply Ni; now left|]. apply IH. intros I. apply Ni. now right.
Qed.

End Clocked.

(** ** The counters *)

Lemma done_sums : forall rs, let ops := flat_map record_done rs in
  sum (map rb ops) = sum (reads_of rs) /\ sum (map wb ops) = sum (writes_of rs) /\
  sum (map rm ops) = N.of_nat (length (reads_of rs)) /\ sum (map wm ops) = N.of_nat (length (writes_of rs)) /\
  stores ops = times_of rs.
Proof.
  induction rs as [|r rs IH]; [repeat split|]. cbn zeta in *. destruct IH as (I1 & I2 & I3 & I4 & I5). cbn [flat_map].
  rewrite !map_app, !sum_app. unfold stores, reads_of, writes_of, times_of in *.
  rewrite flat_map_app, I1, I2, I3, I4, I5.
  destruct r as [n [|t]|n [|t]]; cbn [record_done now_ms map flat_map app sum fold_right rb wb rm wm length];
    unfold sum; cbn [fold_right]; repeat split; try lia; try reflexivity.
Qed.

Theorem clocked_sums t0 s0 threads l :
  stats_new t0 = Ret s0 -> merges (map (flat_map record_done) threads) l ->
  let s := fold_left stat_step l s0 in
  bytes_read s = sum (reads_of (concat threads)) mod 2 ^ 64 /\
  bytes_written s = sum (writes_of (concat threads)) mod 2 ^ 64 /\
  messages_read s = N.of_nat (length (reads_of (concat threads))) mod 2 ^ 64 /\
  messages_written s = N.of_nat (length (writes_of (concat threads))) mod 2 ^ 64 /\
  (In (last_activity_ms s) (times_of (concat threads)) \/
   (times_of (concat threads) = [] /\ last_activity_ms s = last_activity_ms s0)).
Proof.
  intros Hn M s.
  assert (s0 = Stats 0 0 0 0 (last_activity_ms s0)) as S0.
  { unfold stats_new in Hn. destruct (now_ms t0); try discriminate. now injection Hn as <-. }
  assert (concat (map (flat_map record_done) threads) = flat_map record_done (concat threads)) as T.
  { clear. induction threads as [|a t IH]; [reflexivity|]. cbn [map concat]. now rewrite flat_map_app, IH. }
  destruct (done_sums (concat threads)) as (T1 & T2 & T3 & T4 & T5). rewrite <- T in T1, T2, T3, T4, T5.
  apply merges_perm in M. set (opss := concat (map (flat_map record_done) threads)) in *.
  destruct (counters l s0) as (C1 & C2 & C3 & C4 & C5). fold s in C1, C2, C3, C4, C5.
  assert (in_range s) as (R1 & R2 & R3 & R4).
  { apply run_in_range. rewrite S0. repeat split; cbn; lia. }
  rewrite N.mod_small in C1, C2, C3, C4 by assumption.
  assert (P : forall f : stat_op -> N, sum (map f l) = sum (map f opss)).
  { intros f. apply sum_perm. apply Permutation_map. now symmetry. }
  rewrite P in C1, C2, C3, C4. rewrite T1 in C1. rewrite T2 in C2. rewrite T3 in C3. rewrite T4 in C4.
  rewrite S0 in C1, C2, C3, C4. cbn [bytes_read bytes_written messages_read messages_written] in C1, C2, C3, C4.
  rewrite N.add_0_l in C1, C2, C3, C4. repeat split; try assumption.
  assert (Permutation (stores opss) (stores l)) as Ps.
  { unfold stores. clear -M. induction M; cbn.
    - constructor.
    - now apply Permutation_app_head.
    - rewrite !app_assoc. apply Permutation_app_tail. apply Permutation_app_comm.
    - etransitivity; eassumption. }
  rewrite T5 in Ps. rewrite C5. destruct (stores l) as [|a rest] eqn:Sl.
  - right. split; [|reflexivity]. now apply Permutation_nil, Permutation_sym.
  - left. eapply Permutation_in; [symmetry; exact Ps|].
    assert (Q : forall (r : list N) x d, In (last (x :: r) d) (x :: r)).
    { clear. induction r as [|y r IH]; intros x d; [now left|]. right. apply (IH y d). }
    apply Q.
Qed.
