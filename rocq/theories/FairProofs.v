(** * FairProofs: fair executions of the blocking shaped writer *)
From Coq Require Import List NArith Bool Lia PeanoNat.
From Coq.Strings Require Import Byte.
From Verif Require Import Base BaseFacts Env FsChacha Cipher Histories CipherProofs Handshake Transport Io Futures Sessions
  Traffic TrafficIo TrafficFutures SpecTraffic TrafficProofs TrafficIoProofs TrafficFuturesProofs TrafficLiveProofs SpecFair.
Import ListNotations.

Section Fair.
Context {E : Env} {G : Type} {R : Rng G} {RL : RngLaws G R}.
Variable x : @execution G.
Hypothesis Ex : executes x.

Notation st := (at_time x).

Lemma strong_weak m : strongly_fair x m -> weakly_fair x m.
Proof.
  intros F i. destruct (F i) as (k & L & [H|H]); exists k; split; auto.
Qed.

Lemma reached : forall i, exists ms, play (st 0) ms = Some (st i) /\ Forall (fun m => exists l, moved x l = Some m) ms.
Proof.
  induction i as [|i (ms & P & F)]; [now exists []|]. pose proof (Ex i) as Sx. destruct (moved x i) as [m|] eqn:M.
  - exists (ms ++ [m]). rewrite play_app, P. cbn. rewrite Sx. split; [reflexivity|]. apply Forall_app. split; [assumption|].
    constructor; eauto.
  - exists ms. now rewrite Sx.
Qed.

(** The first instant from [i] at which the test holds. *)
Lemma first_time (p : nat -> bool) i : forall k, (i <= k)%nat -> p k = true ->
  exists j, (i <= j <= k)%nat /\ p j = true /\ forall l, (i <= l < j)%nat -> p l = false.
Proof.
  intros k L H. remember (k - i)%nat as d eqn:D. revert i L D. induction d as [|d IH]; intros i L D.
  - exists i. replace k with i in H by lia. repeat split; auto; lia.
  - destruct (p i) eqn:Q.
    + exists i. repeat split; auto; lia.
    + destruct (IH (S i)) as (j & Lj & Pj & N); try lia. exists j. split; [lia|]. split; [assumption|].
      intros l Ll. destruct (Nat.eq_dec l i) as [->|]; [assumption|]. apply N. lia.
Qed.

Definition calling (a : app_pc) : Prop := in_flight a <> [] \/ a = AppJoin.

(** While a call is in progress only [App] changes where the application stands. *)
Lemma app_waits i : calling (app_at (st i)) -> moved x i <> Some App ->
  app_at (st (S i)) = app_at (st i) /\ returned (st (S i)) = returned (st i) /\
  (moved x i <> Some Thread -> st (S i) = st i).
Proof.
  intros C N. pose proof (Ex i) as Sx. destruct (moved x i) as [m|]; [|rewrite Sx; auto].
  destruct m as [pl| | |]; cbn [do_move] in Sx.
  - destruct C as [C|C]; destruct (app_at (st i)); cbn in C; try discriminate; congruence.
  - destruct C as [C|C]; destruct (app_at (st i)); cbn in C; try discriminate; congruence.
  - congruence.
  - assert (app_at (st (S i)) = app_at (st i) /\ returned (st (S i)) = returned (st i)) as [Q1 Q2].
    { destruct (st i) as [w sh lk po sd a t rc rt]. unfold thread_step in Sx.
      cbn [app_at lock poisoned st_shaper st_writer thread_at shutdown returned] in *.
      destruct t; try discriminate; injection Sx as <-.
      - destruct sd; auto.
      - auto.
      - destruct lk; [destruct po|..]; auto.
      - destruct (shaper_decoy sh) as [[[d|] sh'] rec']; auto.
      - destruct (sync_write w d) as [[y w']| |]; auto. }
    split; [exact Q1|]. split; [exact Q2|]. congruence.
Qed.

Lemma app_waits_until i : calling (app_at (st i)) -> forall j, (i <= j)%nat ->
  (forall l, (i <= l < j)%nat -> moved x l <> Some App) ->
  app_at (st j) = app_at (st i) /\ returned (st j) = returned (st i) /\
  ((forall l, (i <= l < j)%nat -> moved x l <> Some Thread) -> st j = st i).
Proof.
  intros C j L. induction j as [|j IH]; intros N.
  - replace i with O by lia. auto.
  - destruct (Nat.eq_dec i (S j)) as [->|]; [auto|]. destruct IH as (I1 & I2 & I3); [lia|intros l Ll; apply N; lia|].
    destruct (app_waits j) as (Q1 & Q2 & Q3); [now rewrite I1|apply N; lia|].
    split; [congruence|]. split; [congruence|]. intros NT. rewrite Q3 by (apply NT; lia). apply I3. intros l Ll. apply NT. lia.
Qed.

Definition is_move (m : move) (o : option move) : bool :=
  match m, o with App, Some App | Thread, Some Thread | CallDrop, Some CallDrop => true | _, _ => false end.
Lemma is_app o : is_move App o = true <-> o = Some App.
Proof. destruct o as [[]|]; cbn; split; congruence. Qed.
Lemma is_thread o : is_move Thread o = true <-> o = Some Thread.
Proof. destruct o as [[]|]; cbn; split; congruence. Qed.

(** The application moves next, before or at [k]. *)
Lemma next_app i k : calling (app_at (st i)) -> (i <= k)%nat -> moved x k = Some App ->
  exists j, (i <= j)%nat /\ moved x j = Some App /\ app_at (st j) = app_at (st i) /\ returned (st j) = returned (st i).
Proof.
  intros C L M. destruct (first_time (fun l => is_move App (moved x l)) i k L) as (j & Lj & P & N).
  { now apply is_app. }
  exists j. split; [lia|]. apply is_app in P. split; [assumption|].
  destruct (app_waits_until i C j) as (Q1 & Q2 & _); [lia| |auto].
  intros l Ll Q. apply is_app in Q. rewrite N in Q by assumption. discriminate.
Qed.

Definition has_moved i j : Prop := exists l, (i <= l < j)%nat /\ moved x l = Some App.

Lemma moved_or_not i : forall j, (i <= j)%nat -> has_moved i j \/ forall l, (i <= l < j)%nat -> moved x l <> Some App.
Proof.
  intros j L. induction j as [|j IH]; [right; lia|].
  destruct (Nat.eq_dec i (S j)) as [->|]; [right; lia|]. destruct IH as [(l & Ll & M)|N]; [lia|left; exists l; split; [lia|assumption]|].
  destruct (is_move App (moved x j)) eqn:Q.
  - left. exists j. split; [lia|]. now apply is_app.
  - right. intros l Ll M. destruct (Nat.eq_dec l j) as [->|]; [|now apply (N l); [lia|]].
    apply is_app in M. congruence.
Qed.

(** A thread that is not blocked moves, unless the application does. *)
Lemma next_thread i : weakly_fair x Thread -> calling (app_at (st i)) -> thread_step (st i) <> None ->
  exists j, (i <= j)%nat /\ (has_moved i j \/ (moved x j = Some Thread /\ st j = st i)).
Proof.
  intros WF C T. destruct (WF i) as (k & L & H).
  destruct (moved_or_not i k L) as [M|N]; [exists k; auto|].
  destruct (existsb (fun l => is_move Thread (moved x l)) (seq i (k - i))) eqn:Q.
  - apply existsb_exists in Q. destruct Q as (l & Il & Pl). apply in_seq in Il.
    destruct (first_time (fun l => is_move Thread (moved x l)) i l ltac:(lia) Pl) as (j & Lj & P & Nj).
    exists j. split; [lia|]. right. apply is_thread in P. split; [assumption|].
    apply (app_waits_until i C j); [lia|intros a La; apply N; lia|].
    intros a La M. apply is_thread in M. rewrite Nj in M by assumption. discriminate.
  - assert (st k = st i) as Sk.
    { apply (app_waits_until i C k L N). intros l Ll M. apply is_thread in M.
      assert (existsb (fun l => is_move Thread (moved x l)) (seq i (k - i)) = true); [|congruence].
      apply existsb_exists. exists l. split; [apply in_seq; lia|assumption]. }
    exists k. split; [assumption|]. right. split; [|assumption]. destruct H as [H|H]; [assumption|].
    exfalso. apply T. unfold blocked in H. rewrite Sk in H. exact H.
Qed.

Hypothesis Start : exists p sh recs, st 0 = shared_new p sh recs.

Lemma locked_at i : locked (st i).
Proof.
  destruct Start as (p & sh & recs & S0). destruct (reached i) as (ms & P & _). rewrite S0 in P.
  eapply locked_play; [|exact P]. apply locked_new.
Qed.

(** The decoy thread gives the mutex back. *)
Lemma lock_frees (WF : weakly_fair x Thread) pl : forall n i, app_at (st i) = AppLock pl ->
  (left_moves (thread_at (st i)) <= n)%nat ->
  exists j, (i <= j)%nat /\ (has_moved i j \/ (app_at (st j) = AppLock pl /\ lock (st j) = Free)).
Proof.
  assert (forall i, app_at (st i) = AppLock pl -> lock (st i) = Free \/ thread_inside (thread_at (st i)) = true) as Lk.
  { intros i A. destruct (locked_at i) as [L _]. rewrite A in L. cbn [app_inside] in L.
    destruct (thread_inside (thread_at (st i))); auto. }
  induction n as [|n IH]; intros i A Ln.
  - exists i. split; [lia|]. right. split; [assumption|]. destruct (Lk i A) as [F|T]; [assumption|].
    destruct (thread_at (st i)); cbn in *; try discriminate; lia.
  - destruct (Lk i A) as [F|T]; [exists i; auto|].
    destruct (next_thread i WF) as (j & Lj & [M|[M Sj]]).
    { rewrite A. left. discriminate. }
    { intros Q. apply thread_never_stuck in Q. destruct Q as [Q|Q]; rewrite Q in T; discriminate. }
    { exists j. auto. }
    pose proof (Ex j) as Sx. rewrite M, Sj in Sx. cbn [do_move] in Sx.
    assert (app_at (st (S j)) = AppLock pl /\ (left_moves (thread_at (st (S j))) <= n \/ lock (st (S j)) = Free)%nat) as [A' D].
    { destruct (st i) as [w sh lk po sd a t rc rt]. unfold thread_step in Sx.
      cbn [app_at lock poisoned st_shaper st_writer thread_at shutdown returned] in *. subst a.
      destruct t; try discriminate; injection Sx as <-; cbn in Ln.
      - destruct (shaper_decoy sh) as [[[d|] sh'] rec']; cbn; split; auto. left. lia.
      - destruct (sync_write w d) as [[y w']| |]; cbn; auto. }
    destruct D as [D|D].
    + destruct (IH (S j) A' D) as (l & Ll & [(a & La & Ma)|Q]).
      * exists l. split; [lia|]. left. exists a. split; [lia|assumption].
      * exists l. split; [lia|]. auto.
    + exists (S j). split; [lia|]. auto.
Qed.

(** One more move of the call. *)
Lemma app_goes_on i : weakly_fair x Thread -> strongly_fair x App -> in_flight (app_at (st i)) <> [] ->
  exists j, (i <= j)%nat /\ moved x j = Some App /\ app_at (st j) = app_at (st i) /\ returned (st j) = returned (st i).
Proof.
  intros WT SA C. assert (calling (app_at (st i))) as C' by now left.
  destruct (SA i) as (k & L & [M|B]); [eapply next_app; eassumption|].
  destruct (moved_or_not i k L) as [(l & Ll & M)|N]; [apply (next_app i l); [assumption|lia|assumption]|].
  destruct (app_waits_until i C' k L N) as (A & _ & _).
  assert (exists j, (k <= j)%nat /\ (has_moved k j \/ app_step (st j) <> None)) as (j & Lj & D).
  { destruct (app_at (st i)) as [|pl|pl|d pl|pl| | |] eqn:Q; try (exfalso; apply C; reflexivity).
    - destruct (lock_frees WT pl _ k A (le_n _)) as (j & Lj & [M|[A' F]]); exists j; split; auto. right.
      unfold app_step. rewrite A', F. destruct (poisoned (st j)); discriminate.
    - exists k. split; [lia|]. right. unfold app_step. rewrite A. discriminate.
    - exists k. split; [lia|]. right. unfold app_step. rewrite A. discriminate.
    - exists k. split; [lia|]. right. unfold app_step. rewrite A. discriminate. }
  destruct D as [(l & Ll & M)|D].
  - apply (next_app i l); [assumption|lia|assumption].
  - exfalso. apply D. apply (B j Lj).
Qed.

Definition own_left (a : app_pc) : nat :=
  match a with AppLock _ => 4 | AppPad _ => 3 | AppWritePad _ _ => 2 | AppWrite _ => 1 | _ => 0 end.

Lemma app_step_left s s' pl : in_flight (app_at s) = [pl] -> app_step s = Some s' ->
  (in_flight (app_at s') = [pl] /\ returned s' = returned s /\ (own_left (app_at s') < own_left (app_at s))%nat) \/
  (app_at s' = AppOut /\ exists y, returned s' = returned s ++ [(pl, y)]) \/ (app_at s' = AppPanicked /\ poisoned s' = true).
Proof.
  intros C H. destruct s as [w sh lk po sd a t rc rt]. unfold app_step in H.
  cbn [app_at lock poisoned st_shaper st_writer thread_at returned] in *. destruct a as [|q|q|d q|q| | |]; try discriminate; injection C as ->.
  - destruct lk; try discriminate. destruct po; injection H as <-; cbn; [auto|]. left. repeat split; auto.
  - injection H as <-. destruct (shaper_pad sh pl) as [[[[d|] sh'] rec']| |]; cbn; auto 10.
  - injection H as <-. destruct (sync_write w d) as [[[[]|e] w']| |]; cbn; eauto 10.
  - injection H as <-. destruct (sync_write w pl) as [[y w']| |]; cbn; eauto 10.
Qed.

Theorem fair_write : weakly_fair x Thread -> strongly_fair x App -> forall n i pl, (own_left (app_at (st i)) <= n)%nat ->
  in_flight (app_at (st i)) = [pl] ->
  exists j, (i <= j)%nat /\
    ((app_at (st j) = AppOut /\ exists y, returned (st j) = returned (st i) ++ [(pl, y)]) \/
     (app_at (st j) = AppPanicked /\ poisoned (st j) = true)).
Proof.
  intros WT SA. induction n as [|n IH]; intros i pl L C.
  - destruct (app_at (st i)); cbn in *; try discriminate; lia.
  - destruct (app_goes_on i WT SA) as (j & Lj & M & A & Rt); [rewrite C; discriminate|].
    pose proof (Ex j) as Sx. rewrite M in Sx. cbn [do_move] in Sx. rewrite <- A in C, L.
    destruct (app_step_left _ _ _ C Sx) as [(C1 & R1 & L1)|[(A1 & y & R1)|(A1 & P1)]].
    + destruct (IH (S j) pl ltac:(lia) C1) as (l & Ll & D). exists l. split; [lia|].
      rewrite R1, Rt in D. exact D.
    + exists (S j). split; [lia|]. left. split; [assumption|]. exists y. now rewrite R1, Rt.
    + exists (S j). split; [lia|]. right. auto.
Qed.

Lemma joining_at i : app_at (st i) = AppJoin -> shutdown (st i) = true /\ decoy_next (st i).
Proof.
  intros A. destruct Start as (p & sh & recs & S0). destruct (reached i) as (ms & P & _). rewrite S0 in P.
  eapply joining_shutdown; eassumption.
Qed.

Theorem fair_drop : weakly_fair x Thread -> weakly_fair x App -> forall n i, (left_moves (thread_at (st i)) <= n)%nat ->
  app_at (st i) = AppJoin -> exists j, (i <= j)%nat /\ app_at (st j) = AppDropped.
Proof.
  intros WT WA.
  assert (forall j, moved x j = Some App -> app_at (st j) = AppJoin -> app_at (st (S j)) = AppDropped) as Done.
  { intros j M A. pose proof (Ex j) as Sx. rewrite M in Sx. cbn [do_move] in Sx. unfold app_step in Sx. rewrite A in Sx.
    destruct (thread_at (st j)); try discriminate; now injection Sx as <-. }
  assert (forall i j, app_at (st i) = AppJoin -> has_moved i j -> exists l, (i <= l)%nat /\ app_at (st l) = AppDropped) as Moved.
  { intros i j A (l & Ll & M). destruct (next_app i l) as (a & La & Ma & Aa & _); [now right|lia|assumption|].
    exists (S a). split; [lia|]. apply Done; congruence. }
  assert (forall i, app_at (st i) = AppJoin -> thread_step (st i) = None -> exists j, (i <= j)%nat /\ app_at (st j) = AppDropped) as Ended.
  { intros i A T. destruct (WA i) as (k & Lk & H). destruct (moved_or_not i k Lk) as [M|N]; [eapply Moved; eassumption|].
    assert (calling (app_at (st i))) as C by now right.
    assert (st k = st i) as Sk.
    { clear H. revert N. induction k as [|k IHk]; intros N; [now replace i with O by lia|].
      destruct (Nat.eq_dec i (S k)) as [->|]; [reflexivity|]. assert (st k = st i) as Q by (apply IHk; [lia|intros l Ll; apply N; lia]).
      rewrite <- Q in C, T |- *. apply (app_waits k C); [apply N; lia|]. intros M. pose proof (Ex k) as Sx. rewrite M in Sx.
      cbn [do_move] in Sx. congruence. }
    destruct H as [H|H].
    - exists (S k). split; [lia|]. apply Done; congruence.
    - exfalso. unfold blocked in H. rewrite Sk in H. cbn [do_move] in H. apply thread_never_stuck in T. unfold app_step in H.
      rewrite A in H. destruct T as [T|T]; rewrite T in H; discriminate. }
  induction n as [|n IH]; intros i L A.
  - apply Ended; [assumption|]. unfold thread_step. destruct (thread_at (st i)); cbn in L; try lia; reflexivity.
  - destruct (thread_step (st i)) as [s'|] eqn:T; [|now apply Ended].
    destruct (next_thread i WT) as (j & Lj & [M|[M Sj]]); [now right|congruence|eapply Moved; eassumption|].
    pose proof (Ex j) as Sx. rewrite M, Sj in Sx. cbn [do_move] in Sx.
    destruct (joining_at i A) as [Sd Dn].
    assert (app_at (st (S j)) = AppJoin /\ (left_moves (thread_at (st (S j))) < left_moves (thread_at (st i)))%nat) as [A' L'].
    { destruct (st i) as [w sh lk po sd a t rc rt]. unfold thread_step in Sx.
      cbn [app_at lock poisoned st_shaper st_writer thread_at shutdown] in *. subst a sd.
      destruct t; try discriminate; injection Sx as <-; cbn; auto.
      - destruct lk; [destruct po|..]; cbn; split; auto.
      - destruct (shaper_decoy sh) as [[[d|] sh'] rec']; cbn; split; auto.
      - destruct (sync_write w d) as [[y w']| |]; cbn; split; auto. }
    destruct (IH (S j) ltac:(lia) A') as (l & Ll & Al). exists l. split; [lia|assumption].
Qed.

End Fair.

(** ** Executions that end *)
Section Finite.
Context {E : Env} {G : Type} {R : Rng G}.

Definition finite (s0 : @shared G) (ms : list move) : execution :=
  Execution (fun i => match play s0 (firstn i ms) with Some s => s | None => s0 end) (nth_error ms).

Lemma firstn_front {A} (l1 l2 : list A) : firstn (length l1) (l1 ++ l2) = l1.
Proof. now rewrite firstn_app, Nat.sub_diag, firstn_all, firstn_O, app_nil_r. Qed.

Lemma finite_executes s0 ms s : play s0 ms = Some s -> executes (finite s0 ms).
Proof.
  intros P i. cbn [finite at_time moved]. destruct (nth_error ms i) as [m|] eqn:M.
  - apply nth_error_split in M. destruct M as (l1 & l2 & -> & L). subst i. rewrite play_app in P.
    destruct (play s0 l1) as [s1|] eqn:P1; [|discriminate]. cbn [play] in P. destruct (do_move s1 m) as [s2|] eqn:D; [|discriminate].
    rewrite firstn_front, P1, D.
    change (l1 ++ m :: l2) with (l1 ++ [m] ++ l2). rewrite app_assoc.
    replace (S (length l1)) with (length (l1 ++ [m])) by (rewrite app_length; cbn; lia).
    rewrite firstn_front, play_app, P1. cbn [play]. now rewrite D.
  - apply nth_error_None in M. now rewrite !firstn_all2 by lia.
Qed.

Lemma finite_fair s0 ms s m : play s0 ms = Some s -> blocked s m -> strongly_fair (finite s0 ms) m.
Proof.
  intros P B i. exists (Nat.max i (length ms)). split; [lia|]. right. intros j L. cbn [finite at_time].
  rewrite firstn_all2 by lia. now rewrite P.
Qed.

End Finite.

(** ** The writer task *)
Section Polled.
Context {E : Env} {EL : EnvLaws E} {G : Type} {R : Rng G} {RL : RngLaws G R}.
Variables (p : pwriter) (sh : shaper G) (recs : list N) (k : N) (es : nat -> event).
Hypothesis C : counted k (pw_cipher p).
Hypothesis Oc : overflow_checks = false.
Hypothesis So : forall i, event_sound (es i).

Let at_event i := task_run (task_new p sh recs) (before es i).

Lemma before_sound i : Forall event_sound (before es i).
Proof. apply Forall_forall. intros e H. apply in_map_iff in H. destruct H as (l & <- & _). apply So. Qed.

Lemma before_next i : at_event (S i) = task_step (at_event i) (es i).
Proof. unfold at_event, before, task_run. now rewrite seq_S, map_app, fold_left_app. Qed.

Lemma dead_answers t id : running t = false -> @answer_to G t id <> None.
Proof. unfold answer_to. intros ->. destruct (find _ _) as [[]|]; discriminate. Qed.

Lemma found_answers t id : In id (map fst (answers t)) -> @answer_to G t id <> None.
Proof.
  intros H. apply in_map_iff in H. destruct H as ((id' & y) & Q & H). cbn in Q. subst id'. unfold answer_to.
  destruct (find _ _) as [[]|] eqn:F; [discriminate|]. pose proof (find_none _ _ F _ H) as N. cbn in N.
  rewrite N.eqb_refl in N. discriminate.
Qed.

Definition stands_at i (c : command) (n : nat) : Prop :=
  exists q1 q2, queue (at_event i) = q1 ++ c :: q2 /\ (length q1 <= n)%nat.

Lemma queue_moves i c n : stands_at i c n ->
  answer_to (at_event (S i)) (cmd_id c) <> None \/
  stands_at (S i) c n /\
  forall tf el, es i = Poll tf el -> tf && el = false -> exists n', n = S n' /\ stands_at (S i) c n'.
Proof.
  intros (q1 & q2 & Q & L). assert (overflow_checks = true -> (k + 2 * len (before es i) < 2 ^ 32)%N) as Hr by congruence.
  pose proof (before_next i) as Nx.
  destruct (task_invariant p sh recs k (before es i) C Hr (before_sound i)) as (_ & _ & _ & Sl & _).
  fold (at_event i) in Sl. destruct (running (at_event i)) eqn:Ru; cycle 1.
  { left. apply dead_answers. rewrite Nx. destruct (es i); cbn [task_step]; rewrite ?Ru, ?andb_false_r; cbn [running]; auto.
    unfold poll_task. now rewrite Ru. }
  assert (forall X, X = tick (at_event i) -> running X = false \/ queue X = queue (at_event i)) as Tick.
  { intros X ->. unfold tick. destruct (shaper_decoy _) as [[[d|] ?] ?]; [destruct (tokio_write _ _) as [[]| |]|]; cbn; auto. }
  destruct (es i) as [c'| |tf el|] eqn:Ev; cbn [task_step] in Nx.
  - right. split; [|discriminate]. unfold stands_at. rewrite Nx. destruct (senders _ && running _); [|eauto].
    cbn [queue]. rewrite Q. exists q1, (q2 ++ [c']). split; [now rewrite <- app_assoc|assumption].
  - right. split; [|discriminate]. unfold stands_at. rewrite Nx. cbn [queue]. eauto.
  - destruct (tf && el) eqn:Te.
    + rewrite poll_task_eq, Te in Nx by assumption. destruct (Tick _ Nx) as [D|D]; [left; now apply dead_answers|].
      right. split; [unfold stands_at; rewrite D; eauto|]. congruence.
    + destruct q1 as [|c1 q1]; cbn [app] in Q.
      * left. destruct (task_progress p sh recs k (before es i) c q2 tf el C ltac:(congruence) (before_sound i) Ru Q Te)
          as (y & _ & A). fold (at_event i) in A. cbn [task_step] in A. rewrite <- Nx in A. apply found_answers. rewrite A, map_app.
        apply in_or_app. right. now left.
      * destruct (task_progress p sh recs k (before es i) c1 (q1 ++ c :: q2) tf el C ltac:(congruence) (before_sound i) Ru Q Te)
          as (y & A & _). fold (at_event i) in A. cbn [task_step] in A. rewrite <- Nx in A. cbn [length] in L. right. split.
        -- exists q1, q2. split; [assumption|lia].
        -- intros _ _ _ _. destruct n as [|n]; [lia|]. exists n. split; [reflexivity|]. exists q1, q2. split; [assumption|lia].
  - rewrite Ru in Nx. left. apply dead_answers. now rewrite Nx.
Qed.

Lemma queue_moves_until c n i : stands_at i c n -> forall j, (i <= j)%nat ->
  (exists l, (i <= l)%nat /\ answer_to (at_event l) (cmd_id c) <> None) \/ stands_at j c n.
Proof.
  intros H j L. induction j as [|j IH]; [right; now replace i with O in H by lia|].
  destruct (Nat.eq_dec i (S j)) as [<-|]; [now right|]. destruct IH as [A|A]; [lia|now left|].
  destruct (queue_moves j c n A) as [D|[D _]]; [left; exists (S j); split; [lia|assumption]|now right].
Qed.

Lemma queue_answered (F : fairly_polled es) c : forall n i, stands_at i c n ->
  exists j, (i <= j)%nat /\ answer_to (at_event j) (cmd_id c) <> None.
Proof.
  induction n as [|n IH]; intros i H; destruct (F i) as (l & tf & el & L & Ev & Te);
    destruct (queue_moves_until c _ i H l L) as [A|A]; try assumption;
    destruct (queue_moves l c _ A) as [D|[_ D]]; try (exists (S l); split; [lia|assumption]);
    destruct (D tf el Ev Te) as (n' & Q & D'); [discriminate|].
  injection Q as <-. destruct (IH _ D') as (j & Lj & Aj). exists j. split; [lia|assumption].
Qed.

Theorem fair_answer : fairly_polled es -> forall i c, In c (accepted (before es i)) ->
  exists j, (i <= j)%nat /\ answer_to (at_event j) (cmd_id c) <> None.
Proof.
  intros F i c H.
  destruct (task_serves p sh recs k (before es i) C ltac:(congruence) (before_sound i)) as (handled & rest & rs & bs & Ac & Rq & _ & _ & Mf & An & _).
  fold (at_event i) in *. destruct (running (at_event i)) eqn:Ru; [|exists i; split; [lia|now apply dead_answers]].
  rewrite Ac in H. apply in_app_or in H. destruct H as [H|H].
  - exists i. split; [lia|]. apply found_answers. rewrite An.
    assert (map fst (combine (map cmd_id handled) (map snd rs)) = map cmd_id handled) as ->.
    { assert (length (map cmd_id handled) = length (map snd rs)) as Le.
      { apply (f_equal (@length _)) in Mf. rewrite !map_length in *. lia. }
      clear -Le. revert Le. generalize (map snd rs) as ys. induction (map cmd_id handled) as [|a l IH]; intros ys Le; [reflexivity|].
      destruct ys; [discriminate|]. cbn. f_equal. apply IH. now injection Le. }
    now apply in_map.
  - rewrite Rq in H by reflexivity. apply in_split in H. destruct H as (q1 & q2 & Q).
    apply (queue_answered F c (length q1)). exists q1, q2. auto.
Qed.

End Polled.
