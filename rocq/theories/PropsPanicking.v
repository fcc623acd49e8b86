(** * PropsPanicking: shaped writers over a transport that panics (C116) *)
From Coq Require Import List NArith Bool Lia.
From Coq.Strings Require Import Byte.
From Verif Require Import Base BaseFacts Env Toy FsChacha Cipher Histories CipherProofs Handshake Transport Io Futures SpecIo Sessions
  SessionProofs EndpointProofs Traffic TrafficIo TrafficFutures SpecTraffic TrafficProofs TrafficIoProofs TrafficLiveProofs TrafficFuturesProofs
  PropsHandshake PropsIo PropsTraffic TrafficTask SpecTask TrafficTaskProofs SpecAwait AwaitProofs Clocked ClockedProofs Panicking.
Import ListNotations.
Local Open Scope N_scope.

Section Sim.
Context {E : Env} {EL : EnvLaws E} {G : Type} {R : Rng G} {RL : RngLaws G R}.
Implicit Types s : @shared G.

Lemma cut_prefix before after n : exists tail, written (pw_writer after) = written (pw_writer (cut before after n)) ++ tail.
Proof. eexists. cbn [cut pw_writer written]. symmetry. apply take_drop. Qed.

(** ** The blocking driver *)

(** A move in which the transport panics: [s1] is where the move would have led. *)
Definition cuts s m s1 s' : Prop :=
  do_move s m = Some s1 /\ poisoned s = false /\ poisoned s' = true /\ lock s' = Free /\ shutdown s' = shutdown s /\ returned s' = returned s /\ records s' = records s /\
  (exists n, st_writer s' = cut (st_writer s) (st_writer s1) n) /\
  ((m = App /\ app_inside (app_at s) = true /\ (forall pl, app_at s <> AppPad pl) /\ app_at s' = AppPanicked /\ thread_at s' = thread_at s) \/
   (m = Thread /\ (exists d, thread_at s = ThWrite d) /\ thread_at s' = ThPanicked /\ app_at s' = app_at s)).

Lemma panicky_move s c s' : poison_empties s -> do_panicky s c = Some s' ->
  do_move s (fst c) = Some s' \/ exists s1, cuts s (fst c) s1 s'.
Proof.
  intros P. destruct c as [m [n|]]; cbn [do_panicky fst]; [|auto].
  destruct m as [pl| | |]; auto.
  - destruct (app_at s) as [|pl|pl|d pl|pl| | |] eqn:A; auto; cbn [do_move app_step]; unfold app_step; rewrite A.
    + destruct (sync_write (st_writer s) d) as [[x w]| |] eqn:W; auto. intros H. injection H as <-. right.
      assert (Pz : poisoned s = false).
      { destruct (poisoned s) eqn:Z; [|reflexivity]. destruct (P Z) as [X _]. rewrite A in X. discriminate. }
      destruct x as [u|e]; eexists; unfold cuts; cbn [do_move]; unfold app_step; rewrite A, W; (split; [reflexivity|]);
        (split; [exact Pz|]); do 5 (split; [reflexivity|]); (split; [exists n; reflexivity|left; repeat split; discriminate]).
    + destruct (sync_write (st_writer s) pl) as [[x w]| |] eqn:W; auto. intros H. injection H as <-. right.
      assert (Pz : poisoned s = false).
      { destruct (poisoned s) eqn:Z; [|reflexivity]. destruct (P Z) as [X _]. rewrite A in X. discriminate. }
      eexists; unfold cuts; cbn [do_move]; unfold app_step; rewrite A, W; (split; [reflexivity|]);
        (split; [exact Pz|]); do 5 (split; [reflexivity|]); (split; [exists n; reflexivity|left; repeat split; discriminate]).
  - destruct (thread_at s) as [| | | |d| |] eqn:T; try (destruct (app_at s); auto; fail).
    intros H. assert (H0 : match sync_write (st_writer s) d with Ret (_, w) => Some (thread_cut s w n) | _ => do_move s Thread end = Some s')
      by (destruct (app_at s); exact H). clear H. revert H0.
    destruct (sync_write (st_writer s) d) as [[x w]| |] eqn:W; auto. intros H. injection H as <-. right.
    assert (Pz : poisoned s = false).
    { destruct (poisoned s) eqn:Z; [|reflexivity]. destruct (P Z) as [_ X]. rewrite T in X. discriminate. }
    eexists; unfold cuts; cbn [do_move]; unfold thread_step; rewrite T, W; (split; [reflexivity|]);
      (split; [exact Pz|]); do 5 (split; [reflexivity|]); (split; [exists n; reflexivity|right; eauto]).
Qed.

Lemma panicky_kept s c s' : locked s -> poison_empties s -> do_panicky s c = Some s' -> locked s' /\ poison_empties s'.
Proof.
  intros L P H. destruct (panicky_move _ _ _ P H) as [D|(s1 & D & P0 & P1 & Lk & _ & _ & _ & _ & U)].
  - split; [eapply locked_move; eassumption|eapply poison_empties_move; eassumption].
  - destruct L as [_ X]. unfold locked, poison_empties. destruct U as [(_ & A & _ & A' & T')|(_ & (d & T) & T' & A')].
    + rewrite A in X. cbn [andb] in X. rewrite Lk, A', T', X. cbn. auto.
    + rewrite T in X. cbn [thread_inside] in X. rewrite andb_true_r in X. rewrite Lk, A', T', X. cbn. auto.
Qed.

Lemma panicky_silent : forall cs s s', locked s -> poison_empties s -> poisoned s = true -> play_panicky s cs = Some s' ->
  poisoned s' = true /\ st_writer s' = st_writer s /\ records s' = records s /\ returned s' = returned s.
Proof.
  induction cs as [|c cs IH]; intros s s' L P Q H; cbn [play_panicky] in H; [injection H as <-; auto|].
  destruct (do_panicky s c) as [s1|] eqn:M; [|discriminate]. destruct (panicky_kept _ _ _ L P M) as [L1 P1].
  destruct (panicky_move _ _ _ P M) as [D|(s2 & _ & X & _)]; [|congruence].
  destruct (poisoned_silent _ _ _ Q P D) as (Q1 & W1 & _ & R1 & T1).
  destruct (IH _ _ L1 P1 Q1 H) as (I1 & I2 & I3 & I4). repeat split; congruence.
Qed.

Lemma panicky_kept_play : forall cs s s', locked s -> poison_empties s -> play_panicky s cs = Some s' -> locked s' /\ poison_empties s'.
Proof.
  induction cs as [|c cs IH]; intros s s' L P H; cbn [play_panicky] in H; [injection H as <-; auto|].
  destruct (do_panicky s c) as [s1|] eqn:M; [|discriminate]. destruct (panicky_kept _ _ _ L P M). eapply IH; eassumption.
Qed.

Lemma panicky_split : forall cs s s', locked s -> poison_empties s -> poisoned s = false -> play_panicky s cs = Some s' ->
  play s (map fst cs) = Some s' \/
  exists pre m n post s0 s1 s2, cs = pre ++ (m, n) :: post /\ play s (map fst pre) = Some s0 /\ locked s0 /\
    (cuts s0 m s1 s2 \/ do_move s0 m = Some s2) /\ poisoned s2 = true /\ poisoned s' = true /\
    st_writer s' = st_writer s2 /\ records s' = records s2 /\ returned s' = returned s2.
Proof.
  induction cs as [|[m n] cs IH]; intros s s' L P Q H; cbn [play_panicky] in H; [injection H as <-; now left|].
  destruct (do_panicky s (m, n)) as [s1|] eqn:M; [|discriminate].
  destruct (panicky_kept _ _ _ L P M) as (L1 & P1). pose proof (panicky_move _ _ _ P M) as D. cbn [fst] in D.
  destruct (poisoned s1) eqn:Q1.
  - right. destruct (panicky_silent _ _ _ L1 P1 Q1 H) as (I2 & I3 & I4 & I5).
    destruct D as [D|(s2 & D)]; [exists [], m, n, cs, s, s, s1|exists [], m, n, cs, s, s2, s1]; repeat split; auto; apply L.
  - assert (do_move s m = Some s1) as D1 by (destruct D as [D|(s2 & _ & _ & X & _)]; [assumption|congruence]).
    destruct (IH _ _ L1 P1 Q1 H) as [I|(pre & m' & n' & post & s0 & s2 & s3 & -> & I2 & I3)].
    + left. cbn [map fst play]. now rewrite D1.
    + right. exists ((m, n) :: pre), m', n', post, s0, s2, s3. split; [reflexivity|]. split; [|exact I3].
      cbn [map fst play]. now rewrite D1.
Qed.
End Sim.

Section Blocking.
Context {E : Env} {EL : EnvLaws E} {G : Type} {R : Rng G} {RL : RngLaws G R}.
Implicit Types s : @shared G.

Lemma new_panicky p (sh : shaper G) recs : locked (shared_new p sh recs) /\ poison_empties (shared_new p sh recs).
Proof. split; [apply locked_new|]. unfold poison_empties. cbn. discriminate. Qed.

(** A move which uses the transport: what it leads to, and if it was that of the padding the one after it. *)
Lemma inside_move s m s1 : locked s -> do_move s m = Some s1 -> poisoned s1 = false ->
  (m = App /\ app_inside (app_at s) = true /\ (forall pl, app_at s <> AppPad pl) \/ m = Thread /\ exists d, thread_at s = ThWrite d) ->
  (lock s1 = Free \/ exists pl, app_at s1 = AppWrite pl) /\ records s1 = records s /\ poisoned s = false /\
  (exists more, returned s1 = returned s ++ more /\ (length more <= 1)%nat /\ (lock s1 <> Free -> more = [])).
Proof.
  intros [L X] M P U. destruct s as [w sh lk po sd a t rc rt]. cbn [app_at thread_at lock records returned poisoned] in *.
  destruct U as [(-> & A & A')|(-> & d & T)].
  - cbn [do_move] in M. unfold app_step in M. cbn [app_at st_writer] in M. destruct a as [|pl|pl|d pl|pl| | |]; try discriminate; [now destruct (A' pl)|..].
    + injection M as <-. destruct (sync_write w d) as [[[u|e] w']| |]; cbn in P |- *; try discriminate.
      * repeat split; eauto. exists []. rewrite app_nil_r. cbn. auto.
      * repeat split; auto. eexists. split; [reflexivity|]. cbn. split; [lia|congruence].
    + injection M as <-. destruct (sync_write w pl) as [[x w']| |]; cbn in P |- *; try discriminate.
      repeat split; auto. eexists. split; [reflexivity|]. cbn. split; [lia|congruence].
  - cbn [do_move] in M. unfold thread_step in M. cbn [thread_at st_writer] in M. rewrite T in M. injection M as <-.
    destruct (sync_write w d) as [[x w']| |]; cbn in P |- *; try discriminate.
    repeat split; auto. exists []. rewrite app_nil_r. cbn. auto.
Qed.

Theorem panicky_wire p (sh : shaper G) recs k cs s :
  counted k (pw_cipher p) -> (overflow_checks = true -> k + len cs + 1 < 2 ^ 32) ->
  Forall sound_payload (calls (map fst cs)) ->
  play_panicky (shared_new p sh recs) cs = Some s -> lock s = Free ->
  exists bs rs p' tail more rest,
    Forall (block_ok (sh_config sh)) bs /\ serves Sync p bs rs p' /\
    rs = returned s ++ more /\ (length more <= 1)%nat /\
    calls (map fst cs) = map fst rs ++ rest /\
    records s = recs ++ flat_map block_sizes bs /\
    written (pw_writer p') = written (pw_writer (st_writer s)) ++ tail /\
    (poisoned s = false -> p' = st_writer s /\ more = []).
Proof.
  intros C Hr F H Lk. destruct (new_panicky p sh recs) as [L0 P0].
  destruct (panicky_split _ _ _ L0 P0 eq_refl H) as [Pl|(pre & m & n & post & s0 & s1 & s2 & -> & Pl & L & D & Q2 & Qs & W & Rc & Rt)].
  - destruct (schedule_no_panic p sh recs k (map fst cs) s C) as (Q & _); try assumption.
    { intros Ho. specialize (Hr Ho). unfold len in *. rewrite map_length. lia. }
    destruct (schedule_blocks _ _ _ _ _ Pl Q Lk) as (Cs & bs & Fb & _ & Sv & Rc).
    exists bs, (returned s), (st_writer s), [], [], (in_flight (app_at s)). rewrite !app_nil_r. cbn [length].
    repeat match goal with |- _ /\ _ => split end; auto.
  - rewrite map_app, calls_app in F. apply Forall_app in F. destruct F as [F1 F2].
    change (map fst ((m, n) :: post)) with ([m] ++ map fst post) in F2. rewrite calls_app in F2. apply Forall_app in F2.
    destruct F2 as [F2 F3].
    assert (Lm : len (map fst pre ++ [m]) <= len (pre ++ (m, n) :: post)).
    { unfold len. rewrite !app_length, map_length. cbn [length]. lia. }
    assert (NP : forall s1, do_move s0 m = Some s1 -> poisoned s1 = false).
    { intros s3 D3. rewrite <- (play_snoc _ _ _ m Pl) in D3.
      apply (schedule_no_panic p sh recs k (map fst pre ++ [m]) s3 C); [|rewrite calls_app; now apply Forall_app|exact D3].
      intros Ho. specialize (Hr Ho). lia. }
    destruct D as [D|D]; [|specialize (NP _ D); congruence].
    destruct D as (D & Pz & _ & _ & _ & Rt2 & Rc2 & (c & W2) & U). specialize (NP _ D).
    assert (U' : m = App /\ app_inside (app_at s0) = true /\ (forall pl, app_at s0 <> AppPad pl) \/ m = Thread /\ exists d, thread_at s0 = ThWrite d).
    { destruct U as [(-> & A & B & _)|(-> & T & _)]; [left|right]; auto. }
    destruct (inside_move _ _ _ L D NP U') as (Next & Rc1 & _ & more & Rt1 & Lm1 & M1).
    assert (Cl : calls [m] = []) by (destruct U' as [(-> & _)|(-> & _)]; reflexivity).
    assert (exists ms s3 more3, play (shared_new p sh recs) (map fst pre ++ m :: ms) = Some s3 /\ lock s3 = Free /\ poisoned s3 = false /\
      calls ms = [] /\ records s3 = records s0 /\ returned s3 = returned s0 ++ more3 /\ (length more3 <= 1)%nat /\
      exists tail, written (pw_writer (st_writer s3)) = written (pw_writer (st_writer s1)) ++ tail)
      as (ms & s3 & more3 & Pl3 & Lk3 & Ps3 & Cm & Rc3 & Rt3 & Lm3 & tail3 & W3).
    { destruct (lock s1) eqn:Lk1; [|..].
      - exists [], s1, more. change (m :: []) with ([m]). rewrite (play_snoc _ _ _ m Pl). rewrite D.
        repeat match goal with |- _ /\ _ => split end; auto. exists []. now rewrite app_nil_r.
      - destruct Next as [?|(pl & A1)]; [discriminate|].
        destruct (do_move s1 App) as [s3|] eqn:D3; [|cbn [do_move] in D3; unfold app_step in D3; rewrite A1 in D3; discriminate].
        assert (Pl3 : play (shared_new p sh recs) (map fst pre ++ [m; App]) = Some s3).
        { rewrite play_app, Pl. cbn [play]. now rewrite D, D3. }
        assert (Ps3 : poisoned s3 = false).
        { apply (schedule_no_panic p sh recs k (map fst pre ++ [m; App]) s3 C); [|rewrite calls_app|exact Pl3].
          - intros Ho. specialize (Hr Ho). unfold len in *. rewrite !app_length, !map_length in *. cbn [length] in *. lia.
          - apply Forall_app. split; [exact F1|]. change [m; App] with ([m] ++ [App]). rewrite calls_app. apply Forall_app. split; [exact F2|constructor]. }
        exists [App], s3. cbn [do_move] in D3. unfold app_step in D3. rewrite A1 in D3.
        injection D3 as <-. destruct (sync_write (st_writer s1) pl) as [[x w']| |] eqn:W'; cbn in Ps3; try discriminate.
        exists [(pl, x)]. split; [exact Pl3|]. cbn. rewrite Rt1, M1 by congruence. rewrite app_nil_r.
        repeat match goal with |- _ /\ _ => split end; auto. eapply (write_any_grows Sync); exact W'.
      - destruct Next as [?|(pl & A1)]; [discriminate|]. exfalso.
        assert (locked s1) as [L1 _] by (eapply locked_move; [exact L|exact D]). rewrite A1, Lk1 in L1. discriminate. }
    destruct (schedule_blocks _ _ _ _ _ Pl3 Ps3 Lk3) as (Cs & bs & Fb & _ & Sv & Rc4).
    destruct (cut_prefix (st_writer s0) (st_writer s1) c) as (tail & Wc).
    exists bs, (returned s3), (st_writer s3), (tail ++ tail3), more3, (in_flight (app_at s3) ++ calls (map fst post)).
    rewrite W, W2, Rc, Rc2, Rt, Rt2.
    repeat match goal with |- _ /\ _ => split end; auto; try congruence.
    + rewrite map_app, calls_app. change (map fst ((m, n) :: post)) with ([m] ++ map fst post). rewrite calls_app, Cl.
      change (m :: ms) with ([m] ++ ms) in Cs. rewrite !calls_app, Cl, Cm in Cs. cbn [app] in *. rewrite app_nil_r in Cs. rewrite Cs.
      now rewrite <- app_assoc.
    + rewrite W3, Wc. now rewrite app_assoc.
Qed.
End Blocking.

Section After.
Context {E : Env} {G : Type} {R : Rng G} {RL : RngLaws G R}.
Implicit Types s : @shared G.

Lemma panicky_left s c : shutdown s = true -> poison_empties s ->
  match do_panicky s (Thread, c) with
  | Some s' => shutdown s' = true /\ (left_moves (thread_at s') < left_moves (thread_at s))%nat /\ app_at s' = app_at s
  | None => left_moves (thread_at s) = 0%nat
  end.
Proof.
  intros Hs P. destruct (do_panicky s (Thread, c)) as [s'|] eqn:M.
  - destruct (panicky_move _ _ _ P M) as [D|(s1 & D & _ & _ & _ & Sd & _ & _ & _ & [(U & _)|(_ & (d & T) & T' & A)])]; [|discriminate|].
    + cbn [do_move fst] in D. destruct s as [w sh lk po sd a t rc rt]. cbn in Hs. subst sd. unfold thread_step in D.
      cbn [app_at lock poisoned st_shaper st_writer thread_at shutdown] in *. destruct t; try discriminate; injection D as <-; cbn.
      * repeat split; lia.
      * repeat split; lia.
      * destruct lk; [destruct po|..]; cbn; repeat split; lia.
      * destruct (shaper_decoy sh) as [[[d|] sh'] rec']; cbn; repeat split; lia.
      * destruct (sync_write w d) as [[x w']| |]; cbn; repeat split; lia.
    + rewrite T, T'. cbn. repeat split; try congruence. lia.
  - destruct c as [n|]; cbn [do_panicky do_move] in M; unfold thread_step in M; destruct (app_at s), (thread_at s); try discriminate; try reflexivity;
      match type of M with context [sync_write ?a ?b] => destruct (sync_write a b) as [[x w']| |] end; discriminate.
Qed.

Lemma panicky_joins : forall n s (f : nat -> option N) i, locked s -> poison_empties s -> shutdown s = true -> app_at s = AppJoin ->
  (left_moves (thread_at s) <= n)%nat ->
  exists j s', (j <= n)%nat /\ play_panicky s (map (fun x => (Thread, f x)) (seq i j) ++ [(App, f (i + j)%nat)]) = Some s' /\
    app_at s' = AppDropped.
Proof.
  induction n as [|n IH]; intros s f i L P Hs A Lf.
  - exists 0%nat. cbn [seq map app play_panicky]. unfold do_panicky. destruct (f (i + 0)%nat); rewrite ?A; cbn [do_move]; unfold app_step; rewrite A;
    destruct (thread_at s); cbn in Lf; try lia; eexists; split; auto; split; reflexivity.
  - pose proof (panicky_left s (f i) Hs P) as Q. destruct (do_panicky s (Thread, f i)) as [s1|] eqn:T.
    + destruct Q as (Q1 & Q2 & Q3). destruct (panicky_kept _ _ _ L P T) as [L1 P1].
      destruct (IH s1 f (S i) L1 P1 Q1) as (j & s' & Lj & Pl & D); try congruence; try lia.
      exists (S j), s'. split; [lia|]. split; [|assumption]. cbn [seq map app play_panicky]. rewrite T.
      replace (i + S j)%nat with (S i + j)%nat by lia. exact Pl.
    + destruct (IH s f i L P Hs A) as (j & s' & Lj & Pl & D); [lia|]. exists j, s'. split; [lia|]. auto.
Qed.

Lemma join_shut s m s' : (app_at s = AppJoin -> shutdown s = true) -> do_move s m = Some s' -> app_at s' = AppJoin -> shutdown s' = true.
Proof.
  intros I D. pose proof (clocked_shutdown [(m, (AtMillis 0, AtMillis 0))] s s' I) as Q. cbn [play_clocked] in Q.
  rewrite (clocked_fine s m (AtMillis 0) (AtMillis 0)), D in Q by discriminate. now apply Q.
Qed.

Lemma panicky_shutdown : forall cs s s', locked s -> poison_empties s -> (app_at s = AppJoin -> shutdown s = true) ->
  play_panicky s cs = Some s' -> app_at s' = AppJoin -> shutdown s' = true.
Proof.
  induction cs as [|c cs IH]; intros s s' L P I H; cbn [play_panicky] in H; [injection H as <-; auto|].
  destruct (do_panicky s c) as [s1|] eqn:M; [|discriminate]. destruct (panicky_kept _ _ _ L P M) as [L1 P1].
  eapply IH; [exact L1|exact P1| |exact H].
  destruct (panicky_move _ _ _ P M) as [D|(s2 & D & _ & _ & _ & Sd & _ & _ & _ & [(_ & _ & _ & A & _)|(_ & _ & _ & A)])].
  - intros A. eapply join_shut; eassumption.
  - congruence.
  - rewrite Sd, A. exact I.
Qed.
End After.

Section Task.
Context {E : Env} {EL : EnvLaws E} {G : Type} {R : Rng G} {RL : RngLaws G R}.

Definition answers_at_end (s s' : @split_task G) : Prop :=
  exists more, answers (sp_task s') = answers (sp_task s) ++ more /\ (more = [] \/ (length more = 1%nat /\ sp_place s' = AtSelect)).

Lemma poll_answers order el (s : @split_task G) : answers_at_end s (split_poll order el s).
Proof.
  assert (Z : forall t : @task G, exists more, answers t = answers t ++ more /\ (more = [] \/ (length more = 1%nat /\ AtSelect = AtSelect))).
  { intros t. exists []. rewrite app_nil_r. auto. }
  assert (BE : forall (t t0 : @task G) w a, answers t = answers t0 -> (length a <= 1)%nat -> answers_at_end (SplitTask t0 AtSelect) (branch_end t w a)).
  { intros t t0 w a Q L. exists a. cbn. rewrite Q. split; [reflexivity|]. destruct a as [|x [|y a]]; cbn in L; auto; lia. }
  assert (BP : forall (t t0 : @task G), answers t = answers t0 -> answers_at_end (SplitTask t0 AtSelect) (branch_panic t)).
  { intros t t0 Q. exists []. cbn. rewrite app_nil_r. auto. }
  assert (NO : forall (t t0 : @task G) pl, answers t = answers t0 -> answers_at_end (SplitTask t0 AtSelect) (SplitTask t pl)).
  { intros t t0 pl Q. exists []. cbn. rewrite app_nil_r. auto. }
  assert (PW : forall (t t0 : @task G) c r, answers t = answers t0 -> answers_at_end (SplitTask t0 AtSelect) (payload_wrote t c r)).
  { intros t t0 c [[f|x] w] Q; cbn [payload_wrote]; [now apply NO|apply BE; [assumption|cbn; lia]]. }
  assert (WP : forall (t t0 : @task G) c, answers t = answers t0 -> answers_at_end (SplitTask t0 AtSelect) (write_payload t c)).
  { intros t t0 c Q. unfold write_payload. destruct (begin_write _ _) as [r| |]; [now apply PW|now apply BP..]. }
  assert (PD : forall (t t0 : @task G) c r, answers t = answers t0 -> answers_at_end (SplitTask t0 AtSelect) (pad_wrote t c r)).
  { intros t t0 c [[f|[u|e]] w] Q; cbn [pad_wrote]; [now apply NO|now apply WP|apply BE; [assumption|cbn; lia]]. }
  assert (DW : forall (t t0 : @task G) r, answers t = answers t0 -> answers_at_end (SplitTask t0 AtSelect) (decoy_wrote t r)).
  { intros t t0 [[f|x] w] Q; cbn [decoy_wrote]; [now apply NO|apply BE; [assumption|cbn; lia]]. }
  destruct s as [t pl]. change (answers_at_end (SplitTask t AtSelect) (split_poll order el (SplitTask t pl))).
  unfold split_poll. cbn [sp_task sp_place]. destruct (running t); [|now apply NO]. destruct pl; [|now apply PD|now apply PW|now apply DW].
  destruct (select _ _ _) as [[|i]| |d]; [..|now apply NO|now apply NO].
  - destruct (queue t) as [|c q]; [now apply NO|]. unfold split_handle. destruct (shaper_pad _ _) as [[[[d|] sh] rc]| |]; [|now apply WP|now apply BP..].
    destruct (begin_write _ _) as [r| |]; [now apply PD|now apply BP..].
  - unfold split_tick. destruct (shaper_decoy _) as [[[d|] sh] rc]; [|apply BE; [reflexivity|cbn; lia]].
    destruct (begin_write _ _) as [r| |]; [now apply DW|now apply BP..].
Qed.

Lemma gone_panicky : forall es (s : @split_task G), running (sp_task s) = false -> let s' := run_panicky s es in
  running (sp_task s') = false /\ sp_place s' = sp_place s /\ tk_writer (sp_task s') = tk_writer (sp_task s) /\
  tk_records (sp_task s') = tk_records (sp_task s) /\ answers (sp_task s') = answers (sp_task s).
Proof.
  induction es as [|[e o] es IH]; intros s H; [auto|]. unfold run_panicky in *. cbn [fold_left]. cbn zeta in *.
  assert (Q : step_panicky s (e, o) = split_step s e).
  { destruct e as [[c| |tf el|]|], o; try reflexivity. cbn [step_panicky]. unfold poll_cut, gets_to_write. now rewrite H. }
  rewrite Q. destruct (stopped_run [e] s H) as (Q1 & Q2 & Q3 & Q4 & Q5). cbn [split_run fold_left] in *.
  destruct (IH _ Q1) as (I1 & I2 & I3 & I4 & I5). repeat split; congruence.
Qed.

(** Either no panic, or there was one in a poll that got to a write. *)
Lemma run_panicky_cases : forall es (s : @split_task G),
  run_panicky s es = split_run s (map fst es) \/
  exists pre tf el n post, es = pre ++ (Ev (Poll tf el), Some n) :: post /\
    let s0 := split_run s (map fst pre) in let s1 := split_run s (map fst pre ++ [Ev (Poll tf el)]) in let s' := run_panicky s es in
    gets_to_write (order_of tf) el s0 = true /\
    running (sp_task s') = false /\ sp_place s' = AtSelect /\
    tk_writer (sp_task s') = cut (tk_writer (sp_task s0)) (tk_writer (sp_task s1)) n /\
    answers (sp_task s') = answers (sp_task s0) /\ tk_records (sp_task s') = tk_records (sp_task s1).
Proof.
  induction es as [|[e o] es IH]; intros s; [now left|].
  assert (C : step_panicky s (e, o) = split_step s e \/ exists tf el n, e = Ev (Poll tf el) /\ o = Some n /\ gets_to_write (order_of tf) el s = true).
  { destruct e as [[c| |tf el|]|], o as [n|]; auto. cbn [step_panicky]. unfold poll_cut.
    destruct (gets_to_write (order_of tf) el s) eqn:Q; [right; eauto 6|left; reflexivity]. }
  destruct C as [Q|(tf & el & n & -> & -> & Q)].
  - destruct (IH (split_step s e)) as [I|(pre & tf & el & n & post & -> & I)].
    + left. unfold run_panicky, split_run in *. cbn [fold_left map fst]. rewrite Q. exact I.
    + right. exists ((e, o) :: pre), tf, el, n, post. split; [reflexivity|].
      unfold run_panicky, split_run in *. cbn [fold_left map fst app] in *. rewrite Q. exact I.
  - right. exists [], tf, el, n, es. split; [reflexivity|]. cbn zeta.
    assert (run_panicky s ((Ev (Poll tf el), Some n) :: es) = run_panicky (poll_cut (order_of tf) el n s) es) as -> by reflexivity.
    unfold poll_cut. rewrite Q. cbn [split_run map fold_left app split_step].
    match goal with |- context [run_panicky ?x es] => destruct (gone_panicky es x eq_refl) as (I1 & I2 & I3 & I4 & I5) end.
    rewrite I1, I2, I3, I4, I5. cbn [sp_task sp_place tk_writer answers tk_records]. auto 10.
Qed.
End Task.

(** ** C116 *)

(** A transport that does not panic, or panics when it is not used, makes no difference. *)
Theorem C116_no_panic : forall (E : Env) (G : Type) (R : Rng G),
  (forall (s : @shared G) ms, play_panicky s (map (fun m => (m, None)) ms) = play s ms) /\
  (forall (s : @split_task G) es, run_panicky s (map (fun e => (e, None)) es) = split_run s es).
Proof.
  intros E G R. split.
  - intros s ms. revert s. induction ms as [|m ms IH]; intros s; [reflexivity|]. cbn [map play_panicky play do_panicky]. destruct (do_move s m); auto.
  - intros s es. revert s. induction es as [|e es IH]; intros s; [reflexivity|]. unfold run_panicky, split_run in *. cbn [map fold_left].
    rewrite IH. f_equal. destruct e as [[c| |tf el|]|]; reflexivity.
Qed.
Print Assumptions C116_no_panic.

(** The blocking writer over a transport that panics anywhere, in the application's writes or in the thread's: what the transport took is a
    prefix of whole blocks, for the calls that have returned and at most one more, in order; everything in these blocks is recorded. *)
Theorem C116_blocking : forall (E : Env) (EL : EnvLaws E) (G : Type) (R : Rng G) (RL : RngLaws G R) p (sh : shaper G) recs k cs s,
  counted k (pw_cipher p) -> (overflow_checks = true -> k + len cs + 1 < 2 ^ 32) ->
  Forall sound_payload (calls (map fst cs)) ->
  play_panicky (shared_new p sh recs) cs = Some s -> lock s = Free ->
  exists bs rs p' tail more rest,
    Forall (block_ok (sh_config sh)) bs /\ serves Sync p bs rs p' /\
    rs = returned s ++ more /\ (length more <= 1)%nat /\
    calls (map fst cs) = map fst rs ++ rest /\
    records s = recs ++ flat_map block_sizes bs /\
    written (pw_writer p') = written (pw_writer (st_writer s)) ++ tail /\
    (poisoned s = false -> p' = st_writer s /\ more = []).
Proof. intros E EL G R RL p sh recs k cs s. apply panicky_wire. Qed.
Print Assumptions C116_blocking.

(** After the first panic, whoever's it was, the transport is not touched and nothing is recorded; no call returns, every call of [write]
    panics; [drop] returns. *)
Theorem C116_blocking_after : forall (E : Env) (G : Type) (R : Rng G) (RL : RngLaws G R) p (sh : shaper G) recs cs s,
  play_panicky (shared_new p sh recs) cs = Some s ->
  (poisoned s = true -> forall cs' s', play_panicky s cs' = Some s' ->
     st_writer s' = st_writer s /\ records s' = records s /\ returned s' = returned s /\
     forall pl o, app_at s' = AppLock pl -> do_panicky s' (App, o) = Some (set_app s' AppPanicked)) /\
  (app_at s = AppJoin -> forall panics : nat -> option N,
     exists n s', (n <= 5)%nat /\ app_at s' = AppDropped /\
       play_panicky s (map (fun i => (Thread, panics i)) (seq 0 n) ++ [(App, panics n)]) = Some s').
Proof.
  intros E G R RL p sh recs cs s H. destruct (new_panicky p sh recs) as [L0 P0].
  destruct (panicky_kept_play _ _ _ L0 P0 H) as [L P]. split.
  - intros Q cs' s' H'. destruct (panicky_silent _ _ _ L P Q H') as (Q' & W & Rc & Rt).
    destruct (panicky_kept_play _ _ _ L P H') as [[L' _] P']. repeat split; try assumption.
    intros pl o A. assert (D : do_move s' App = Some (set_app s' AppPanicked)).
    { cbn [do_move]. unfold app_step. rewrite A, Q'. destruct (P' Q') as [_ T]. rewrite A, T in L'. cbn [app_inside] in L'. now rewrite L'. }
    destruct o; cbn [do_panicky]; [rewrite A|]; exact D.
  - intros A f. destruct (panicky_joins 5 s f 0 L P) as (j & s' & Lj & Pl & D).
    + eapply panicky_shutdown; [exact L0|exact P0| |exact H|exact A]. discriminate.
    + assumption.
    + destruct (thread_at s); cbn; lia.
    + exists j, s'. auto.
Qed.
Print Assumptions C116_blocking_after.

(** The writer task, suspended or not: the same, and the callers it has not answered get [UnexpectedEof]. *)
Theorem C116_task : forall (E : Env) (EL : EnvLaws E) (G : Type) (R : Rng G) (RL : RngLaws G R) p (sh : shaper G) recs k es,
  counted k (pw_cipher p) -> (overflow_checks = true -> k + 2 * len es < 2 ^ 32) ->
  Forall event_sound (events_of (map fst es)) ->
  let s := run_panicky (split_new p sh recs) es in
  let t := sp_task s in
  exists handled rest rs bs p' tail ans,
    accepted (events_of (map fst es)) = handled ++ rest /\
    Forall (block_ok (sh_config sh)) bs /\ serves Tokio p bs rs p' /\
    map fst rs = map cmd_payload handled /\
    tk_records t = recs ++ flat_map block_sizes bs /\
    written (pw_writer p') = written (pw_writer (tk_writer t)) ++ tail /\
    combine (map cmd_id handled) (map snd rs) = answers t ++ ans /\ (length ans <= 1)%nat /\
    (running t = false -> forall id, ~ In id (map fst (answers t)) -> answer_to t id = Some (Err (Io UnexpectedEof Abort))).
Proof.
  intros E EL G R RL p sh recs k es C Hr F. cbn zeta.
  assert (Gone : forall t : @task G, running t = false -> forall id, ~ In id (map fst (answers t)) -> answer_to t id = Some (Err (Io UnexpectedEof Abort))).
  { intros t Rn id Ni. unfold answer_to. rewrite Rn.
    replace (find (fun a => fst a =? id) (answers t)) with (@None (N * result perror unit)); [reflexivity|].
    symmetry. revert Ni. generalize (answers t) as l. clear. induction l as [|[i x] l IH]; intros Ni; [reflexivity|]. cbn [find fst].
    destruct (N.eqb_spec i id) as [->|_]; [exfalso; apply Ni; now left|]. apply IH. intros X. apply Ni. now right. }
  assert (Wl : forall pl, (length (waiting pl) <= 1)%nat) by (intros []; cbn; lia).
  destruct (run_panicky_cases es (split_new p sh recs)) as [Q|(pre & tf & el & n & post & Q & I)].
  - rewrite Q.
    destruct (split_serves p sh recs k (map fst es) C) as (handled & rest & rs & bs & p' & tail & ans & A); [|exact F|].
    { intros Ho. specialize (Hr Ho). unfold len in *. rewrite map_length. lia. }
    cbn zeta in A. destruct A as (A1 & A2 & A3 & A4 & A5 & A6 & A7 & A8 & A9 & A10 & A11).
    exists handled, rest, rs, bs, p', tail, ans.
    repeat match goal with |- _ /\ _ => split end; try assumption; [|now apply Gone].
    rewrite <- (map_length fst ans), A10. apply Wl.
  - cbn zeta in I. destruct I as (I1 & I2 & I3 & I4 & I5 & I6).
    set (s' := run_panicky (split_new p sh recs) es) in *. specialize (Gone (sp_task s') I2). clearbody s'. rewrite I4, I5, I6 in *.
    assert (Eq : events_of (map fst es) = events_of (map fst pre ++ [Ev (Poll tf el)]) ++ events_of (map fst post)).
    { rewrite Q, map_app. cbn [map fst]. unfold events_of. rewrite <- flat_map_app, <- app_assoc. reflexivity. }
    rewrite Eq in F. apply Forall_app in F. destruct F as [F _].
    destruct (accepted_prefix (events_of (map fst pre ++ [Ev (Poll tf el)])) (events_of (map fst post))) as (x & Ax).
    destruct (split_serves p sh recs k (map fst pre ++ [Ev (Poll tf el)]) C) as (handled & rest & rs & bs & p' & tail & ans & A); [|exact F|].
    { intros Ho. specialize (Hr Ho). rewrite Q in Hr. unfold len in *. rewrite app_length, map_length in *. cbn [length] in *. lia. }
    cbn zeta in A. destruct A as (A1 & A2 & A3 & A4 & A5 & A6 & A7 & A8 & A9 & A10 & A11).
    pose proof (poll_answers (order_of tf) el (split_run (split_new p sh recs) (map fst pre))) as (more & Am & Pm).
    assert (S1 : split_run (split_new p sh recs) (map fst pre ++ [Ev (Poll tf el)]) =
      split_poll (order_of tf) el (split_run (split_new p sh recs) (map fst pre))) by (rewrite split_run_app; reflexivity).
    rewrite <- S1 in Am, Pm.
    destruct (cut_prefix (tk_writer (sp_task (split_run (split_new p sh recs) (map fst pre))))
      (tk_writer (sp_task (split_run (split_new p sh recs) (map fst pre ++ [Ev (Poll tf el)])))) n) as (tail' & Wc).
    exists handled, (rest ++ x), rs, bs, p', (tail' ++ tail), (more ++ ans). rewrite Eq, Ax, A1.
    repeat match goal with |- _ /\ _ => split end; try assumption.
    + now rewrite app_assoc.
    + rewrite A8, Wc. now rewrite app_assoc.
    + rewrite A9, Am. now rewrite app_assoc.
    + rewrite app_length. apply (f_equal (@length _)) in A10. rewrite map_length in A10.
      destruct Pm as [->|[Lm Pl]]; cbn [length] in *.
      * rewrite A10. apply Wl.
      * rewrite Pl in A10. cbn in A10. lia.
    + intros _. exact Gone.
Qed.
Print Assumptions C116_task.

(** Wherever the code would use the transport, a panic of it poisons the mutex or ends the task. *)
Theorem C116_panic_ends : forall (E : Env) (G : Type) (R : Rng G),
  (forall (s s1 s2 : @shared G) m n, do_move s m = Some s1 -> st_writer s1 <> st_writer s -> do_panicky s (m, Some n) = Some s2 ->
     poisoned s2 = true /\ returned s2 = returned s /\ (m = Thread -> thread_at s2 = ThPanicked) /\ (m = App -> app_at s2 = AppPanicked)) /\
  (forall (s : @split_task G) e n, tk_writer (sp_task (split_step s e)) <> tk_writer (sp_task s) ->
     let t := sp_task (step_panicky s (e, Some n)) in running t = false /\ answers t = answers (sp_task s)).
Proof.
  intros E G R. split.
  - intros s s1 s2 m n M W H. destruct s as [w sh lk po sd a t rc rt]. destruct m as [pl| | |]; cbn [do_move do_panicky app_at thread_at st_writer] in *.
    + exfalso. apply W. destruct a; inversion M; subst; reflexivity.
    + exfalso. apply W. destruct a; inversion M; subst; reflexivity.
    + unfold app_step in *. cbn [app_at lock poisoned st_shaper st_writer thread_at] in *. destruct a as [|pl|pl|d pl|pl| | |]; try discriminate.
      * exfalso. apply W. destruct lk, po; inversion M; subst; reflexivity.
      * exfalso. apply W. injection M as <-. destruct (shaper_pad sh pl) as [[[[d|] ?] ?]| |]; reflexivity.
      * destruct (sync_write w d) as [[x w']| |]; injection M as <-; [|now destruct W..].
        injection H as <-. cbn. repeat split; auto. discriminate.
      * destruct (sync_write w pl) as [[x w']| |]; injection M as <-; [|now destruct W..].
        injection H as <-. cbn. repeat split; auto. discriminate.
      * exfalso. apply W. destruct t; inversion M; subst; reflexivity.
    + unfold thread_step in *. cbn [app_at lock poisoned st_shaper st_writer thread_at shutdown] in *. destruct t as [| | | |d| |]; try discriminate.
      1-2: exfalso; apply W; injection M as <-; reflexivity.
      * exfalso. apply W. destruct lk, po; inversion M; subst; reflexivity.
      * exfalso. apply W. destruct (shaper_decoy sh) as [[[d|] ?] ?]; inversion M; subst; reflexivity.
      * destruct (sync_write w d) as [[x w']| |]; injection M as <-; [|now destruct W..].
        injection H as <-. cbn. repeat split; auto. discriminate.
  - intros s e n W. cbn zeta. destruct e as [[c| |tf el|]|]; cbn [split_step step_panicky sp_task] in *.
    1, 2, 4, 5: exfalso; apply W; cbn [task_step]; try (destruct (senders (sp_task s) && running (sp_task s))); try (destruct (running (sp_task s))); reflexivity.
    unfold poll_cut. destruct (gets_to_write (order_of tf) el s) eqn:Q; [cbn; auto|]. exfalso. apply W.
    unfold split_poll, gets_to_write in *. destruct (running (sp_task s)); [|reflexivity]. cbn [andb] in Q. destruct (sp_place s); try discriminate.
    destruct (select _ _ _) as [[|i]| |]; try reflexivity.
    + destruct (queue (sp_task s)); [reflexivity|discriminate].
    + unfold split_tick. destruct (shaper_decoy _) as [[[d|] ?] ?]; [discriminate|reflexivity].
Qed.
Print Assumptions C116_panic_ends.

(** [UnexpectedEof] does not mean that the payload has not been sent: if the transport panics in [flush], the peer reads it. *)
Theorem C116_error_means_unsent_refuted :
  ~ forall (E : Env) (EL : EnvLaws E) (G : Type) (R : Rng G) (RL : RngLaws G R) p (sh : shaper G) es id pl qs n r',
      counted 0 (pw_cipher p) -> len es < 2 ^ 30 -> Forall event_sound (events_of (map fst es)) ->
      In (Ev (Send (Command id pl))) (map fst es) -> alive (events_of (map fst es)) ->
      let t := sp_task (run_panicky (split_new p sh []) es) in
      answer_to t id = Some (Err (Io UnexpectedEof Abort)) -> written (pw_writer p) = [] ->
      read_many n (established Sync (pw_cipher p) (session_reader Sync [] [Chunk (written (pw_writer (tk_writer t)))])) = Ret (map Ok qs, r') ->
      ~ In (seen pl) (map seen qs).
Proof.
  intros H.
  set (p := PWriter (outbound (session_new sample_km Initiator)) (Writer [] [] [])).
  set (es := [(Ev (Send (Command 7 (genuine [x01]))), None); (Ev (Poll false false), Some 21)] : list (split_event * option N)).
  destruct (@read_many (toy true) 1 (established Sync (pw_cipher p) (session_reader Sync []
    [Chunk (written (pw_writer (tk_writer (sp_task (@run_panicky (toy true) unit high (split_new p (Shaper (Config Disabled Disabled) tt) []) es)))))]))) as [[xs r']| |] eqn:Q;
    [|vm_compute in Q; discriminate..].
  assert (Xs : exists q, xs = map Ok [q] /\ seen q = seen (genuine [x01])).
  { vm_compute in Q. injection Q as <- _. eexists (Decrypted [x00; x01]). split; reflexivity. }
  destruct Xs as (q & -> & Sq).
  apply (H (toy true) (toy_laws true) unit high high_laws p (Shaper (Config Disabled Disabled) tt) es 7 (genuine [x01]) [q] 1%nat r').
  - apply session_counted.
  - vm_compute. reflexivity.
  - repeat constructor. eexists. reflexivity.
  - now left.
  - intros [X|[X|[]]]; discriminate.
  - vm_compute. reflexivity.
  - reflexivity.
  - exact Q.
  - left. exact Sq.
Qed.
Print Assumptions C116_error_means_unsent_refuted.

(** The transport panics under the decoy thread after 7 bytes of a decoy: the application's next call panics though its own writes went
    well; [drop] returns.  Then the task: the transport panics in the padding of the second command; the first caller has its
    answer, the second gets [UnexpectedEof], 13 bytes of its padding are on the wire. *)
Example C116_example :
  match @play_panicky (toy true) _ draws (shared_new toy_writer (Shaper all_random [7; 99; 3]) [])
          (map (fun m => (m, None)) [CallWrite (genuine [x01]); App; App; App; App; Thread; Thread; Thread; Thread] ++ [(Thread, Some 7)]) with
  | Some s =>
      thread_at s = ThPanicked /\ poisoned s = true /\ returned s = [(genuine [x01], Ok tt)] /\ length (records s) = 3%nat /\
      len (written (pw_writer (st_writer s))) = 56 /\
      match @play_panicky (toy true) _ draws s (map (fun m => (m, Some 4)) [CallWrite (genuine [x02]); App; CallDrop; App]) with
      | Some s' => app_at s' = AppDropped /\ len (written (pw_writer (st_writer s'))) = 56
      | None => False
      end
  | None => False
  end /\
  let s := @run_panicky (toy true) _ draws (split_new toy_writer (Shaper (Config Random Disabled) [7; 8]) [])
             [(Ev (Send (Command 1 (genuine [x01]))), None); (Ev (Send (Command 2 (genuine [x02]))), Some 3);
              (Ev (Poll false false), None); (Ev (Poll false false), Some 13)] in
  let t := sp_task s in
  running t = false /\ answer_to t 1 = Some (Ok tt) /\ answer_to t 2 = Some (Err (Io UnexpectedEof Abort)) /\
  tk_records t = [1; 8; 1; 9] /\ len (written (pw_writer (tk_writer t))) = 62.
Proof. vm_compute. repeat split. Qed.
Print Assumptions C116_example.
