(** * TrafficLiveProofs: the blocking shaped writer does not deadlock *)
From Coq Require Import List NArith Bool Lia.
From Coq.Strings Require Import Byte.
From Verif Require Import Base BaseFacts Env FsChacha Cipher Histories CipherProofs Transport Io Sessions SessionProofs
  Traffic TrafficIo TrafficFutures SpecTraffic TrafficProofs TrafficIoProofs.
Import ListNotations.
Local Open Scope N_scope.

Section Live.
Context {E : Env} {EL : EnvLaws E} {G : Type} {R : Rng G} {RL : RngLaws G R}.
Implicit Types s : @shared G.

Lemma locked_play : forall ms s s', locked s -> play s ms = Some s' -> locked s'.
Proof.
  induction ms as [|m ms IH]; intros s s' L H; cbn [play] in H; [now injection H as <-|].
  destruct (do_move s m) as [s1|] eqn:M; [|discriminate]. eapply IH; [|eassumption]. eapply locked_move; eassumption.
Qed.

Lemma locked_new p (sh : shaper G) recs : locked (shared_new p sh recs).
Proof. split; reflexivity. Qed.

(** Somebody can move as long as a call is in progress. *)
Theorem never_stuck p (sh : shaper G) recs ms s :
  play (shared_new p sh recs) ms = Some s ->
  in_flight (app_at s) <> [] \/ app_at s = AppJoin ->
  app_step s <> None \/ (thread_step s <> None /\ ~ thread_ended (thread_at s)).
Proof.
  intros H A. pose proof (locked_play _ _ _ (locked_new p sh recs) H) as [L X].
  unfold app_step, thread_step, thread_ended.
  destruct (app_at s) as [|pl|pl|d pl|pl| | |]; cbn [in_flight app_inside] in *;
    try (destruct A as [A|A]; [now contradiction A|discriminate]); try (left; discriminate).
  - destruct (thread_at s); cbn [thread_inside] in L; rewrite L;
      try (left; destruct (poisoned s); discriminate); right; (split; [discriminate|]); intros [|]; discriminate.
  - destruct (thread_at s); try (left; discriminate); right; (split; [discriminate|]); intros [|]; discriminate.
Qed.

(** The application only ever waits for the decoy thread, which holds the mutex for at most two moves. *)
Lemma thread_lets_go s : lock s = ByDecoy -> locked s ->
  exists n s', (n <= 2)%nat /\ play s (repeat Thread n) = Some s' /\ lock s' = Free /\
    app_at s' = app_at s /\ returned s' = returned s.
Proof.
  intros B [L X]. rewrite B in L. destruct s as [w sh lk po sd a t rc rt].
  cbn [lock app_at thread_at] in *. subst lk.
  destruct (app_inside a); [discriminate|].
  assert (P : forall w (sh : shaper G) rc d, exists s',
    play (Shared w sh ByDecoy po sd a (ThWrite d) rc rt) [Thread] = Some s' /\ lock s' = Free /\
    app_at s' = a /\ returned s' = rt).
  { intros w0 sh0 rc0 d. eexists. cbn [play do_move thread_step thread_at st_writer]. split; [reflexivity|].
    destruct (sync_write w0 d) as [[x w']| |]; auto. }
  destruct t; try discriminate.
  - destruct (shaper_decoy sh) as [[[d|] sh'] rec'] eqn:SD.
    + destruct (P w sh' (rc ++ rec') d) as (s' & Q & F). exists 2%nat, s'. split; [lia|]. split; [|assumption].
      cbn [repeat play do_move thread_step thread_at st_shaper]. rewrite SD. exact Q.
    + exists 1%nat. eexists. split; [lia|]. cbn [repeat play do_move thread_step thread_at st_shaper]. rewrite SD.
      split; [reflexivity|]. auto.
  - destruct (P w sh rc d) as (s' & Q & F). exists 1%nat, s'. split; [lia|]. split; [exact Q|assumption].
Qed.

(** Moves the application has left in a call of [write]. *)
Definition app_left (a : app_pc) : nat :=
  match a with AppLock _ => 4 | AppPad _ => 3 | AppWritePad _ _ => 2 | AppWrite _ => 1 | _ => 0 end.

Lemma app_left_step s s' pl : in_flight (app_at s) = [pl] -> app_step s = Some s' ->
  (app_left (app_at s') < app_left (app_at s))%nat /\
  (in_flight (app_at s') = [pl] /\ returned s' = returned s \/
   app_at s' = AppPanicked \/
   app_at s' = AppOut /\ exists x, returned s' = returned s ++ [(pl, x)]).
Proof.
  intros A H. unfold app_step in H.
  destruct (app_at s) as [|pl'|pl'|d pl'|pl'| | |]; try discriminate; cbn [in_flight] in A; injection A as ->.
  - destruct (lock s), (poisoned s); try discriminate; injection H as <-; cbn; (split; [lia|]); auto.
  - injection H as <-. destruct (shaper_pad (st_shaper s) pl) as [[[[d|] sh'] rec']| |]; cbn; (split; [lia|]); auto.
  - injection H as <-. destruct (sync_write (st_writer s) d) as [[[[]|e] w']| |]; cbn; (split; [lia|]); auto.
    right. right. split; [reflexivity|]. eauto.
  - injection H as <-. destruct (sync_write (st_writer s) pl) as [[x w']| |]; cbn; (split; [lia|]); auto.
    right. right. split; [reflexivity|]. eauto.
Qed.

Lemma thread_keeps_app s s' : thread_step s = Some s' -> app_at s' = app_at s /\ returned s' = returned s.
Proof.
  intros H. unfold thread_step in H. destruct (thread_at s); try discriminate; injection H as <-.
  - auto.
  - auto.
  - destruct (lock s); [destruct (poisoned s)|..]; auto.
  - destruct (shaper_decoy (st_shaper s)) as [[[d'|] sh'] rec']; auto.
  - destruct (sync_write (st_writer s) d) as [[x w']| |]; auto.
Qed.

(** With the mutex in hand, or free, the call goes through. *)
Lemma app_finishes : forall n s pl, (app_left (app_at s) <= n)%nat ->
  in_flight (app_at s) = [pl] -> locked s -> lock s <> ByDecoy ->
  exists m s', (m <= n)%nat /\ play s (repeat App m) = Some s' /\
    (app_at s' = AppPanicked \/ app_at s' = AppOut /\ exists x, returned s' = returned s ++ [(pl, x)]).
Proof.
  induction n as [|n IH]; intros s pl Ln A L B.
  { destruct (app_at s); try discriminate; cbn in Ln; lia. }
  destruct (app_step s) as [s1|] eqn:S1.
  - destruct (app_left_step _ _ _ A S1) as (L1 & C).
    assert (do_move s App = Some s1) as M by exact S1.
    destruct C as [[A1 R1]|C].
    + destruct (IH s1 pl) as (m & s' & Lm & P & D); [lia|assumption|eapply locked_move; eassumption|..].
      { pose proof (locked_move _ _ _ L M) as [L2 _].
        destruct L as [L0 X0]. unfold app_step in S1. destruct (app_at s) eqn:Ea; try discriminate.
        - destruct (lock s); try congruence. destruct (poisoned s); injection S1 as <-; cbn; discriminate.
        - destruct (app_at s1) eqn:E1; try discriminate; cbn in L1; try lia; cbn [app_inside] in L2; rewrite L2; discriminate.
        - destruct (app_at s1) eqn:E1; try discriminate; cbn in L1; try lia; cbn [app_inside] in L2; rewrite L2; discriminate.
        - destruct (app_at s1) eqn:E1; try discriminate; cbn in L1; lia. }
      exists (S m), s'. split; [lia|]. split; [cbn [repeat play]; rewrite M; exact P|].
      rewrite R1 in D. exact D.
    + exists 1%nat, s1. split; [lia|]. split; [|assumption]. cbn [repeat play]. rewrite M. reflexivity.
  - exfalso. destruct L as [L _]. unfold app_step in S1. destruct (app_at s); try discriminate.
    cbn [app_inside] in L. destruct (lock s); [destruct (poisoned s); discriminate| |congruence].
    destruct (thread_inside (thread_at s)); discriminate.
Qed.

Lemma play_app : forall ms1 ms2 s, play s (ms1 ++ ms2) =
  match play s ms1 with Some s' => play s' ms2 | None => None end.
Proof.
  induction ms1 as [|m ms1 IH]; intros ms2 s; cbn [play app]; [reflexivity|].
  destruct (do_move s m); [apply IH|reflexivity].
Qed.

Theorem write_returns p (sh : shaper G) recs ms s pl :
  play (shared_new p sh recs) ms = Some s -> in_flight (app_at s) = [pl] ->
  exists n m s', (n <= 2)%nat /\ (m <= 4)%nat /\ play s (repeat Thread n ++ repeat App m) = Some s' /\
    (app_at s' = AppPanicked \/ app_at s' = AppOut /\ exists x, returned s' = returned s ++ [(pl, x)]).
Proof.
  intros H A. pose proof (locked_play _ _ _ (locked_new p sh recs) H) as L.
  assert (forall s : @shared G, in_flight (app_at s) = [pl] -> (app_left (app_at s) <= 4)%nat) as L4.
  { intros s0 A0. destruct (app_at s0); cbn; lia. }
  destruct (lock s) eqn:B.
  - destruct (app_finishes 4 s pl (L4 _ A) A L) as (m & s' & Lm & P & D); [congruence|].
    exists 0%nat, m, s'. auto.
  - destruct (app_finishes 4 s pl (L4 _ A) A L) as (m & s' & Lm & P & D); [congruence|].
    exists 0%nat, m, s'. auto.
  - destruct (thread_lets_go s B L) as (n & s1 & Ln & P1 & F1 & A1 & R1).
    rewrite <- A1 in A.
    destruct (app_finishes 4 s1 pl (L4 _ A) A (locked_play _ _ _ L P1)) as (m & s' & Lm & P & D); [congruence|].
    exists n, m, s'. rewrite R1 in D. split; [assumption|]. split; [assumption|]. split; [|assumption].
    rewrite play_app, P1. exact P.
Qed.

(** In every schedule the call takes at most four moves of the application. *)
Theorem few_own_moves : forall ms s s' pl,
  in_flight (app_at s) = [pl] -> calls ms = [] -> ~ In CallDrop ms -> play s ms = Some s' ->
  (length (filter (fun m => match m with App => true | _ => false end) ms) + app_left (app_at s') <= app_left (app_at s))%nat.
Proof.
  assert (Z : forall ms s s', in_flight (app_at s) = [] -> app_at s <> AppJoin -> calls ms = [] -> ~ In CallDrop ms ->
            play s ms = Some s' ->
            length (filter (fun m => match m with App => true | _ => false end) ms) = 0%nat /\ app_at s' = app_at s).
  { induction ms as [|m ms IH]; intros s s' A J C D H; cbn [play] in H; [now injection H as <-|].
    destruct (do_move s m) as [s1|] eqn:M; [|discriminate].
    destruct m; cbn [do_move] in M; try discriminate.
    - destruct D. now left.
    - unfold app_step in M. destruct (app_at s); try discriminate; now contradiction J.
    - destruct (thread_keeps_app _ _ M) as [A1 _]. rewrite <- A1 in A, J |- *.
      apply IH; try assumption. intros I. apply D. now right. }
  induction ms as [|m ms IH]; intros s s' pl A C D H; cbn [play] in H; [injection H as <-; cbn; lia|].
  destruct (do_move s m) as [s1|] eqn:M; [|discriminate].
  assert (~ In CallDrop ms) as D1 by (intros I; apply D; now right).
  destruct m; cbn [do_move] in M; try discriminate.
  - destruct D. now left.
  - cbn [filter length]. destruct (app_left_step _ _ _ A M) as (L1 & [[A1 R1]|C1]).
    + specialize (IH s1 s' pl A1 C D1 H). lia.
    + assert (in_flight (app_at s1) = [] /\ app_at s1 <> AppJoin) as [A1 J1].
      { destruct C1 as [-> | [-> _]]; split; (reflexivity || discriminate). }
      destruct (Z ms _ _ A1 J1 C D1 H) as [-> Q]. rewrite Q. lia.
  - cbn [filter]. destruct (thread_keeps_app _ _ M) as [A1 _]. rewrite <- A1 in A |- *. eapply IH; eassumption.
Qed.

(** A scheduler that always lets the decoy thread have the mutex first. *)
Lemma starved n w (sh : shaper G) rc rt pl : decoy_strategy (sh_config sh) = Disabled ->
  let s := Shared w sh Free false false (AppLock pl) ThCheck rc rt in
  play s (repeat Thread (4 * n)) = Some s.
Proof.
  intros D. cbn zeta. induction n as [|n IH]; [reflexivity|].
  replace (4 * S n)%nat with (4 + 4 * n)%nat by lia. rewrite repeat_app, play_app.
  replace (play _ (repeat Thread 4)) with (Some (Shared w sh Free false false (AppLock pl) ThCheck rc rt)); [exact IH|].
  cbn [repeat play do_move thread_step thread_at shutdown lock poisoned set_thread set_lock st_shaper].
  unfold shaper_decoy. cbn. rewrite D. cbn. unfold set_thread, set_lock, set_shaper. cbn. now rewrite app_nil_r.
Qed.

(** ** After a panic *)

Definition poison_empties s : Prop :=
  poisoned s = true -> app_inside (app_at s) = false /\ thread_inside (thread_at s) = false.

Lemma poison_empties_move s m s' : locked s -> poison_empties s -> do_move s m = Some s' -> poison_empties s'.
Proof.
  intros [L X] P H. destruct s as [w sh lk po sd a t rc rt]. unfold poison_empties in *.
  cbn [lock app_at thread_at poisoned] in *.
  destruct m as [pl| | |]; cbn [do_move app_at] in H.
  - destruct a; inversion H; subst; exact P.
  - destruct a; inversion H; subst; exact P.
  - unfold app_step in H. cbn [app_at lock poisoned st_shaper st_writer thread_at] in H.
    destruct a; try discriminate; cbn [app_inside andb] in *.
    + destruct lk; try discriminate. destruct po; injection H as <-; cbn; [exact P|discriminate].
    + injection H as <-. destruct po; [destruct (P eq_refl); discriminate|].
      destruct (shaper_pad sh pl) as [[[[d|] sh'] rec']| |]; cbn; auto; discriminate.
    + injection H as <-. destruct po; [destruct (P eq_refl); discriminate|].
      destruct (sync_write w d) as [[[[]|e] w']| |]; cbn; auto; discriminate.
    + injection H as <-. destruct po; [destruct (P eq_refl); discriminate|].
      destruct (sync_write w pl) as [[x w']| |]; cbn; auto; discriminate.
    + destruct t; inversion H; subst; exact P.
  - unfold thread_step in H. cbn [app_at lock poisoned st_shaper st_writer thread_at shutdown] in H.
    destruct t; try discriminate; injection H as <-; cbn [thread_inside] in *.
    + destruct sd; exact P.
    + exact P.
    + destruct lk; [destruct po|..]; cbn; auto. discriminate.
    + destruct po; [destruct (P eq_refl); discriminate|].
      destruct (shaper_decoy sh) as [[[d'|] sh'] rec']; cbn; discriminate.
    + destruct po; [destruct (P eq_refl); discriminate|].
      destruct (sync_write w d) as [[x w']| |]; cbn; try discriminate; intros _; rewrite andb_true_r in X; auto.
Qed.

Lemma poison_empties_play : forall ms s s', locked s -> poison_empties s -> play s ms = Some s' -> poison_empties s'.
Proof.
  induction ms as [|m ms IH]; intros s s' L P H; cbn [play] in H; [now injection H as <-|].
  destruct (do_move s m) as [s1|] eqn:M; [|discriminate].
  eapply IH; [eapply locked_move; eassumption|eapply poison_empties_move; eassumption|eassumption].
Qed.

(** Once poisoned nothing is written and no call returns a result. *)
Lemma poisoned_silent s m s' : poisoned s = true -> poison_empties s -> do_move s m = Some s' ->
  poisoned s' = true /\ st_writer s' = st_writer s /\ st_shaper s' = st_shaper s /\
  records s' = records s /\ returned s' = returned s.
Proof.
  intros Q P H. destruct s as [w sh lk po sd a t rc rt]. unfold poison_empties in *.
  cbn [lock app_at thread_at poisoned] in *. subst po. destruct (P eq_refl) as [A T].
  destruct m as [pl| | |]; cbn [do_move app_at] in H.
  - destruct a; inversion H; subst; auto.
  - destruct a; inversion H; subst; auto.
  - unfold app_step in H. cbn [app_at lock poisoned st_shaper st_writer thread_at] in H.
    destruct a; try discriminate.
    + destruct lk; try discriminate. injection H as <-; auto.
    + destruct t; inversion H; subst; auto.
  - unfold thread_step in H. cbn [app_at lock poisoned st_shaper st_writer thread_at shutdown] in H.
    destruct t; try discriminate; injection H as <-; auto.
    destruct lk; auto.
Qed.

Theorem after_panic p (sh : shaper G) recs ms s ms' s' :
  play (shared_new p sh recs) ms = Some s -> poisoned s = true -> play s ms' = Some s' ->
  st_writer s' = st_writer s /\ records s' = records s /\ returned s' = returned s.
Proof.
  intros H Q H'. pose proof (locked_play _ _ _ (locked_new p sh recs) H) as L.
  assert (poison_empties s) as P.
  { eapply poison_empties_play; [apply (locked_new p sh recs)| |eassumption]. unfold poison_empties. cbn. discriminate. }
  clear H. revert s L P Q H'. induction ms' as [|m ms' IH]; intros s L P Q H; cbn [play] in H; [injection H as <-; auto|].
  destruct (do_move s m) as [s1|] eqn:M; [|discriminate].
  destruct (poisoned_silent _ _ _ Q P M) as (Q1 & W1 & _ & R1 & T1).
  destruct (IH s1) as (W2 & R2 & T2); try assumption.
  - eapply locked_move; eassumption.
  - eapply poison_empties_move; eassumption.
  - repeat split; congruence.
Qed.

End Live.
