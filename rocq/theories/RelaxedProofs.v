(** * RelaxedProofs: stale loads of the shutdown flag *)
From Coq Require Import List NArith Bool Lia ZifyBool ZifyN.
From Coq.Strings Require Import Byte.
From Verif Require Import Base BaseFacts Env FsChacha Cipher CipherFacts Histories CipherProofs Handshake
  Transport Io Futures SpecIo Sessions TransportProofs SessionProofs EndpointProofs
  Traffic TrafficIo TrafficFutures SpecTraffic TrafficProofs TrafficIoProofs SpecDuplex DuplexProofs Relaxed SpecRelaxed.
Import ListNotations.
Local Open Scope N_scope.

Section Relaxed.
Context {E : Env} {G : Type} {R : Rng G}.

Implicit Types s : @shared G.

(** ** A stale test is a [drop] that comes later *)

Definition waiting s : shared := set_app (set_shutdown s) AppJoin.

(** The state [s] of the relaxed run and [s'] of the other. *)
Definition delayed s s' : Prop :=
  (s = s' /\ shutdown s = false /\ app_at s <> AppJoin /\ app_at s <> AppDropped) \/
  (s = waiting s' /\ shutdown s' = false /\ (app_at s' = AppOut \/ app_at s' = AppPanicked)) \/
  (s = s' /\ shutdown s = true /\ thread_ended (thread_at s) /\ (app_at s = AppJoin \/ app_at s = AppDropped)).

Lemma play_app : forall a s s1 b, play s a = Some s1 -> play s (a ++ b) = play s1 b.
Proof.
  induction a as [|m a IH]; intros s s1 b H; cbn [play app] in *; [now injection H as ->|].
  destruct (do_move s m) as [s2|]; [|discriminate]. now apply IH.
Qed.

Lemma quiet_app s s1 : app_step s = Some s1 -> app_at s <> AppJoin ->
  shutdown s1 = shutdown s /\ app_at s1 <> AppJoin /\ app_at s1 <> AppDropped.
Proof.
  intros H N. destruct s as [w sh lk po sd a t rc rt]. unfold app_step in H.
  cbn [app_at lock poisoned st_shaper st_writer thread_at] in *. destruct a; try discriminate.
  - destruct lk; try discriminate. destruct po; injection H as <-; cbn; repeat split; discriminate.
  - injection H as <-. destruct (shaper_pad sh pl) as [[[[d|] sh'] rec']| |]; cbn; repeat split; discriminate.
  - injection H as <-. destruct (sync_write w d) as [[[[]|e] w']| |]; cbn; repeat split; discriminate.
  - injection H as <-. destruct (sync_write w pl) as [[x w']| |]; cbn; repeat split; discriminate.
  - contradiction.
Qed.

Lemma thread_keeps s s1 : thread_step s = Some s1 -> shutdown s1 = shutdown s /\ app_at s1 = app_at s.
Proof.
  intros H. destruct s as [w sh lk po sd a t rc rt]. unfold thread_step in H.
  cbn [app_at lock poisoned st_shaper st_writer thread_at shutdown] in *. destruct t; try discriminate; injection H as <-.
  - destruct sd; auto.
  - auto.
  - destruct lk; [destruct po|..]; auto.
  - destruct (shaper_decoy sh) as [[[d|] sh'] rec']; auto.
  - destruct (sync_write w d) as [[x w']| |]; auto.
Qed.

(** Away from its test the thread does not look at the flag, nor at the application. *)
Lemma thread_waiting s : thread_at s <> ThCheck ->
  thread_step (waiting s) = match thread_step s with Some s1 => Some (waiting s1) | None => None end.
Proof.
  intros N. destruct s as [w sh lk po sd a t rc rt]. unfold waiting, thread_step.
  cbn [set_app set_shutdown app_at lock poisoned st_shaper st_writer thread_at shutdown records returned] in *.
  destruct t; try reflexivity.
  - contradiction.
  - destruct lk; [destruct po|..]; reflexivity.
  - destruct (shaper_decoy sh) as [[[d|] sh'] rec']; reflexivity.
  - destruct (sync_write w d) as [[x w']| |]; reflexivity.
Qed.

Lemma delayed_move s s' r s1 : delayed s s' -> do_relaxed s r = Some s1 ->
  exists ms s1', play s' ms = Some s1' /\ delayed s1 s1' /\
    calls ms = calls_made [r].
Proof.
  intros D H. destruct D as [(<- & Sd & A1 & A2)|[(-> & Sd & A)|(<- & Sd & T & A)]].
  - (* before the store *)
    destruct r as [m|]; cbn [do_relaxed] in H.
    + destruct m as [pl| | |]; cbn [do_move] in H.
      * destruct (app_at s) eqn:Q; try discriminate. injection H as <-.
        exists [CallWrite pl], (set_app s (AppLock pl)). cbn [play do_move]. rewrite Q. split; [reflexivity|].
        split; [|reflexivity]. left. repeat split; try assumption; discriminate.
      * exists [], s. split; [reflexivity|]. split; [|reflexivity]. right; left.
        destruct (app_at s) eqn:Q; try discriminate; injection H as <-; unfold waiting; auto.
      * exists [App], s1. cbn [play do_move]. rewrite H. split; [reflexivity|]. split; [|reflexivity].
        destruct (quiet_app _ _ H A1) as (Q1 & Q2 & Q3). left. repeat split; congruence.
      * exists [Thread], s1. cbn [play do_move]. rewrite H. split; [reflexivity|]. split; [|reflexivity].
        destruct (thread_keeps _ _ H) as (Q1 & Q2). left. repeat split; congruence.
    + destruct (thread_at s) eqn:Q; try discriminate. injection H as <-.
      exists [Thread], (set_thread s ThSleep). cbn [play do_move]. unfold thread_step. rewrite Q, Sd. split; [reflexivity|].
      split; [|reflexivity]. left. auto.
  - (* stored, not seen yet *)
    assert (play s' [CallDrop] = Some (waiting s')) as Dr.
    { cbn [play do_move]. destruct A as [-> | ->]; reflexivity. }
    destruct r as [m|]; cbn [do_relaxed] in H.
    + destruct m as [pl| | |]; cbn [do_move] in H; try discriminate.
      * assert (s1 = set_app (waiting s') AppDropped /\ thread_ended (thread_at s')) as [-> T].
        { unfold app_step in H. cbn in H. destruct (thread_at s') eqn:T; try discriminate; injection H as <-;
            unfold thread_ended; auto. }
        exists [CallDrop; App], (set_app (waiting s') AppDropped). split; [|split; [|reflexivity]].
        { change [CallDrop; App] with ([CallDrop] ++ [App]). rewrite (play_app _ _ _ [App] Dr). cbn [play do_move]. now rewrite H. }
        right; right. split; [reflexivity|]. split; [reflexivity|]. split; [exact T|now right].
      * destruct (thread_at s') eqn:T.
        { unfold thread_step in H. change (thread_at (waiting s')) with (thread_at s') in H. rewrite T in H.
          injection H as <-. exists [CallDrop; Thread], (set_thread (waiting s') ThDone).
          split; [|split; [|reflexivity]].
          - change [CallDrop; Thread] with ([CallDrop] ++ [Thread]). rewrite (play_app _ _ _ [Thread] Dr). cbn [play do_move]. unfold thread_step.
            change (thread_at (waiting s')) with (thread_at s'). rewrite T. reflexivity.
          - right; right. split; [reflexivity|]. split; [reflexivity|]. split; [now left|now left]. }
        all: rewrite thread_waiting in H by (rewrite T; discriminate);
          destruct (thread_step s') as [s2|] eqn:Q; [|discriminate]; injection H as <-;
          exists [Thread], s2; cbn [play do_move]; rewrite Q; split; [reflexivity|]; split; [|reflexivity];
          destruct (thread_keeps _ _ Q) as (Q1 & Q2); right; left; rewrite Q1, Q2; auto.
    + change (thread_at (waiting s')) with (thread_at s') in H. destruct (thread_at s') eqn:Q; try discriminate.
      injection H as <-. exists [Thread], (set_thread s' ThSleep). cbn [play do_move]. unfold thread_step. rewrite Q, Sd.
      split; [reflexivity|]. split; [|reflexivity]. right; left. auto.
  - (* seen *)
    destruct r as [m|]; cbn [do_relaxed] in H.
    + destruct (joining_move _ _ _ Sd A H) as [(-> & -> & _)|(-> & H')].
      * exists [App], (set_app s AppDropped). cbn [play]. rewrite H. split; [reflexivity|]. split; [|reflexivity].
        right; right. split; [reflexivity|]. split; [assumption|]. split; [assumption|now right].
      * unfold thread_step in H'. destruct T as [T|T]; rewrite T in H'; discriminate.
    + destruct T as [T|T]; rewrite T in H; discriminate.
Qed.

Lemma delayed_play : forall rs s s' s1, delayed s s' -> play_relaxed s rs = Some s1 ->
  exists ms s1', play s' ms = Some s1' /\ delayed s1 s1' /\ calls ms = calls_made rs.
Proof.
  induction rs as [|r rs IH]; intros s s' s1 D H; cbn [play_relaxed] in H.
  - injection H as <-. now exists [], s'.
  - destruct (do_relaxed s r) as [s2|] eqn:M; [|discriminate].
    destruct (delayed_move _ _ _ _ D M) as (ms & s2' & P & D2 & C).
    destruct (IH _ _ _ D2 H) as (ms' & s1' & P' & D1 & C').
    exists (ms ++ ms'), s1'. split; [now rewrite (play_app _ _ _ ms' P)|]. split; [assumption|].
    rewrite calls_app, C, C'. unfold calls_made. cbn [flat_map]. now rewrite app_nil_r.
Qed.

Lemma delayed_new p sh recs : delayed (shared_new p sh recs) (shared_new p sh recs).
Proof. left. repeat split; discriminate. Qed.

Lemma delayed_looks s s' : delayed s s' -> looks_like s s'.
Proof.
  intros [(<- & _)|[(-> & Sd & A)|(<- & _)]]; unfold looks_like; cbn; auto 10.
Qed.

(** ** After the store *)

Lemma waiting_start p sh recs rs s : play_relaxed (shared_new p sh recs) rs = Some s ->
  app_at s = AppJoin \/ app_at s = AppDropped ->
  shutdown s = true /\ (app_at s = AppDropped -> thread_ended (thread_at s)).
Proof.
  intros H A. destruct (delayed_play _ _ _ _ (delayed_new p sh recs) H) as (ms & s' & P & D & _).
  destruct D as [(<- & Sd & A1 & A2)|[(-> & Sd & A')|(<- & Sd & T & A')]].
  - destruct A; contradiction.
  - split; [reflexivity|discriminate].
  - auto.
Qed.

Section Laws.
Context {RL : RngLaws G R}.

Lemma relaxed_decoy_next : forall rs s s', decoy_next s -> play_relaxed s rs = Some s' -> decoy_next s'.
Proof.
  induction rs as [|r rs IH]; intros s s' D H; cbn [play_relaxed] in H; [now injection H as <-|].
  destruct (do_relaxed s r) as [s1|] eqn:M; [|discriminate]. eapply IH; [|eassumption].
  destruct r as [m|]; cbn [do_relaxed] in M; [eapply decoy_next_move; eassumption|].
  destruct (thread_at s); try discriminate. injection M as <-. unfold decoy_next. cbn. discriminate.
Qed.

Theorem stale_stops : forall rs s s',
  shutdown s = true -> decoy_next s -> app_at s = AppJoin \/ app_at s = AppDropped -> play_relaxed s rs = Some s' ->
  (decoy_moves rs + left_moves (thread_at s') <= left_moves (thread_at s) + 5 * stales rs)%nat /\
  exists ds xs, (length ds + left_writes (thread_at s') <= left_writes (thread_at s) + stales rs)%nat /\
    Forall shaper_decoy_payload ds /\ write_many Sync (st_writer s) ds = Ret (xs, st_writer s').
Proof.
  induction rs as [|r rs IH]; intros s s' Hs Dn A H; cbn [play_relaxed] in H.
  - injection H as <-. split; [cbn; lia|]. exists [], []. split; [cbn; lia|]. split; [constructor|reflexivity].
  - destruct (do_relaxed s r) as [s1|] eqn:M; [|discriminate].
    destruct r as [m|]; cbn [do_relaxed] in M.
    + destruct (joining_move _ _ _ Hs A M) as [(-> & -> & T)|(-> & T)].
      * apply IH in H; [|exact Hs|exact Dn|now right]. exact H.
      * pose proof (thread_step_left s Hs Dn) as Q. rewrite T in Q. destruct Q as (Q1 & Q2 & Q3 & Q4 & Q5).
        apply IH in H; [|exact Q1|eapply decoy_next_move; eassumption|now rewrite Q4].
        destruct H as (H1 & ds & xs & H2 & H3 & H4).
        split; [unfold decoy_moves, stales in *; cbn [filter length]; lia|].
        destruct Q5 as [Q5|(Q5 & Q6 & d & x & Q7 & Q8)].
        { rewrite Q5 in H4. exists ds, xs. split; [|auto]. unfold stales in *. cbn [filter]. lia. }
        exists (d :: ds), (x :: xs). split; [unfold stales in *; cbn [filter length]; lia|]. split; [now constructor|].
        cbn [write_many]. change (write_any Sync (st_writer s) d) with (sync_write (st_writer s) d). rewrite Q8. cbn [bind].
        now rewrite H4.
    + destruct (thread_at s) eqn:T; try discriminate. injection M as <-.
      apply IH in H; [|exact Hs|unfold decoy_next; cbn; discriminate|exact A].
      destruct H as (H1 & ds & xs & H2 & H3 & H4). cbn [set_thread thread_at left_moves left_writes st_writer] in *.
      split; [unfold decoy_moves, stales in *; cbn [filter length]; lia|].
      exists ds, xs. split; [unfold stales in *; cbn [filter length]; lia|auto].
Qed.

(** Once the loads see the store, [join] returns. *)
Lemma play_fresh : forall ms s, play_relaxed s (map Fresh ms) = play s ms.
Proof.
  induction ms as [|m ms IH]; intros s; [reflexivity|]. cbn [map play_relaxed do_relaxed play].
  destruct (do_move s m); auto.
Qed.

Lemma new_decoy_next p (sh : shaper G) recs : decoy_next (shared_new p sh recs).
Proof. unfold decoy_next. cbn. discriminate. Qed.

Theorem relaxed_join p sh recs rs s : play_relaxed (shared_new p sh recs) rs = Some s -> app_at s = AppJoin ->
  exists n s', (n <= 5)%nat /\ play_relaxed s (map Fresh (repeat Thread n ++ [App])) = Some s' /\ app_at s' = AppDropped.
Proof.
  intros H A. destruct (waiting_start _ _ _ _ _ H (or_introl A)) as [Sd _].
  destruct (join_returns 5 s) as (i & s' & L & P & D).
  - assumption.
  - eapply relaxed_decoy_next; [|exact H]. apply new_decoy_next.
  - assumption.
  - destruct (thread_at s); cbn; lia.
  - exists i, s'. split; [assumption|]. now rewrite play_fresh.
Qed.
End Laws.

Theorem relaxed_after p sh recs rs s rs' s' : play_relaxed (shared_new p sh recs) rs = Some s -> app_at s = AppDropped ->
  play_relaxed s rs' = Some s' -> s' = s /\ rs' = [].
Proof.
  intros H A H'. destruct (waiting_start _ _ _ _ _ H (or_intror A)) as [_ T]. specialize (T A).
  destruct rs' as [|[m|] rs']; cbn [play_relaxed do_relaxed] in H'.
  - now injection H' as <-.
  - exfalso. destruct m; cbn [do_move] in H'; [rewrite A in H'; discriminate..| |].
    + unfold app_step in H'. rewrite A in H'. discriminate.
    + unfold thread_step in H'. destruct T as [T|T]; rewrite T in H'; discriminate.
  - exfalso. destruct T as [T|T]; rewrite T in H'; discriminate.
Qed.

(** ** Loads that stay stale *)

(** What the thread does before the store it can do after it. *)
Lemma goes_on_stale : forall n s s', shutdown s = false -> play s (repeat Thread n) = Some s' ->
  exists rs, play_relaxed (waiting s) rs = Some (waiting s') /\ shutdown s' = false.
Proof.
  induction n as [|n IH]; intros s s' Sd H; cbn [repeat play do_move] in H.
  - injection H as <-. now exists [].
  - destruct (thread_step s) as [s1|] eqn:T; [|discriminate].
    destruct (thread_keeps _ _ T) as (Q1 & Q2). rewrite Sd in Q1. destruct (IH s1 s' Q1 H) as (rs & P & S).
    destruct (thread_at s) eqn:C.
    { exists (Stale :: rs). split; [|assumption]. cbn [play_relaxed do_relaxed].
      change (thread_at (waiting s)) with (thread_at s). rewrite C.
      unfold thread_step in T. rewrite C, Sd in T. injection T as <-. exact P. }
    all: exists (Fresh Thread :: rs); split; [|assumption]; cbn [play_relaxed do_relaxed do_move];
      rewrite thread_waiting by (rewrite C; discriminate); rewrite T; exact P.
Qed.

(** A generator that always asks for a decoy. *)
Lemma decoy_rounds {EL : EnvLaws E} {RL : RngLaws G R} (Eager : forall g, 85 <= fst (gen_range 0 99 g)) (Ov : overflow_checks = false) :
  forall n s k, resting s -> decoy_strategy (sh_config (st_shaper s)) = Random ->
  counted k (pw_cipher (st_writer s)) ->
  exists s', play s (repeat Thread (5 * n)) = Some s' /\ app_at s' = AppOut /\
    len (output s) + 20 * N.of_nat n <= len (output s').
Proof.
  induction n as [|n IH]; intros s k Rs C Hc.
  - exists s. cbn. destruct Rs as (_ & _ & _ & A & _). repeat split; auto; lia.
  - destruct s as [w [cfg g] lk po sd a t rc rt]. pose proof Rs as (Q1 & Q2 & Q3 & Q4 & Q5 & Q6).
    cbn [lock poisoned shutdown app_at thread_at st_writer st_shaper sh_config] in *. subst.
    specialize (Eager g). destruct (gen_range 0 99 g) as [q g1] eqn:D. cbn [fst] in Eager.
    destruct (zero_decoy g1) as [[d size] g2] eqn:Z.
    assert (shaper_decoy (Shaper cfg g) = (Some d, Shaper cfg g2, [size])) as Sd.
    { unfold shaper_decoy. cbn [sh_config sh_rng]. rewrite C, D. destruct (N.ltb_spec q 85); [lia|]. now rewrite Z. }
    pose proof (shaper_decoy_spec _ _ _ _ Sd) as (_ & Dd & _).
    destruct (sync_write_fine w d k Q6 Hc ltac:(intros Ho; congruence) (decoy_sound d ltac:(tauto)))
      as (pkt & c' & w' & W & En & Qc' & Hc' & Hh' & Wr & Lp).
    set (s1 := Shared w' (Shaper cfg g2) Free false false AppOut ThCheck (rc ++ [size]) rt).
    destruct (IH s1 (k + 1)) as (s2 & P & A & L).
    + unfold resting, s1. repeat split; apply Hh'.
    + exact C.
    + cbn [s1 st_writer]. rewrite Qc'. assumption.
    + exists s2. split; [|split; [assumption|]].
      * replace (5 * S n)%nat with (S (S (S (S (S (5 * n)))))) by lia.
        do 3 (cbn [repeat play do_move thread_step thread_at set_thread set_lock shutdown lock poisoned st_writer st_shaper app_at records returned]).
        cbn [repeat play do_move thread_step thread_at st_shaper]. rewrite Sd.
        cbn [repeat play do_move thread_step thread_at st_writer set_thread set_shaper set_lock]. rewrite W. exact P.
      * unfold output in *. cbn [st_writer s1] in L. rewrite Wr, len_app in L. cbn [st_writer]. lia.
Qed.

End Relaxed.
