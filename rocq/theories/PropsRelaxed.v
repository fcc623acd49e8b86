(** * PropsRelaxed: the shutdown flag is a Relaxed atomic (C74) *)
From Coq Require Import List NArith Bool Lia.
From Coq.Strings Require Import Byte.
From Verif Require Import Base BaseFacts Env Toy FsChacha Cipher CipherProofs Handshake Transport Io Futures SpecIo Sessions
  SessionProofs Traffic TrafficIo SpecTraffic SpecDuplex TrafficIoProofs DuplexProofs Relaxed SpecRelaxed RelaxedProofs
  PropsHandshake PropsTraffic PropsDuplex.
Import ListNotations.
Local Open Scope N_scope.

(** ** C74 *)
(** A run with stale loads looks like a run without, with the same calls of [write], in which [drop] is called later. *)
Theorem C74_as_if_later : forall (E : Env) (G : Type) (R : Rng G) p sh recs rs s,
  play_relaxed (shared_new p sh recs) rs = Some s ->
  exists ms s', play (shared_new p sh recs) ms = Some s' /\ calls ms = calls_made rs /\ looks_like s s'.
Proof.
  intros E G R p sh recs rs s H. destruct (delayed_play _ _ _ _ (delayed_new p sh recs) H) as (ms & s' & P & D & C).
  exists ms, s'. split; [assumption|]. split; [assumption|]. now apply delayed_looks.
Qed.
Print Assumptions C74_as_if_later.

(** After the store: at most one decoy, and five moves, for the loop in progress and for every stale load. *)
Theorem C74_stale_loads : forall (E : Env) (G : Type) (R : Rng G) (RL : RngLaws G R) p sh recs rs s rs' s',
  play_relaxed (shared_new p sh recs) rs = Some s -> app_at s = AppJoin -> play_relaxed s rs' = Some s' ->
  (decoy_moves rs' <= 5 * S (stales rs'))%nat /\
  exists ds xs, (length ds <= S (stales rs'))%nat /\ Forall shaper_decoy_payload ds /\
    write_many Sync (st_writer s) ds = Ret (xs, st_writer s').
Proof.
  intros E G R RL p sh recs rs s rs' s' H A H'.
  destruct (waiting_start _ _ _ _ _ H (or_introl A)) as [Sd _].
  destruct (stale_stops rs' s s' Sd (relaxed_decoy_next _ _ _ (new_decoy_next _ _ _) H) (or_introl A) H') as (L & ds & xs & Ld & F & W).
  assert (left_moves (thread_at s) <= 5 /\ left_writes (thread_at s) <= 1)%nat as [Q1 Q2] by (destruct (thread_at s); cbn; lia).
  split; [lia|]. exists ds, xs. split; [lia|auto].
Qed.
Print Assumptions C74_stale_loads.

(** However many loads were stale: once they see the store, [drop] returns; and then nothing happens any more. *)
Theorem C74_drop_returns : forall (E : Env) (G : Type) (R : Rng G) (RL : RngLaws G R) p sh recs rs s,
  play_relaxed (shared_new p sh recs) rs = Some s ->
  (app_at s = AppJoin ->
   exists n s', (n <= 5)%nat /\ play_relaxed s (map Fresh (repeat Thread n ++ [App])) = Some s' /\ app_at s' = AppDropped) /\
  (app_at s = AppDropped -> forall rs' s', play_relaxed s rs' = Some s' -> s' = s /\ rs' = []).
Proof.
  intros E G R RL p sh recs rs s H. split.
  - intros A. eapply relaxed_join; eassumption.
  - intros A rs' s' H'. eapply relaxed_after; eassumption.
Qed.
Print Assumptions C74_drop_returns.

(** No number of bytes bounds what is still sent after the flag is set. *)
Theorem C74_bounded_after_store_refuted :
  ~ exists bound, forall (E : Env) (EL : EnvLaws E) (G : Type) (R : Rng G) (RL : RngLaws G R) p sh recs rs s rs' s',
      play_relaxed (shared_new p sh recs) rs = Some s -> app_at s = AppJoin -> play_relaxed s rs' = Some s' ->
      len (written (pw_writer (st_writer s'))) <= len (written (pw_writer (st_writer s))) + bound.
Proof.
  intros (bound & H).
  set (w := PWriter (outbound (session_new sample_km Initiator)) (Writer [] [] [])).
  set (s0 := shared_new w (Shaper (Config Disabled Random) tt) []).
  destruct (decoy_rounds (E := toy false) (R := high) (EL := toy_laws false) (RL := high_laws) ltac:(intros []; cbn; lia) eq_refl
              (S (N.to_nat bound)) s0 0) as (s' & P & A & L).
  - repeat split; constructor.
  - reflexivity.
  - apply session_counted.
  - destruct (goes_on_stale (E := toy false) (R := high) _ s0 s' eq_refl P) as (rs & Q & _).
    specialize (H (toy false) (toy_laws false) unit high high_laws w (Shaper (Config Disabled Random) tt) [] [Fresh CallDrop]
      (waiting s0) rs (waiting s') eq_refl eq_refl Q).
    unfold output in L. cbn [waiting set_app set_shutdown st_writer] in H. lia.
Qed.
Print Assumptions C74_bounded_after_store_refuted.

(** The flag is set before the first test and one load is stale: one decoy more; the run looks like one in which [drop]
    comes after the decoy. *)
Example C74_example :
  let s0 := shared_new toy_writer (Shaper all_random [99; 3]) [] in
  match @play_relaxed (toy true) _ draws s0 (map Fresh [CallDrop] ++ [Stale] ++ map Fresh [Thread; Thread; Thread; Thread]),
        @play (toy true) _ draws s0 [Thread; Thread; Thread; Thread; Thread] with
  | Some s, Some s' =>
      app_at s = AppJoin /\ app_at s' = AppOut /\ st_writer s = st_writer s' /\ records s = records s' /\
      len (written (pw_writer (st_writer s))) = 24 /\
      @play_relaxed (toy true) _ draws s (map Fresh [Thread; App]) = @play (toy true) _ draws s' [CallDrop; Thread; App] /\
      match @play (toy true) _ draws s0 [CallDrop; Thread; App] with
      | Some s'' => app_at s'' = AppDropped /\ len (written (pw_writer (st_writer s''))) = 0
      | None => False
      end
  | _, _ => False
  end.
Proof. vm_compute. repeat split. Qed.
