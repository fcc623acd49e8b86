(** * PropsClocked: a clock before 1970 (C75) *)
From Coq Require Import List NArith PeanoNat Bool Lia.
From Coq.Strings Require Import Byte.
From Verif Require Import Base BaseFacts Env Toy FsChacha Cipher CipherProofs Handshake Transport Io Futures SpecIo Sessions
  SessionProofs Traffic TrafficIo TrafficFutures SpecTraffic TrafficIoProofs TrafficLiveProofs Clocked ClockedProofs
  PropsHandshake PropsIo PropsTraffic PropsDuplex.
Import ListNotations.
Local Open Scope N_scope.

(** ** The clock at the start *)

Section Start.
Context {G : Type} {R : Rng G}.
Definition fine_between (t : nat -> clock) (i n : nat) : Prop := forall j, (i <= j < i + n)%nat -> t j <> BeforeEpoch.

Lemma decoys_at_spec t : forall n g i, let '(ds, g') := random_decoys n g in
  match decoys_at n g t i with
  | (Returned x, recs) => x = (ds, g') /\ recs = map (fun d => len d) ds /\ fine_between t i (length ds)
  | (Unwound, recs) => exists j, t j = BeforeEpoch /\ (i <= j < i + length ds)%nat /\ recs = map (fun d => len d) (firstn (S (j - i)) ds) /\ fine_between t i (j - i)
  end.
Proof.
  induction n as [|n IH]; intros g i; cbn [random_decoys decoys_at].
  - split; [reflexivity|]. split; [reflexivity|]. intros j H. cbn in H. lia.
  - destruct (random_vec 1 MAX_DECOY_SIZE_BYTES g) as [contents g1]. specialize (IH g1 (S i)).
    destruct (random_decoys n g1) as [ds g']. destruct (t i) as [|ms] eqn:T.
    + cbn [now_ms]. exists i. split; [exact T|]. cbn [length]. split; [lia|]. rewrite Nat.sub_diag. split; [reflexivity|]. intros j H. lia.
    + cbn [now_ms]. destruct (decoys_at n g1 t (S i)) as [[[rest g2]|] recs].
      * destruct IH as (Q & -> & F). injection Q as -> ->. split; [reflexivity|]. split; [reflexivity|].
        intros j H. cbn [length] in H. destruct (Nat.eq_dec j i) as [->|]; [rewrite T; discriminate|apply F; lia].
      * destruct IH as (j & B & L & -> & F). exists j. split; [exact B|]. cbn [length]. split; [lia|]. split.
        -- replace (S (j - i)) with (S (S (j - S i))) by lia. reflexivity.
        -- intros k H. destruct (Nat.eq_dec k i) as [->|]; [rewrite T; discriminate|apply F; lia].
Qed.

Lemma handshake_at_spec sh t i : let '(garbage, decoys, sh', recs) := shaper_handshake sh in
  match handshake_at sh t i with
  | (Returned x, recs') => x = (garbage, decoys, sh') /\ recs' = recs /\ fine_between t i (length recs)
  | (Unwound, recs') => exists j, t j = BeforeEpoch /\ (i <= j < i + length recs)%nat /\ recs' = firstn (S (j - i)) recs /\ fine_between t i (j - i)
  end.
Proof.
  unfold shaper_handshake, handshake_at. destruct sh as [[pa de] g]. cbn [sh_config sh_rng padding_strategy decoy_strategy].
  assert (NIL : fine_between t i 0) by (intros j H; lia).
  destruct pa.
  - destruct de; [auto|]. destruct (gen_range 0 3 g) as [n g1]. cbn [length Nat.add app].
    pose proof (decoys_at_spec t (N.to_nat n) g1 i) as D. destruct (random_decoys (N.to_nat n) g1) as [ds g'].
    destruct (decoys_at (N.to_nat n) g1 t i) as [[[x y]|] recs].
    + destruct D as (Q & -> & F). injection Q as -> ->. rewrite map_length. auto.
    + destruct D as (j & B & L & -> & F). exists j. rewrite map_length, firstn_map. auto.
  - destruct (random_vec 0 MAX_NUM_GARBAGE_BYTES g) as [garbage g0]. destruct (t i) as [|ms] eqn:T; cbn [now_ms].
    + assert (X : exists j, t j = BeforeEpoch /\ (i <= j < i + 1)%nat /\ [len garbage] = firstn (S (j - i)) [len garbage] /\ fine_between t i (j - i)).
      { exists i. split; [exact T|]. split; [lia|]. rewrite Nat.sub_diag. auto. }
      destruct de; [exact X|]. destruct (gen_range 0 3 g0) as [n g1]. destruct (random_decoys (N.to_nat n) g1) as [ds g'].
      destruct X as (j & B & L & Q & F). exists j. split; [exact B|]. split; [cbn [length app]; lia|]. split; [|exact F].
      replace (j - i)%nat with 0%nat by lia. reflexivity.
    + destruct de.
      * split; [reflexivity|]. split; [reflexivity|]. intros j H. cbn [length app] in H. replace j with i by lia. rewrite T. discriminate.
      * destruct (gen_range 0 3 g0) as [n g1]. cbn [length Nat.add].
        pose proof (decoys_at_spec t (N.to_nat n) g1 (S i)) as D. destruct (random_decoys (N.to_nat n) g1) as [ds g'].
        destruct (decoys_at (N.to_nat n) g1 t (S i)) as [[[x y]|] recs].
        -- destruct D as (Q & -> & F). injection Q as -> ->. split; [reflexivity|]. split; [reflexivity|].
           intros j H. cbn [app length] in H. rewrite map_length in H. destruct (Nat.eq_dec j i) as [->|]; [rewrite T; discriminate|apply F; unfold bytes in *; lia].
        -- destruct D as (j & B & L & -> & F). exists j. split; [exact B|]. cbn [app length]. rewrite map_length. split; [unfold bytes in *; lia|]. split.
           ++ replace (S (j - i)) with (S (S (j - S i))) by lia. cbn [app]. now rewrite firstn_cons, firstn_map.
           ++ intros k H. destruct (Nat.eq_dec k i) as [->|]; [rewrite T; discriminate|apply F; lia].
Qed.
End Start.

(** ** C75 *)
(** While the clock is after 1970 it makes no difference. *)
Theorem C75_fine_clock : forall (E : Env) (G : Type) (R : Rng G) (RL : RngLaws G R),
  (forall (s : @shared G) cs, Forall (fun c => fst (snd c) <> BeforeEpoch /\ snd (snd c) <> BeforeEpoch) cs ->
     play_clocked s cs = play s (map fst cs)) /\
  (forall (t : @task G) es, Forall (fun e => fst (snd e) <> BeforeEpoch /\ snd (snd e) <> BeforeEpoch) es ->
     task_run_at t es = task_run t (map fst es)).
Proof.
  intros E G R RL. split.
  - intros s cs F. now apply play_fine.
  - intros t es F. now apply task_run_fine.
Qed.
Print Assumptions C75_fine_clock.

(** The blocking writer, whatever the clock says and whenever: the wire carries whole blocks, for the first calls in order;
    of what is recorded at most two packets were never written. *)
Theorem C75_blocking : forall (E : Env) (EL : EnvLaws E) (G : Type) (R : Rng G) (RL : RngLaws G R) p (sh : shaper G) recs k cs s,
  counted k (pw_cipher p) -> (overflow_checks = true -> k + len cs < 2 ^ 32) ->
  Forall sound_payload (calls (map fst cs)) ->
  play_clocked (shared_new p sh recs) cs = Some s -> lock s = Free ->
  exists bs unsent rest,
    Forall (block_ok (sh_config sh)) bs /\ serves Sync p bs (returned s) (st_writer s) /\
    calls (map fst cs) = map fst (returned s) ++ rest /\
    records s = recs ++ flat_map block_sizes bs ++ unsent /\ (length unsent <= 2)%nat /\
    (poisoned s = false -> unsent = []).
Proof. intros E EL G R RL p sh recs k cs s. apply clocked_wire. Qed.
Print Assumptions C75_blocking.

(** After the first panic nothing is written or recorded, no call returns, every call of [write] panics; [drop] returns. *)
Theorem C75_blocking_after : forall (E : Env) (G : Type) (R : Rng G) (RL : RngLaws G R) p (sh : shaper G) recs cs s,
  play_clocked (shared_new p sh recs) cs = Some s ->
  (poisoned s = true -> forall cs' s', play_clocked s cs' = Some s' ->
     st_writer s' = st_writer s /\ records s' = records s /\ returned s' = returned s /\
     forall pl ts, app_at s' = AppLock pl -> do_clocked s' (App, ts) = Some (set_app s' AppPanicked)) /\
  (app_at s = AppJoin -> forall readings : nat -> clock * clock,
     exists n s', (n <= 5)%nat /\ app_at s' = AppDropped /\
       play_clocked s (map (fun i => (Thread, readings i)) (seq 0 n) ++ [(App, readings n)]) = Some s').
Proof.
  intros E G R RL p sh recs cs s H. destruct (new_kept p sh recs) as [L0 P0].
  assert (forall cs s s', locked s -> poison_empties s -> play_clocked s cs = Some s' -> locked s' /\ poison_empties s') as Kept.
  { clear -RL. induction cs as [|c cs IH]; intros s s' L P H; cbn [play_clocked] in H; [injection H as <-; auto|].
    destruct (do_clocked s c) as [s1|] eqn:M; [|discriminate]. destruct (clocked_kept _ _ _ L P M). eapply IH; eassumption. }
  destruct (Kept _ _ _ L0 P0 H) as [L P]. split.
  - intros Q cs' s' H'. destruct (clocked_silent _ _ _ L P Q H') as (_ & Q' & W & Rc & Rt).
    destruct (Kept _ _ _ L P H') as [[L' _] P']. repeat split; try assumption.
    intros pl [t1 t2] A. unfold do_clocked. rewrite A. cbn [do_move]. unfold app_step. rewrite A, Q'.
    destruct (P' Q') as [_ T]. rewrite A, T in L'. cbn [app_inside] in L'. now rewrite L'.
  - intros A f. destruct (clocked_joins 5 s f 0) as (j & s' & Lj & Pl & D).
    + eapply clocked_shutdown; [|exact H|exact A]. discriminate.
    + assumption.
    + destruct (thread_at s); cbn; lia.
    + exists j, s'. auto.
Qed.
Print Assumptions C75_blocking_after.

(** The writer task, whatever the clock says and whenever; when it is gone, every caller it has not answered is told so. *)
Theorem C75_task : forall (E : Env) (EL : EnvLaws E) (G : Type) (R : Rng G) (RL : RngLaws G R) p (sh : shaper G) recs k es,
  counted k (pw_cipher p) -> (overflow_checks = true -> k + 2 * len es < 2 ^ 32) ->
  Forall event_sound (map fst es) ->
  let t := task_run_at (task_new p sh recs) es in
  exists handled rest rs bs unsent,
    accepted (map fst es) = handled ++ rest /\
    Forall (block_ok (sh_config sh)) bs /\ serves Tokio p bs rs (tk_writer t) /\
    map fst rs = map cmd_payload handled /\ answers t = combine (map cmd_id handled) (map snd rs) /\
    tk_records t = recs ++ flat_map block_sizes bs ++ unsent /\ (length unsent <= 2)%nat /\ (running t = true -> unsent = []) /\
    (running t = false -> forall id, ~ In id (map cmd_id handled) -> answer_to t id = Some (Err (Io UnexpectedEof Abort))).
Proof. intros E EL G R RL p sh recs k es. apply task_wire. Qed.
Print Assumptions C75_task.

(** A read that panics has taken its packet from the stream, and counted it. *)
Theorem C75_read : forall (E : Env),
  (forall r p r' recs, shaped_read r = Ret (Ok p, r', recs) ->
     shaped_read_at r BeforeEpoch = Ret (Unwound, r', recs) /\ forall ms, shaped_read_at r (AtMillis ms) = Ret (Returned (Ok p), r', recs)) /\
  (forall r p r' recs, tokio_shaped_read r = Ret (Ok p, r', recs) ->
     tokio_shaped_read_at r BeforeEpoch = Ret (Unwound, r', recs) /\
     forall ms, tokio_shaped_read_at r (AtMillis ms) = Ret (Returned (Ok p), r', recs)).
Proof.
  intros E. split; intros r p r' recs H.
  - unfold shaped_read_at, shaped_read in *. apply bind_ret_inv in H. destruct H as ([[x r1] a] & Q & H).
    destruct x as [q|e]; [|discriminate]. apply bind_ret_inv in H. destruct H as (ct & C & H). injection H as <- <- <-.
    split; [|intros ms]; rewrite Q; cbn [bind]; rewrite C; reflexivity.
  - unfold tokio_shaped_read_at, tokio_shaped_read in *. apply bind_ret_inv in H. destruct H as ([x r1] & Q & H).
    destruct x as [q|e]; [|discriminate]. apply bind_ret_inv in H. destruct H as (ct & C & H). injection H as <- <- <-.
    split; [|intros ms]; rewrite Q; cbn [bind]; rewrite C; reflexivity.
Qed.
Print Assumptions C75_read.

(** The counters count every recording, also one that panics; only the time of it is missing. *)
Theorem C75_counts : forall t0 s0 threads l,
  stats_new t0 = Ret s0 -> merges (map (flat_map record_done) threads) l ->
  let s := fold_left stat_step l s0 in
  bytes_read s = sum (reads_of (concat threads)) mod 2 ^ 64 /\
  bytes_written s = sum (writes_of (concat threads)) mod 2 ^ 64 /\
  messages_read s = N.of_nat (length (reads_of (concat threads))) mod 2 ^ 64 /\
  messages_written s = N.of_nat (length (writes_of (concat threads))) mod 2 ^ 64 /\
  (In (last_activity_ms s) (times_of (concat threads)) \/
   (times_of (concat threads) = [] /\ last_activity_ms s = last_activity_ms s0)).
Proof. exact clocked_sums. Qed.
Print Assumptions C75_counts.

Definition ok_clock : clock * clock := (AtMillis 5, AtMillis 6).
Definition C75_wire := Eval vm_compute in
  match @write_many (toy true) Sync toy_writer [genuine [x01]; genuine [x02; x03]] with
  | Ret (_, w) => written (pw_writer w)
  | _ => []
  end.

(** Reading again after a read that panicked does not give the packet. *)
Theorem C75_read_again_refuted :
  ~ forall (E : Env) r p r' recs r1, shaped_read r = Ret (Ok p, r', recs) -> shaped_read_at r BeforeEpoch = Ret (Unwound, r1, recs) ->
      exists r2 recs2, shaped_read r1 = Ret (Ok p, r2, recs2).
Proof.
  intros H. set (r := SyncReader toy_in (ChainReader [] false [Chunk C75_wire])).
  destruct (@shaped_read (toy true) r) as [[[[p|e] r'] recs]| |] eqn:Q; try (vm_compute in Q; discriminate).
  destruct (proj1 (C75_read (toy true)) _ _ _ _ Q) as [U _].
  destruct (H (toy true) _ _ _ _ _ Q U) as (r2 & recs2 & Q2).
  vm_compute in Q. injection Q as <- <- <-. vm_compute in Q2. discriminate.
Qed.
Print Assumptions C75_read_again_refuted.

(** What is recorded need not have been written. *)
Theorem C75_recorded_is_written_refuted :
  ~ forall (E : Env) (EL : EnvLaws E) (G : Type) (R : Rng G) (RL : RngLaws G R) p (sh : shaper G) cs s,
      counted 0 (pw_cipher p) -> len cs < 2 ^ 32 -> Forall sound_payload (calls (map fst cs)) ->
      play_clocked (shared_new p sh []) cs = Some s -> lock s = Free ->
      records s <> [] -> written (pw_writer (st_writer s)) <> written (pw_writer p).
Proof.
  intros H.
  set (w := PWriter (outbound (session_new sample_km Initiator)) (Writer [] [] [])).
  set (cs := [(CallWrite (genuine [x01]), ok_clock); (App, ok_clock); (App, (BeforeEpoch, BeforeEpoch))]).
  destruct (@play_clocked (toy true) unit high (shared_new w (Shaper (Config Disabled Disabled) tt) []) cs) as [s|] eqn:P;
    [|vm_compute in P; discriminate].
  assert (st_writer s = w /\ records s = [1] /\ lock s = Free) as (Q1 & Q2 & Q3).
  { vm_compute in P. injection P as <-. repeat split. }
  apply (H (toy true) (toy_laws true) unit high high_laws w (Shaper (Config Disabled Disabled) tt) cs s).
  - apply session_counted.
  - vm_compute. reflexivity.
  - repeat constructor. eexists. reflexivity.
  - exact P.
  - exact Q3.
  - rewrite Q2. discriminate.
  - now rewrite Q1.
Qed.
Print Assumptions C75_recorded_is_written_refuted.

(** The clock goes back before 1970 while a decoy is recorded: the thread dies with the mutex, the next call panics,
    [drop] returns.  Then the task: its caller is told that it is gone. *)
Example C75_example :
  let early := (BeforeEpoch, BeforeEpoch) in
  match @play_clocked (toy true) _ draws (shared_new toy_writer (Shaper all_random [7; 99; 3]) [])
          (map (fun m => (m, ok_clock)) [CallWrite (genuine [x01]); App; App; App; App; Thread; Thread; Thread] ++ [(Thread, early)]) with
  | Some s =>
      thread_at s = ThPanicked /\ poisoned s = true /\ returned s = [(genuine [x01], Ok tt)] /\ length (records s) = 3%nat /\
      len (written (pw_writer (st_writer s))) = 49 /\
      match @play_clocked (toy true) _ draws s (map (fun m => (m, ok_clock)) [CallWrite (genuine [x02]); App; CallDrop; App]) with
      | Some s' => app_at s' = AppDropped /\ len (written (pw_writer (st_writer s'))) = 49
      | None => False
      end
  | None => False
  end /\
  let t := @task_run_at (toy true) _ draws (task_new toy_writer (Shaper all_random [7; 8]) [])
             [(Send (Command 1 (genuine [x01])), ok_clock); (Send (Command 2 (genuine [x02])), ok_clock);
              (Poll false false, ok_clock); (Poll false false, (AtMillis 9, BeforeEpoch))] in
  running t = false /\ answer_to t 1 = Some (Ok tt) /\ answer_to t 2 = Some (Err (Io UnexpectedEof Abort)) /\
  tk_records t = [1; 8; 1; 9] /\ len (written (pw_writer (tk_writer t))) = 49.
Proof. vm_compute. repeat split. Qed.

(** Making a shaped session reads the clock once, and once more for each of the at most four recordings of the shaper, all before
    a byte is read or written.  If one of these readings is before 1970 [new] panics, and its reader and writer are
    unused; otherwise it is what it is without the clock, whatever the clock says later. *)
Theorem C75_new : forall (E : Env) (G : Type) (R : Rng G) (RL : RngLaws G R) magic r rnd c (g : G) t s w,
  let '(garbage, decoys, sh, recs) := shaper_handshake (Shaper c g) in
  (length recs <= 4)%nat /\
  ((forall i, (i <= length recs)%nat -> t i <> BeforeEpoch) ->
   shaped_new_at magic r rnd c g t s w = Some (shaped_new magic r rnd c g s w) /\
   tokio_shaped_new_at magic r rnd c g t s w = Some (tokio_shaped_new magic r rnd c g s w)) /\
  ((exists i, (i <= length recs)%nat /\ t i = BeforeEpoch) ->
   shaped_new_at magic r rnd c g t s w = None /\ tokio_shaped_new_at magic r rnd c g t s w = None).
Proof.
  intros E G R RL magic r rnd c g t s w. unfold shaped_new_at, tokio_shaped_new_at, shaped_new, tokio_shaped_new.
  pose proof (handshake_at_spec (Shaper c g) t 1) as H.
  destruct (shaper_handshake (Shaper c g)) as [[[garbage decoys] sh] recs] eqn:S.
  split.
  { clear H. unfold shaper_handshake in S. destruct c as [pa de]. cbn [sh_config sh_rng padding_strategy decoy_strategy] in S.
    assert (D : forall g ds g' rec2, match de with Disabled => (None, g, []) | Random => let '(n, g) := gen_range 0 3 g in
      let '(ds, g) := random_decoys (N.to_nat n) g in (Some ds, g, map (fun d => len d) ds) end = (ds, g', rec2) -> (length rec2 <= 3)%nat).
    { intros g0 ds g' rec2 Q. destruct de; [injection Q as <- <- <-; cbn; lia|].
      destruct (gen_range 0 3 g0) as [n g1] eqn:N. destruct (random_decoys (N.to_nat n) g1) as [ds1 g2] eqn:D. injection Q as <- <- <-.
      rewrite map_length. assert (n <= 3) by (pose proof (gen_range_in 0 3 g0 ltac:(lia)) as X; rewrite N in X; cbn [fst] in X; lia).
      assert (L : forall k g ds g', random_decoys k g = (ds, g') -> length ds = k).
      { induction k as [|k IH]; intros g3 ds g3' Q; cbn [random_decoys] in Q; [injection Q as <- <-; reflexivity|].
        destruct (random_vec 1 MAX_DECOY_SIZE_BYTES g3) as [x g4]. destruct (random_decoys k g4) as [l g5] eqn:Z. injection Q as <- <-. cbn [length]. f_equal. eapply IH, Z. }
      pose proof (L _ _ _ _ D) as LD. unfold bytes in *. lia. }
    destruct pa.
    - destruct (match de with Disabled => _ | Random => _ end) as [[ds g'] rec2] eqn:Q. injection S as <- <- <- <-. specialize (D _ _ _ _ Q). cbn [app]. lia.
    - destruct (random_vec _ _ _) as [x g4]. destruct (match de with Disabled => _ | Random => _ end) as [[ds g'] rec2] eqn:Q. injection S as <- <- <- <-.
      specialize (D _ _ _ _ Q). cbn [app length]. lia. }
  split.
  - intros F. destruct (t O) as [|ms] eqn:T; [exfalso; apply (F O); [lia|exact T]|]. cbn [now_ms].
    destruct (handshake_at (Shaper c g) t 1) as [[x|] recs'].
    + destruct H as (-> & -> & _). split; reflexivity.
    + destruct H as (j & B & L & _). exfalso. apply (F j); [lia|exact B].
  - intros (i & L & B). destruct (t O) as [|ms] eqn:T; [split; reflexivity|]. cbn [now_ms].
    destruct (handshake_at (Shaper c g) t 1) as [[x|] recs']; [|split; reflexivity].
    destruct H as (_ & _ & F). exfalso. destruct i as [|i]; [congruence|]. refine (F _ _ B); lia.
Qed.
Print Assumptions C75_new.

(** With the last reading before 1970 and everything at its highest: a garbage of 4095 bytes and three decoys are made and recorded, nothing is sent. *)
Example C75_new_example :
  let t i := if Nat.eqb i 4 then BeforeEpoch else AtMillis 5 in
  snd (@handshake_at unit high (Shaper (Config Random Random) tt) t 1) = [4095; 1024; 1024; 1024] /\
  @shaped_new_at (toy true) unit high mainnet Initiator ska (Config Random Random) tt t [] (Writer [] [] []) = None /\
  @tokio_shaped_new_at (toy true) unit high mainnet Initiator ska (Config Random Random) tt t [] (Writer [] [] []) = None.
Proof. vm_compute. repeat split. Qed.
Print Assumptions C75_new_example.
