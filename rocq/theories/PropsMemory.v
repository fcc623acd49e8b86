(** * Property C95: how much an endpoint keeps in memory because of its peer *)
From Coq Require Import List NArith Bool Lia.
From Coq.Strings Require Import Byte.
From Verif Require Import Base BaseFacts Env Toy FsChacha Spec FsChachaProofs Cipher CipherFacts Histories CipherProofs Handshake SpecHandshake
  HsDriver HandshakeProofs HsRunProofs Transport Io SpecIo Sessions TransportProofs IoProofs IoRunProofs HsSteps HsStepsProofs PipesProofs Futures
  FuturesProofs SessionProofs PropsHandshake PropsIo PropsLength SpecMemory.
Import ListNotations.
Local Open Scope N_scope.

Section WithEnv.
Context {E : Env} {EL : EnvLaws E}.

(** What holds at every place of a handshake. *)
Definition modest (p : place) : Prop :=
  match p with
  | SendingKey _ h | FlushingKey h => len (hs_magic h) = 4
  | ReadingKey got h => len (hs_magic h) = 4 /\ len got < 64
  | SendingVersion _ h | FlushingVersion h => len (remote_garbage_terminator (hs_state h)) = 16
  | ReadingTerminator got h => len (remote_garbage_terminator (hs_state h)) = 16 /\ len got < 16
  | ReadingGarbage buf h => len (remote_garbage_terminator (hs_state h)) = 16 /\ len buf < 4111
  | HsSteps.ReadingLength sr got h => kept sr + kept_garbage h <= 4350 /\ len got < 3
  | ReadingPacket sr n got h => kept sr + kept_garbage h <= 4350 /\ n <= 4000014 /\ len got < n
  | Over (Ok (_, _, sr)) => kept sr <= 4350
  | Over (Err _) => True
  end.

Lemma modest_failed e p : failed e = Ret p -> modest p.
Proof. intros H. injection H as <-. exact I. Qed.

Lemma kept_new fl l : kept (session_reader fl l []) = len l.
Proof. destruct fl; reflexivity. Qed.

Lemma scan_modest fl h buf p : len (remote_garbage_terminator (hs_state h)) = 16 -> len buf <= 4366 -> scan_garbage fl h buf = Ret p -> modest p.
Proof.
  intros Ht L H. unfold scan_garbage in H. destruct (receive_garbage_cases h buf Ht) as [(i & Hi & F & K)|[(_ & _ & K)|(_ & L' & K)]]; rewrite K in H; cbn [bind] in H.
  - unfold found in H. destruct F as [[F1 _] _]. rewrite Ht in F1. apply bind_ret_inv in H. destruct H as (l & Sl & H). injection H as <-.
    rewrite slice_ok in Sl by lia. injection Sl as <-. cbn [modest]. rewrite kept_new. unfold kept_garbage. cbn [hs_state remote_garbage].
    split; [|rewrite len_nil; lia]. rewrite len_take, len_drop. destruct (some_nonempty _) as [g|] eqn:G; [|lia].
    assert (len g = i). { destruct (take i buf) as [|b bs] eqn:T; [discriminate G|]. injection G as <-. rewrite <- T, len_take. lia. }
    lia.
  - eapply modest_failed, H.
  - injection H as <-. split; assumption.
Qed.

Lemma packet_modest sr h bs p : kept sr + kept_garbage h <= 4350 -> packet_read sr h bs = Ret p -> modest p.
Proof.
  intros L H. unfold packet_read in H. apply bind_ret_inv in H. destruct H as ([[[c|h1]|e] buf] & V & H); [| |eapply modest_failed, H].
  - destruct (into_split c) as [i o]. injection H as <-. cbn [modest]. lia.
  - injection H as <-. cbn [modest]. rewrite len_nil. split; [|lia].
    assert (kept_garbage h1 = 0); [|lia]. unfold receive_version in V. apply bind_ret_inv in V. destruct V as ([[r ic] b] & _ & V).
    destruct r as [[[|] pt]|e]; [discriminate V| |discriminate V]. injection V as <- _. reflexivity.
Qed.

Lemma length_modest sr h bs p : kept sr + kept_garbage h <= 4350 -> length_read sr h bs = Ret p -> modest p.
Proof.
  intros L H. unfold length_read in H. apply bind_ret_inv in H. destruct H as ([n h1] & D & H).
  assert (kept_garbage h1 = kept_garbage h) as K.
  { unfold hs_decrypt_packet_len in D. apply bind_ret_inv in D. destruct D as ([n' ic] & _ & D). injection D as _ <-. reflexivity. }
  change MAX_PACKET_SIZE_FOR_ALLOCATION with 4000014 in H. destruct (N.ltb_spec 4000014 n) as [B|B]; [eapply modest_failed, H|]. rewrite <- K in L.
  destruct (N.eqb_spec n 0); [eapply packet_modest; eassumption|]. injection H as <-. cbn [modest]. rewrite len_nil. repeat split; lia.
Qed.

Lemma reading_modest fl n got r again done p : reading fl n got r again done = Ret p -> len got < n ->
  modest (again got) -> (forall bs, r = Data bs -> len (got ++ bs) < n -> modest (again (got ++ bs))) ->
  (forall bs p, r = Data bs -> n <= len (got ++ bs) -> done (got ++ bs) = Ret p -> modest p) -> modest p.
Proof.
  intros H L A1 A2 D. unfold reading in H. destruct r as [[|b bs]|k].
  - eapply modest_failed, H.
  - destruct (N.leb_spec n (len (got ++ b :: bs))) as [Q|Q]; [eapply D; [reflexivity|exact Q|exact H]|]. injection H as <-. now apply A2.
  - destruct (retries fl k); [injection H as <-; exact A1|eapply modest_failed, H].
Qed.

Lemma kept_read sr s n r sr' : session_read (set_inner sr s) n = (r, sr') -> kept (set_inner sr' []) <= kept sr.
Proof.
  intros H. destruct sr as [cur d s0|l pos s0]; cbn [set_inner session_read] in H.
  - destruct d.
    + destruct (read s n) as [r1 s1]. injection H as <- <-. cbn [set_inner kept]. lia.
    + destruct cur as [|b bs].
      * destruct (read s n) as [r1 s1]. injection H as <- <-. cbn [set_inner kept]. lia.
      * injection H as <- <-. cbn [set_inner kept]. rewrite len_drop. lia.
  - destruct (pos <? len l); [|destruct (read s n) as [r1 s1]]; injection H as <- <-; cbn [set_inner kept]; lia.
Qed.

Lemma step_modest fl d p s w p' s' w' : modest p -> hs_step fl d p s w = Ret (p', s', w') -> modest p'.
Proof.
  intros M H. destruct p; cbn [hs_step modest] in *.
  - destruct (write_once fl w rest) as [x w1]. injection H as <- _ _. destruct x; cbn [modest]; auto.
  - destruct (flush w) as [x w1]. injection H as <- _ _. destruct x; cbn [modest]; [|exact I]. rewrite len_nil. split; [exact M|lia].
  - destruct (read s _) as [r s1] eqn:R. apply bind_ret_inv in H. destruct H as (q & Q & H). injection H as <- _ _. destruct M as (M & L).
    change NUM_ELLIGATOR_SWIFT_BYTES with 64 in *.
    refine (reading_modest _ _ _ _ _ _ _ Q L _ _ _); [split; assumption|intros; split; assumption|].
    intros bs p -> Ls K. apply read_fits in R. rewrite len_app in Ls. assert (len (got ++ bs) = 64) as Lt by (rewrite len_app; lia).
    unfold key_read in K. apply bind_ret_inv in K. destruct K as ([h1|e] & RK & K); [|eapply modest_failed, K].
    apply bind_ret_inv in K. destruct K as ([[h2|e] vb] & SV & K); [|eapply modest_failed, K]. injection K as <-. cbn [modest].
    exact (received_terminator _ _ _ _ _ _ _ M Lt RK SV).
  - destruct (write_once fl w rest) as [x w1]. injection H as <- _ _. destruct x; cbn [modest]; auto.
  - destruct (flush w) as [x w1]. injection H as <- _ _. destruct x; cbn [modest]; [|exact I]. rewrite len_nil. split; [exact M|lia].
  - destruct (read s _) as [r s1] eqn:R. apply bind_ret_inv in H. destruct H as (q & Q & H). injection H as <- _ _. destruct M as (M & L).
    change NUM_GARBAGE_TERMINTOR_BYTES with 16 in *.
    refine (reading_modest _ _ _ _ _ _ _ Q L _ _ _); [split; assumption|intros; split; assumption|].
    intros bs p -> Ls K. apply read_fits in R. eapply scan_modest; [exact M| |exact K]. rewrite len_app in *. lia.
  - destruct (read s 256) as [r s1] eqn:R. apply bind_ret_inv in H. destruct H as (q & Q & H). injection H as <- _ _. destruct M as (M & L).
    destruct r as [[|b bs]|k]; [eapply modest_failed, Q| |eapply modest_failed, Q]. apply read_fits in R. eapply scan_modest; [exact M| |exact Q]. rewrite len_app. lia.
  - destruct (session_read _ _) as [r sr'] eqn:R. apply bind_ret_inv in H. destruct H as (q & Q & H). injection H as <- _ _. destruct M as (M & L).
    pose proof (kept_read _ _ _ _ _ R) as K0. change NUM_LENGTH_BYTES with 3 in *.
    refine (reading_modest _ _ _ _ _ _ _ Q L _ _ _); [split; [lia|assumption]|intros; split; [lia|assumption]|].
    intros bs p _ _ K. eapply length_modest; [|exact K]. lia.
  - destruct (session_read _ _) as [r sr'] eqn:R. apply bind_ret_inv in H. destruct H as (q & Q & H). injection H as <- _ _. destruct M as (M & M2 & L).
    pose proof (kept_read _ _ _ _ _ R) as K0.
    refine (reading_modest _ _ _ _ _ _ _ Q L _ _ _); [repeat split; lia|intros; repeat split; lia|].
    intros bs p _ _ K. eapply packet_modest; [|exact K]. lia.
  - injection H as <- _ _. exact M.
Qed.

Lemma steps_modest fl d : forall n p s w p' s' w', modest p -> hs_steps n fl d p s w = Ret (p', s', w') -> modest p'.
Proof.
  induction n as [|n IH]; intros p s w p' s' w' M H; cbn [hs_steps] in H; [injection H as <- _ _; exact M|].
  apply bind_ret_inv in H. destruct H as ([[p1 s1] w1] & H1 & H). eapply IH; [eapply step_modest; eassumption|exact H].
Qed.

Lemma begin_modest magic r rnd g p : len magic = 4 -> hs_begin magic r rnd g = Ret p -> modest p.
Proof.
  intros Hm H. unfold hs_begin in H. apply bind_ret_inv in H. destruct H as ([h|e] & N & H); [|eapply modest_failed, H].
  apply hs_new_magic in N. unfold begin in H. apply bind_ret_inv in H. destruct H as ([[h1|e] kb] & SK & H); [|eapply modest_failed, H].
  injection H as <-. apply send_key_magic in SK. cbn [modest]. congruence.
Qed.

(** ** Reads *)

Definition small (r : tokio_reader) : Prop :=
  match tr_state r with
  | Futures.ReadingLength b n => len b = 3 /\ n <= 3
  | ReadingPayload b n => n <= len b /\ len b <= 16777232
  end.

Lemma kept_poll sr n x sr' : poll_session sr n = (x, sr') -> kept sr' <= kept sr.
Proof.
  intros H. destruct sr as [cur d s|l pos s]; cbn [poll_session] in H.
  - destruct (session_read _ _) as [r sr1] eqn:R. injection H as _ <-. cbn [session_read] in R. destruct d.
    + destruct (read s n). injection R as _ <-. cbn [kept]. lia.
    + destruct cur; [destruct (read s n)|]; injection R as _ <-; cbn [kept]; [lia|]. rewrite len_drop. lia.
  - destruct (pos <? len l); [|destruct (poll_script s n)]; injection H as _ <-; cbn [kept]; lia.
Qed.

Lemma kept_fill : forall fuel sr buf n x sr' buf' n', fill fuel sr buf n = Ret (x, sr', buf', n') -> kept sr' <= kept sr.
Proof.
  induction fuel as [|fuel IH]; intros sr buf n x sr' buf' n' H; [discriminate H|]. cbn [fill] in H.
  destruct (n <? len buf); [|injection H as _ <- _ _; lia].
  destruct (poll_session sr (len buf - n)) as [[[[|b bs]|k]|] sr1] eqn:P; apply kept_poll in P; [injection H as _ <- _ _; exact P| |injection H as _ <- _ _; exact P..].
  apply bind_ret_inv in H. destruct H as (b1 & _ & H). apply IH in H. lia.
Qed.

Lemma fill_facts sr buf n x sr' buf' n' : n <= len buf -> fill (fill_fuel sr) sr buf n = Ret (x, sr', buf', n') ->
  len buf' = len buf /\ n' <= len buf /\ kept sr' <= kept sr.
Proof.
  intros L H. destruct (fill_fuel_shape sr buf n L) as (x1 & sr1 & b1 & n1 & F & A & B & _). rewrite F in H. injection H as -> -> -> ->.
  split; [exact A|]. split; [lia|]. exact (kept_fill _ _ _ _ _ _ _ _ F).
Qed.

Lemma payload_small c sr pb n x r' f' : n <= len pb -> len pb <= 16777232 -> phase_payload c sr pb n = Ret (x, r', f') ->
  small r' /\ kept (tr_reader r') <= kept sr.
Proof.
  intros L B H. unfold phase_payload in H. apply bind_ret_inv in H. destruct H as ([[[y sr1] pb1] n1] & F & H).
  destruct (fill_facts _ _ _ _ _ _ _ L F) as (A1 & A2 & A3).
  assert (St : small (TReader c sr1 (ReadingPayload pb1 n1))) by (unfold small; cbn [tr_state]; lia).
  destruct y as [| |e]; [|injection H as _ <- _; split; [exact St|exact A3]..].
  apply bind_ret_inv in H. destruct H as (pl & _ & H). apply bind_ret_inv in H. destruct H as ([[r c1] pt] & _ & H). destruct r as [u|e].
  - apply bind_ret_inv in H. destruct H as (p & _ & H). injection H as _ <- _. split; [|exact A3].
    unfold small, init_reading_length. cbn [tr_state]. rewrite len_zeros. change NUM_LENGTH_BYTES with 3. lia.
  - injection H as _ <- _. split; [exact St|exact A3].
Qed.

Lemma poll_small f r x r' f' : small r -> poll_read f r = Ret (x, r', f') -> small r' /\ kept (tr_reader r') <= kept (tr_reader r).
Proof.
  intros M H. destruct r as [c sr [lb n|pb n]]; cbn [small tr_state] in M; unfold poll_read in H; cbn [tr_state tr_cipher tr_reader] in *.
  - assert (H1 : phase_length c sr lb n = Ret (x, r', f')) by (destruct f; [exact H|exact H|discriminate H]). clear H. destruct M as (M & L).
    unfold phase_length in H1. apply bind_ret_inv in H1. destruct H1 as ([[[y sr1] lb1] n1] & F & H).
    destruct (fill_facts _ _ _ _ _ _ _ (eq_ind_r (fun m => n <= m) L M) F) as (A1 & A2 & A3).
    destruct y as [| |e]; [|injection H as _ <- _; cbn [small tr_state tr_reader]; lia..].
    apply bind_ret_inv in H. destruct H as ([k c1] & D & H). apply packet_len_range in D; [|lia]. destruct D as (D & _).
    change (2 ^ 24 + 17) with 16777233 in D. apply payload_small in H; [|lia|rewrite len_zeros; lia]. split; [exact (proj1 H)|]. lia.
  - assert (H1 : phase_payload c sr pb n = Ret (x, r', f')) by (destruct f; [exact H|discriminate H|exact H]). clear H.
    exact (payload_small _ _ _ _ _ _ _ (proj1 M) (proj2 M) H1).
Qed.

Lemma schedule_small : forall acts f r xs r' f', small r -> run_schedule acts f r = Ret (xs, r', f') ->
  small r' /\ kept (tr_reader r') <= kept (tr_reader r).
Proof.
  induction acts as [|[|] acts IH]; intros f r xs r' f' M H; cbn [run_schedule] in H.
  - injection H as _ <- _. split; [exact M|lia].
  - apply bind_ret_inv in H. destruct H as ([[x r1] f1] & P & H). apply bind_ret_inv in H. destruct H as ([[ys r2] f2] & Q & H).
    injection H as _ <- _. destruct (poll_small _ _ _ _ _ M P) as (M1 & K1). destruct (IH _ _ _ _ _ M1 Q) as (M2 & K2). split; [exact M2|lia].
  - exact (IH _ _ _ _ _ M H).
Qed.

Lemma kept_exact fl sr n x sr' : session_read_exact fl sr n = (x, sr') -> kept sr' <= kept sr.
Proof.
  intros H. destruct sr as [cur d s|l pos s]; cbn [session_read_exact] in H.
  - destruct d; [destruct (read_exact fl s n []); injection H as _ <-; cbn [kept]; lia|].
    destruct (n <=? len cur); [injection H as _ <-; cbn [kept]; rewrite len_drop; lia|].
    destruct (read_exact _ _ _ _). injection H as _ <-. cbn [kept]. rewrite len_nil. lia.
  - destruct (n <=? _); [injection H as _ <-; cbn [kept]; lia|]. destruct (read_exact _ _ _ _). injection H as _ <-. cbn [kept]. lia.
Qed.

End WithEnv.

(** ** C95 *)

(** Through the whole handshake, with any sequence of calls to any transport, what is kept for the peer is bounded. *)
Theorem C95_handshake : forall (E : Env) (EL : EnvLaws E) fl magic r rnd g d n p s w p' s' w', len magic = 4 ->
  hs_begin magic r rnd g = Ret p -> hs_steps n fl d p s w = Ret (p', s', w') -> buffered p' <= 4350 + 4000014.
Proof.
  intros E EL fl magic r rnd g d n p s w p' s' w' Hm B H. pose proof (steps_modest _ _ _ _ _ _ _ _ _ (begin_modest _ _ _ _ _ Hm B) H) as M.
  destruct p'; cbn [modest buffered] in *; try lia. match goal with x : result _ _ |- _ => destruct x as [[[i o] sr]|e] end; lia.
Qed.
Print Assumptions C95_handshake.

(** With the session that comes out of it, it is at most 4350 bytes. *)
Theorem C95_session : forall (E : Env) (EL : EnvLaws E) fl magic r rnd g d n p s w i o sr s' w', len magic = 4 ->
  hs_begin magic r rnd g = Ret p -> hs_steps n fl d p s w = Ret (Over (Ok (i, o, sr)), s', w') -> kept sr <= 4350.
Proof.
  intros E EL fl magic r rnd g d n p s w i o sr s' w' Hm B H. exact (steps_modest _ _ _ _ _ _ _ _ _ (begin_modest _ _ _ _ _ Hm B) H).
Qed.
Print Assumptions C95_session.

(** After it: the buffer of the asynchronous reader through any polls and cancellations, the one a blocking read allocates; the leftover
    does not grow. *)
Theorem C95_reads : forall (E : Env) (EL : EnvLaws E),
  (forall c sr acts xs r f, run_schedule acts FreshFuture (TReader c sr init_reading_length) = Ret (xs, r, f) ->
     in_state (tr_state r) <= 2 ^ 24 + 16 /\ kept (tr_reader r) <= kept sr) /\
  (forall r x r' a, sync_read r = Ret (x, r', a) ->
     match a with Some n => n <= 2 ^ 24 + 16 | None => True end /\ kept (sr_reader r') <= kept (sr_reader r)).
Proof.
  intros E EL. change (2 ^ 24 + 16) with 16777232. split.
  - intros c sr acts xs r f H. apply schedule_small in H; [|unfold small, init_reading_length; cbn [tr_state]; rewrite len_zeros; change NUM_LENGTH_BYTES with 3; lia].
    destruct H as (M & K). split; [|exact K]. destruct r as [c1 sr1 [b n|b n]]; cbn [small tr_state in_state] in *; lia.
  - intros [c sr] x r' a H. unfold sync_read in H. cbn [sr_reader sr_cipher] in *. change NUM_LENGTH_BYTES with 3 in H.
    destruct (session_read_exact Sync sr 3) as [[lb|k] sr1] eqn:R1; pose proof (kept_exact _ _ _ _ _ R1) as K1.
    2:{ injection H as _ <- <-. split; [exact I|exact K1]. }
    apply bind_ret_inv in H. destruct H as ([n c1] & D & H).
    assert (B : n <= 16777232).
    { unfold decrypt_packet_len in D. apply bind_ret_inv in D. destruct D as ([q lc] & _ & D). apply bind_ret_inv in D. destruct D as (b0 & _ & D).
      apply bind_ret_inv in D. destruct D as (b1 & _ & D). apply bind_ret_inv in D. destruct D as (b2 & _ & D).
      assert (Dn : n = le_val [b0; b1; b2; x00] + NUM_HEADER_BYTES + NUM_TAG_BYTES) by congruence. clear D.
      pose proof (le_val_bound [b0; b1; b2]) as Q. change (256 ^ len [b0; b1; b2]) with 16777216 in Q.
      assert (Z3 : le_val [b0; b1; b2; x00] = le_val [b0; b1; b2]) by (cbn [le_val]; change (Byte.to_N x00) with 0; lia). rewrite Z3 in Dn.
      change NUM_HEADER_BYTES with 1 in Dn. change NUM_TAG_BYTES with 16 in Dn. lia. }
    destruct (session_read_exact Sync sr1 n) as [[pb|k] sr2] eqn:R2; pose proof (kept_exact _ _ _ _ _ R2) as K2.
    2:{ injection H as _ <- <-. cbn [sr_reader]. split; [exact B|lia]. }
    apply bind_ret_inv in H. destruct H as ([y c2] & _ & H). destruct y as [[u pt]|e].
    + apply bind_ret_inv in H. destruct H as (pl & _ & H). injection H as _ <- <-. cbn [sr_reader]. split; [exact B|lia].
    + injection H as _ <- <-. cbn [sr_reader]. split; [exact B|lia].
Qed.
Print Assumptions C95_reads.

(** The size is the peer's choice, and three bytes are enough: for every length there are three that make the reader allocate it and
    wait. *)
Theorem C95_three_bytes : forall (E : Env) (EL : EnvLaws E) k c n s, counted k c -> room k -> n < 2 ^ 24 ->
  exists lb c', len lb = 3 /\
    poll_read FreshFuture (TReader c (TokioReader [] 0 (Chunk lb :: Pending :: s)) init_reading_length) =
      Ret (NotReady, TReader c' (TokioReader [] 0 s) (ReadingPayload (zeros (n + 17)) 0), AtPayload).
Proof.
  intros E EL k c n s C R L. destruct (encrypt_vec_ret k c [] Genuine None C R) as (pkt & c1 & En & _).
  pose proof (relabelled _ _ _ _ _ _ n [] En L) as (D & Lw). rewrite app_nil_r, len_nil in *. set (wire := tampered (mask_for 0 n) pkt) in *.
  assert (Ll : len (take 3 wire) = 3) by (rewrite len_take; lia). clearbody wire.
  destruct (take 3 wire) as [|b0 [|b1 [|b2 [|b3 lb]]]]; [discriminate Ll..| |rewrite !len_cons in Ll; lia].
  exists [b0; b1; b2], (Cipher (length_cipher c1) (packet_cipher c)). split; [exact Ll|].
  unfold poll_read, init_reading_length. cbn [tr_state tr_cipher tr_reader]. change NUM_LENGTH_BYTES with 3. unfold phase_length.
  cbn [bind]. remember (TokioReader [] 0 (Pending :: s)) as sr1 eqn:Es1.
  assert (F1 : fill (fill_fuel (TokioReader [] 0 (Chunk [b0; b1; b2] :: Pending :: s))) (TokioReader [] 0 (Chunk [b0; b1; b2] :: Pending :: s)) (zeros 3) 0 = Ret (Filled, sr1, [b0; b1; b2], 3)).
  { rewrite Es1. reflexivity. }
  rewrite F1. cbn [bind]. rewrite D. cbn [bind]. unfold phase_payload. subst sr1.
  assert (F2 : fill (fill_fuel (TokioReader [] 0 (Pending :: s))) (TokioReader [] 0 (Pending :: s)) (zeros (n + 17)) 0 = Ret (Waiting, TokioReader [] 0 s, zeros (n + 17), 0)).
  { unfold fill_fuel. cbn [length fill]. rewrite (proj2 (N.ltb_lt 0 (len (zeros (n + 17))))) by (rewrite len_zeros; lia). reflexivity. }
  rewrite F2. reflexivity.
Qed.
Print Assumptions C95_three_bytes.

(** So memory does not follow what the peer has sent, up to a buffer of a few kilobytes: the connection is established, the peer has
    sent three bytes more, sixteen megabytes are allocated. *)
Theorem C95_memory_follows_input_refuted :
  ~ forall (E : Env) (EL : EnvLaws E) c sent acts xs r f, counted 0 c ->
      run_schedule acts FreshFuture (TReader c (TokioReader [] 0 [Chunk sent; Pending]) init_reading_length) = Ret (xs, r, f) ->
      in_state (tr_state r) <= len sent + 2 ^ 20.
Proof.
  intros H. destruct (session_counted (E := toy true) sample_km Initiator) as (C & _).
  destruct (C95_three_bytes (toy true) (toy_laws true) 0 _ (2 ^ 24 - 1) [] C) as (lb & c' & Ll & P); [intros _; reflexivity|reflexivity|].
  specialize (H (toy true) (toy_laws true) _ lb [DoPoll] [] (TReader c' (TokioReader [] 0 []) (ReadingPayload (zeros (2 ^ 24 - 1 + 17)) 0)) AtPayload C).
  cbn [tr_state in_state] in H. rewrite len_zeros, Ll in H. assert (Q : 2 ^ 24 - 1 + 17 <= 3 + 2 ^ 20); [apply H|vm_compute in Q; now apply Q].
  cbn [run_schedule]. rewrite P. reflexivity.
Qed.
Print Assumptions C95_memory_follows_input_refuted.

(** The peer sends the longest garbage so that the last read finds one byte of the terminator and 255 behind it: 4350 bytes are kept.
    Then come a decoy of 400 bytes, for which 417 are allocated, and the version packet. *)
Example C95_example :
  match @wires (toy true) None (Some (repeat x2b 4095)) None (Some [zeros 400]) [] [(Genuine, [])], @hs_begin (toy true) mainnet Initiator ska None with
  | Some (_, c), Ret p =>
    let go n := @hs_steps (toy true) n Tokio None p [Chunk (take (64 + 4110) c); Chunk (drop (64 + 4110) c)] fresh in
    (match go 22%nat with Ret (ReadingGarbage b h, _, _) => len b = 4110 | _ => False end) /\
    (match go 23%nat with
     | Ret (HsSteps.ReadingLength sr _ h as q, _, _) => kept sr = 255 /\ kept_garbage h = 4095 /\ buffered q = 4353
     | _ => False
     end) /\
    (match go 24%nat with Ret (ReadingPacket sr n _ h as q, _, _) => n = 417 /\ buffered q = 4767 | _ => False end) /\
    (match go 30%nat with Ret (Over (Ok (_, _, sr)), _, _) => kept sr = 255 | _ => False end)
  | _, _ => False
  end.
Proof. vm_compute. repeat split. Qed.
