(** * ReaderProofs: both readers side by side, progress, error kinds *)
From Coq Require Import List NArith Bool Lia ZArith.
From Coq.Strings Require Import Byte.
From Coq Require Import ZifyBool ZifyNat ZifyN.
From Verif Require Import Base BaseFacts Env FsChacha Spec FsChachaProofs Cipher CipherFacts
  Histories CipherProofs Handshake SpecHandshake HsDriver HandshakeProofs HsRunProofs
  Transport Io SpecIo Futures Sessions TransportProofs NoFuel IoProofs FuturesProofs IoRunProofs
  SessionProofs EndpointProofs.
Import ListNotations.
Local Open Scope N_scope.

(** ** Delivery by the session reader *)

Theorem session_read_delivers sr n bs sr' :
  0 < n -> session_read sr n = (Data bs, sr') ->
  session_content sr = bs ++ session_content sr' /\ len bs <= n /\
  (session_leftover sr <> [] -> bs = take n (session_leftover sr) /\ session_inner sr' = session_inner sr).
Proof.
  intros Hn H. destruct sr as [cur [|] s|l pos s]; cbn [session_read] in H.
  - destruct (read s n) as [x s'] eqn:R. injection H as -> <-.
    destruct (read_shape _ _ _ _ R Hn) as [[Q1 [Q2 _]] _]. cbn. split; [assumption|]. split; [assumption|]. easy.
  - destruct cur as [|b cur].
    + destruct (read s n) as [x s'] eqn:R. injection H as -> <-.
      destruct (read_shape _ _ _ _ R Hn) as [[Q1 [Q2 _]] _]. cbn. split; [assumption|]. split; [assumption|]. easy.
    + injection H as <- <-. cbn [session_content session_leftover session_inner].
      rewrite app_assoc, take_drop, len_take. split; [reflexivity|]. split; [lia|]. auto.
  - destruct (pos <? len l) eqn:L.
    + injection H as <- <-. cbn [session_content session_leftover session_inner].
      assert (len (drop pos l) = len l - pos) by apply len_drop.
      rewrite <- (take_drop (N.min (len (drop pos l)) n) (drop pos l)) at 1. rewrite <- app_assoc, drop_drop.
      split; [reflexivity|]. rewrite len_take. split; [lia|]. intros _. split; [|reflexivity].
      destruct (N.le_ge_cases n (len (drop pos l))).
      * now replace (N.min (len (drop pos l)) n) with n by lia.
      * replace (N.min (len (drop pos l)) n) with (len (drop pos l)) by lia. now rewrite !take_all by lia.
    + destruct (read s n) as [x s'] eqn:R. injection H as -> <-.
      destruct (read_shape _ _ _ _ R Hn) as [[Q1 [Q2 _]] _]. cbn [session_content session_leftover session_inner].
      rewrite drop_all by lia. cbn. split; [assumption|]. split; [assumption|]. easy.
Qed.

Section WithLaws.
Context {E : Env} {EL : EnvLaws E}.

(** ** I/O errors carry the suggestion of their kind *)

Lemma garbage_loop_error : forall fuel h buf s reads x s' r,
  garbage_loop fuel h buf s reads = Ret (Err x, s', r) ->
  (exists y, x = Internal y) \/ exists k, x = from_io k.
Proof.
  induction fuel as [|fuel IH]; intros h buf s reads x s' r H; [discriminate|]. cbn [garbage_loop] in H.
  apply bind_ret_inv in H. destruct H as ([[h' n|h']|y] & _ & H); [discriminate| |].
  - destruct (read s 256) as [[[|b bs]|k] s1].
    + injection H as <- <- <-. right. now exists UnexpectedEof.
    + now apply IH in H.
    + injection H as <- <- <-. right. now exists k.
  - injection H as <- <- <-. left. now exists y.
Qed.

Lemma version_loop_error fl : forall fuel h sr a x a',
  version_loop fuel fl h sr a = Ret (Err x, a') ->
  (exists y, x = Internal y) \/ exists k, x = from_io k.
Proof.
  induction fuel as [|fuel IH]; intros h sr a x a' H; [discriminate|]. cbn [version_loop] in H.
  destruct (session_read_exact fl sr _) as [[lb|kd] sr1]; [|injection H as <- <-; right; now exists kd].
  apply bind_ret_inv in H. destruct H as ([n h1] & _ & H).
  destruct (_ <? n); [injection H as <- <-; left; eauto|].
  destruct (session_read_exact fl sr1 _) as [[pb|kd] sr2]; [|injection H as <- <-; right; now exists kd].
  apply bind_ret_inv in H. destruct H as ([[[c|h2]|y] b] & _ & H).
  - unfold into_split in H. discriminate.
  - now apply IH in H.
  - injection H as <- <-. left; eauto.
Qed.

Theorem handshake_io_error fl magic r rnd g d s w o k sg :
  io_handshake fl magic r rnd g d s w = Ret o -> ho_result o = Err (Io k sg) -> Io k sg = from_io k.
Proof.
  intros H R.
  assert ((exists y, Io k sg = Internal y) \/ exists k', Io k sg = from_io k') as [(y & Q)|(k' & Q)].
  2:{ discriminate. }
  2:{ destruct k'; injection Q as -> ->; reflexivity. }
  unfold io_handshake in H.
  apply bind_ret_inv in H. destruct H as ([h|y] & _ & H); [|injection H as <-; discriminate].
  unfold io_handshake_with in H.
  apply bind_ret_inv in H. destruct H as ([[h1|y] fa] & _ & H); [|injection H as <-; discriminate].
  destruct (write_flush fl w fa) as [[[]|k1] w1];
    [|injection H as <-; cbn [ho_result] in R; right; exists k1; congruence].
  destruct (read_exact fl s _ _) as [[their|k1] s1];
    [|injection H as <-; cbn [ho_result] in R; right; exists k1; congruence].
  apply bind_ret_inv in H. destruct H as ([h2|y] & _ & H); [|injection H as <-; discriminate].
  apply bind_ret_inv in H. destruct H as ([[h3|y] wa] & _ & H); [|injection H as <-; discriminate].
  destruct (write_flush fl w1 wa) as [[[]|k1] w2];
    [|injection H as <-; cbn [ho_result] in R; right; exists k1; congruence].
  destruct (read_exact fl s1 _ _) as [[gb|k1] s2];
    [|injection H as <-; cbn [ho_result] in R; right; exists k1; congruence].
  apply bind_ret_inv in H. destruct H as ([[x s3] rd] & G & H).
  destruct x as [[[h4 n] gb']|y].
  2:{ injection H as <-. cbn in R. injection R as ->. now apply garbage_loop_error in G. }
  apply bind_ret_inv in H. destruct H as (lo & _ & H). cbn zeta in H.
  apply bind_ret_inv in H. destruct H as ([x a] & V & H). injection H as <-. cbn in R. subst x.
  now apply version_loop_error in V.
Qed.

(** ** The end of the stream inside a packet *)

Theorem sync_read_end r wire e x r' a :
  session_stream Sync (sr_reader r) = (wire, e) -> cut_short (sr_cipher r) wire ->
  sync_read r = Ret (x, r', a) -> x = Err (end_error e).
Proof.
  intros St Cut H. pose proof (sync_read_sound _ _ _ _ _ _ St H) as M.
  destruct x as [p|[k s|y]]; cbn [sync_meaning] in M.
  - destruct M as (hd & ct & rest & _ & R & _). destruct (cut_short_none _ None _ Cut) as (c1 & rs & Q).
    congruence.
  - destruct M as [_ ->]. reflexivity.
  - destruct M as (n & D & L & _). destruct Cut as [Cut|(n' & c1 & D' & Cut)].
    + lia.
    + rewrite D in D'. injection D' as <- <-. rewrite len_drop in Cut. lia.
Qed.

(** ** State of the tokio reader after a completed read *)

Lemma fill_filled : forall fuel sr buf n sr' buf' n',
  fill fuel sr buf n = Ret (Filled, sr', buf', n') -> len buf' <= n'.
Proof.
  induction fuel as [|fuel IH]; intros sr buf n sr' buf' n' H; [discriminate|]. cbn [fill] in H.
  destruct (n <? len buf) eqn:L.
  - destruct (poll_session sr _) as [[[[|b bs]|k]|] s1]; try discriminate.
    apply bind_ret_inv in H. destruct H as (b1 & _ & H). now apply IH in H.
  - injection H as <- <- <-. lia.
Qed.

Definition settled (x : poll (result perror payload)) (r : tokio_reader) : Prop :=
  match x with
  | Ready (Ok _) => tr_state r = init_reading_length
  | Ready (Err (Internal _)) => exists pb n, tr_state r = ReadingPayload pb n /\ len pb <= n
  | _ => True
  end.

Lemma phase_payload_settled c sr pb n x r f : phase_payload c sr pb n = Ret (x, r, f) -> settled x r.
Proof.
  unfold phase_payload. intros H.
  apply bind_ret_inv in H. destruct H as ([[[y sr1] pb1] n1] & F & H). destruct y as [| |y].
  - apply fill_filled in F. apply bind_ret_inv in H. destruct H as (m & _ & H).
    apply bind_ret_inv in H. destruct H as ([[z c2] buf] & _ & H). destruct z as [t|z].
    + apply bind_ret_inv in H. destruct H as (p & _ & H). injection H as <- <- <-. reflexivity.
    + injection H as <- <- <-. cbn. eauto.
  - injection H as <- <- <-. exact I.
  - injection H as <- <- <-. destruct y as [k s|y]; [exact I|].
    destruct (fill_err _ _ _ _ _ _ _ _ F) as (k & Q). discriminate.
Qed.

Lemma poll_settled f r x r' f' : poll_read f r = Ret (x, r', f') -> settled x r'.
Proof.
  assert (forall lb n, phase_length (tr_cipher r) (tr_reader r) lb n = Ret (x, r', f') -> settled x r') as P.
  { intros lb n H. unfold phase_length in H.
    apply bind_ret_inv in H. destruct H as ([[[y sr1] pb1] n1] & F & H). destruct y as [| |y].
    - apply bind_ret_inv in H. destruct H as ([m c] & _ & H). now apply phase_payload_settled in H.
    - injection H as <- <- <-. exact I.
    - injection H as <- <- <-. destruct y as [k s|y]; [exact I|].
      destruct (fill_err _ _ _ _ _ _ _ _ F) as (k & Q). discriminate. }
  unfold poll_read. destruct f, (tr_state r); try discriminate; intros H; eauto using phase_payload_settled.
Qed.

Lemma await_settled : forall fuel f r x r', await_read fuel f r = Ret (x, r') -> settled (Ready x) r'.
Proof.
  induction fuel as [|fuel IH]; intros f r x r' H; [discriminate|]. cbn [await_read] in H.
  apply bind_ret_inv in H. destruct H as ([[y r1] f1] & P & H). destruct y as [y|].
  - injection H as <- <-. now apply poll_settled in P.
  - now apply IH in H.
Qed.

Lemma fresh_within c l pos s wire e :
  session_stream Tokio (TokioReader l pos s) = (wire, e) ->
  within (TReader c (TokioReader l pos s) init_reading_length) c wire e.
Proof.
  intros H. split; [now exists l, pos, s|]. exists wire. split; [assumption|]. cbn.
  split; [reflexivity|]. split; [lia|]. split; reflexivity.
Qed.

Lemma fresh_stands c sr : stands (TReader c sr init_reading_length) c (session_content sr).
Proof. cbn. split; [reflexivity|]. split; [lia|]. split; reflexivity. Qed.

Lemma tokio_read_meaning r c wire e k :
  within r c wire e -> counted k c -> room k ->
  exists x r', tokio_read r = Ret (x, r') /\ read_meaning x r' c wire e.
Proof.
  intros W C R. destruct (await_meaning (S (session_events (tr_reader r))) FreshFuture r c wire e k) as (x & r' & A & M & _).
  - assumption.
  - cbn. now destruct (tr_state r).
  - lia.
  - assumption.
  - assumption.
  - exists x, r'. split; assumption.
Qed.

(** ** Both readers on the same stream *)

Theorem readers_agree r1 c l pos s wire e k :
  let r2 := TReader c (TokioReader l pos s) init_reading_length in
  sr_cipher r1 = c -> session_stream Sync (sr_reader r1) = (wire, e) ->
  session_stream Tokio (tr_reader r2) = (wire, e) ->
  counted k c -> room k ->
  exists x1 r1' a x2 r2', sync_read r1 = Ret (x1, r1', a) /\ tokio_read r2 = Ret (x2, r2') /\
  match x1, x2 with
  | Ok p, Ok q =>
      payload_view p = payload_view q /\
      (exists l' pos' s', r2' = TReader (sr_cipher r1') (TokioReader l' pos' s') init_reading_length) /\
      session_stream Sync (sr_reader r1') = session_stream Tokio (tr_reader r2') /\
      counted (k + 1) (sr_cipher r1')
  | Err (Internal PacketTooBig), Ok q => exists t contents,
      payload_view q = Ret (t, contents) /\ 4000014 < len contents + 1 /\
      packet_cipher (sr_cipher r1') = packet_cipher c /\
      session_stream Sync (sr_reader r1') = session_stream Tokio (tr_reader r2')
  | Err (Internal y), Err (Internal z) => z = Decryption /\ (y = Decryption \/ y = PacketTooBig)
  | Err (Io k1 s1), Err (Io k2 s2) => Io k1 s1 = end_error e /\ Io k2 s2 = from_io (tokio_end e)
  | _, _ => False
  end.
Proof.
  intros r2 C1 S1 S2 Ck Rk. cbn [tr_reader r2] in S2. pose proof (fresh_within c l pos s wire e S2) as W.
  destruct (tokio_read_meaning r2 c wire e k W Ck Rk) as (x2 & r2' & T & M).
  pose proof (await_settled _ _ _ _ _ T) as Se.
  assert (counted k (sr_cipher r1)) as Ck1 by now rewrite C1.
  destruct (sync_read_total r1 k Ck1 Rk) as (x1 & r1' & a & H & Cn).
  exists x1, r1', a, x2, r2'. split; [assumption|]. split; [assumption|].
  pose proof (sync_read_sound _ _ _ _ _ _ S1 H) as M1. rewrite C1 in M1.
  destruct x2 as [q|[k2 s2|z]]; cbn [read_meaning poll_meaning settled] in M, Se.
  - destruct M as (hd & ct & c1 & rest & -> & Rc & (Sh & rest' & St & W')).
    rewrite Se in W'. cbn [init_reading_length] in W'. destruct W' as (_ & _ & Tc & Wr).
    change (take 0 (zeros NUM_LENGTH_BYTES)) with (@nil byte) in Wr. cbn [app] in Wr. subst rest'.
    assert (recv_one (sr_cipher r1) None wire = Ret (Some (from_byte hd, ct), c1, rest)) as Rc' by now rewrite C1.
    destruct (sync_read_packet _ _ _ _ _ _ _ S1 Rc') as [P1 P2].
    destruct (N.le_gt_cases (len ct + 1) 4000014) as [L|L].
    + destruct (P1 L) as (hd' & r3 & Q & Hd & Cc & Ss). rewrite H in Q. injection Q as -> -> ->.
      unfold payload_view, payload_type, payload_contents. cbn [index nth_error N.to_nat bind].
      split.
      { rewrite !slice_ok by (rewrite len_cons; lia). unfold index. cbn. now rewrite Hd. }
      split.
      { destruct Sh as (l' & pos' & s' & Sh). exists l', pos', s'. destruct r2' as [rc rr rs]. cbn in *. congruence. }
      split; [congruence|assumption].
    + destruct (P2 L) as (r3 & Q & Pc & _ & Ss). rewrite H in Q. injection Q as -> -> ->.
      exists (from_byte hd), ct. split.
      { unfold payload_view, payload_type, payload_contents. rewrite slice_ok by (rewrite len_cons; lia).
        unfold index. cbn -[drop take len]. rewrite len_cons. change (drop 1 (hd :: ct)) with ct.
        now rewrite take_all by lia. }
      split; [assumption|]. split; [congruence|]. congruence.
  - destruct M as [Cut ->]. 
    assert (x1 = Err (end_error e)) as ->.
    { eapply sync_read_end; [eassumption|now rewrite C1|eassumption]. }
    unfold end_error, from_io. split; reflexivity.
  - destruct M as (W' & -> & c1 & rest & Rc). destruct Se as (pb & n & Es & Ln).
    destruct x1 as [p|[k1 s1|y]]; cbn [sync_meaning] in M1.
    + destruct M1 as (? & ? & ? & _ & Q & _). congruence.
    + destruct M1 as [Cut _]. destruct W' as (_ & rest' & _ & W'). rewrite Es in W'.
      destruct W' as (lb & L3 & D & Nn & ->). assert (n = len pb) by lia. subst n.
      destruct Cut as [Cut|(n & c2 & D' & Cut)].
      * rewrite len_app in Cut. lia.
      * rewrite take_app_exact in D' by lia. rewrite drop_app_exact in Cut by lia.
        rewrite D in D'. injection D' as <- <-. rewrite len_app, take_all in Cut by lia. lia.
    + destruct M1 as (n0 & _ & _ & _ & _ & [[-> _]|[-> _]]); auto.
Qed.

(** ** A poll waits only for the transport *)

Lemma poll_session_waits sr n x sr' :
  Forall (fun ev => ev <> Pending) (session_inner sr) -> poll_session sr n = (x, sr') ->
  x <> None /\ Forall (fun ev => ev <> Pending) (session_inner sr').
Proof.
  assert (forall s n y s', Forall (fun ev => ev <> Pending) s -> read s n = (y, s') ->
            Forall (fun ev => ev <> Pending) s') as R.
  { induction s as [|[bs|k|] s IH]; intros m y s' F H; cbn [read] in H.
    - injection H as <- <-. constructor.
    - inversion F; subst. destruct (_ <=? _); injection H as <- <-; [assumption|].
      constructor; [discriminate|assumption].
    - inversion F; subst. injection H as <- <-. assumption.
    - inversion F; subst. congruence. }
  intros F H. destruct sr as [cur [|] s|l pos s]; cbn [poll_session session_read session_inner] in *.
  - destruct (read s n) as [y s1] eqn:Q. injection H as <- <-. split; [discriminate|]. eapply R; eassumption.
  - destruct cur.
    + destruct (read s n) as [y s1] eqn:Q. injection H as <- <-. split; [discriminate|]. eapply R; eassumption.
    + injection H as <- <-. split; [discriminate|assumption].
  - destruct (pos <? len l); [injection H as <- <-; split; [discriminate|assumption]|].
    destruct (poll_script s n) as [y s1] eqn:Q. injection H as <- <-. unfold poll_script in Q.
    destruct s as [|[bs|k|] s]; try (destruct (read _ n) as [z s2] eqn:Q2; injection Q as <- <-; split;
      [discriminate|eapply R; eassumption]).
    inversion F; subst. congruence.
Qed.

Lemma fill_waits : forall fuel sr buf n x sr' buf' n',
  Forall (fun ev => ev <> Pending) (session_inner sr) ->
  fill fuel sr buf n = Ret (x, sr', buf', n') ->
  x <> Waiting /\ Forall (fun ev => ev <> Pending) (session_inner sr').
Proof.
  induction fuel as [|fuel IH]; intros sr buf n x sr' buf' n' F H; [discriminate|]. cbn [fill] in H.
  destruct (n <? len buf).
  - destruct (poll_session sr _) as [y s1] eqn:P. apply poll_session_waits in P; [|assumption].
    destruct P as [P1 P2]. destruct y as [[[|b bs]|k]|]; [| | |congruence].
    + injection H as <- <- <- <-. split; [discriminate|assumption].
    + apply bind_ret_inv in H. destruct H as (b1 & _ & H). now apply IH in H.
    + injection H as <- <- <- <-. split; [discriminate|assumption].
  - injection H as <- <- <- <-. split; [discriminate|assumption].
Qed.

Theorem poll_waits f r x r' f' :
  Forall (fun ev => ev <> Pending) (session_inner (tr_reader r)) ->
  poll_read f r = Ret (x, r', f') -> x <> NotReady.
Proof.
  assert (forall c sr pb n, Forall (fun ev => ev <> Pending) (session_inner sr) ->
    phase_payload c sr pb n = Ret (x, r', f') -> x <> NotReady) as PP.
  { intros c sr pb n F H. unfold phase_payload in H.
    apply bind_ret_inv in H. destruct H as ([[[y sr1] pb1] n1] & Q & H).
    apply fill_waits in Q; [|assumption]. destruct Q as [Q _]. destruct y as [| |y].
    - apply bind_ret_inv in H. destruct H as (m & _ & H).
      apply bind_ret_inv in H. destruct H as ([[z c2] buf] & _ & H). destruct z as [t|z].
      + apply bind_ret_inv in H. destruct H as (p & _ & H). injection H as <- <- <-. discriminate.
      + injection H as <- <- <-. discriminate.
    - congruence.
    - injection H as <- <- <-. discriminate. }
  assert (forall lb n, Forall (fun ev => ev <> Pending) (session_inner (tr_reader r)) ->
    phase_length (tr_cipher r) (tr_reader r) lb n = Ret (x, r', f') -> x <> NotReady) as PL.
  { intros lb n F H. unfold phase_length in H.
    apply bind_ret_inv in H. destruct H as ([[[y sr1] pb1] n1] & Q & H).
    apply fill_waits in Q; [|assumption]. destruct Q as [Q Q']. destruct y as [| |y].
    - apply bind_ret_inv in H. destruct H as ([m c] & _ & H). now apply PP in H.
    - congruence.
    - injection H as <- <- <-. discriminate. }
  intros F. unfold poll_read. destruct f, (tr_state r); try discriminate; intros H; eauto.
Qed.

(** ** Packets read have a header byte *)

Lemma sync_payload r p r' a : sync_read r = Ret (Ok p, r', a) -> exists hd x, p = Decrypted (hd :: x).
Proof.
  intros H. destruct (session_stream Sync (sr_reader r)) as [wire e] eqn:S.
  destruct (sync_read_sound _ _ _ _ _ _ S H) as (hd & x & rest & -> & _). eauto.
Qed.

(** ** Completeness of schedules *)

Lemma recv_all_prefix : forall n m c wire ps qs c1 r1 c2 r2,
  (n <= m)%nat ->
  recv_all c (repeat None n) wire = Ret (Some ps, c1, r1) ->
  recv_all c (repeat None m) wire = Ret (Some qs, c2, r2) -> exists more, qs = ps ++ more.
Proof.
  induction n as [|n IH]; intros m c wire ps qs c1 r1 c2 r2 L P Q.
  - cbn in P. injection P as <- _ _. now exists qs.
  - destruct m as [|m]; [lia|]. cbn [repeat recv_all] in P, Q.
    apply bind_ret_inv in P. destruct P as ([[y c3] r3] & R & P). rewrite R in Q. cbn [bind] in Q.
    destruct y as [y|]; [|discriminate].
    apply bind_ret_inv in P. destruct P as ([[ys c4] r4] & P1 & P). destruct ys as [ys|]; [|discriminate].
    apply bind_ret_inv in Q. destruct Q as ([[zs c5] r5] & Q1 & Q). destruct zs as [zs|]; [|discriminate].
    injection P as <- _ _. injection Q as <- _ _.
    destruct (IH m c3 r3 ys zs c4 r4 c5 r5) as (more & ->); [lia|assumption|assumption|].
    now exists more.
Qed.

Theorem schedule_delivers acts f r c wire n ps c' rest xs r' f' :
  stands r c wire -> future_fits f r ->
  recv_all c (repeat None n) wire = Ret (Some ps, c', rest) ->
  run_schedule acts f r = Ret (xs, r', f') ->
  (session_events (tr_reader r) + n <= polls acts)%nat ->
  exists more, map seen (payloads_of xs) = ps ++ more.
Proof.
  intros S F R H P. pose proof (schedule_complete _ _ _ _ _ _ _ _ _ _ _ _ S F R H P) as L.
  destruct (schedule_sound _ _ _ _ _ _ _ _ S F H) as (c2 & rest2 & Q & _).
  eapply recv_all_prefix; eassumption.
Qed.

(** ** One write, one packet *)

Theorem write_any_packet fl p pl p' :
  write_any fl p pl = Ret (Ok tt, p') ->
  exists t contents pkt,
    payload_view pl = Ret (t, contents) /\ len pkt = len contents + 20 /\
    written (pw_writer p') = written (pw_writer p) ++ pkt /\
    (len contents < 2 ^ 24 -> recv_one (pw_cipher p) None pkt = Ret (Some (t, contents), pw_cipher p', [])).
Proof.
  intros H. destruct (write_any_sound _ _ _ _ _ H) as (t & ct & pkt & n & V & En & _ & W & _).
  exists t, ct, pkt. split; [assumption|]. split; [now apply encrypt_vec_len in En|]. split; [auto|].
  intros L. rewrite <- (app_nil_r pkt). eapply recv_one_sent; eassumption.
Qed.

(** ** Schedules *)

Lemma run_schedule_app : forall a1 a2 f r,
  run_schedule (a1 ++ a2) f r =
  let! (xs, r1, f1) := run_schedule a1 f r in
  let! (ys, r2, f2) := run_schedule a2 f1 r1 in
  Ret (xs ++ ys, r2, f2).
Proof.
  induction a1 as [|[|] a1 IH]; intros a2 f r; cbn [app run_schedule bind].
  - now destruct (run_schedule a2 f r) as [[[ys r2] f2]| |].
  - destruct (poll_read f r) as [[[x r1] f1]| |]; [|reflexivity|reflexivity]. cbn [bind]. rewrite IH.
    destruct (run_schedule a1 f1 r1) as [[[xs r2] f2]| |]; [|reflexivity|reflexivity]. cbn [bind].
    destruct (run_schedule a2 f2 r2) as [[[ys r3] f3]| |]; [|reflexivity|reflexivity]. cbn [bind].
    now destruct x.
  - apply IH.
Qed.

Theorem reachable_poll acts c sr xs r f k :
  run_schedule acts FreshFuture (TReader c sr init_reading_length) = Ret (xs, r, f) ->
  counted k c -> room (k + N.of_nat (polls acts) + 1) ->
  exists x r' f', poll_read f r = Ret (x, r', f') /\
    (x = NotReady -> (session_events (tr_reader r') < session_events (tr_reader r))%nat) /\
    (Forall (fun ev => ev <> Pending) (session_inner (tr_reader r)) -> x <> NotReady).
Proof.
  intros H C R. pose proof (fresh_stands c sr) as St.
  destruct (schedule_total (acts ++ [DoPoll]) FreshFuture _ _ _ k St I C) as (ys & r2 & f2 & Q).
  { unfold polls in *. rewrite filter_app, app_length. cbn [filter length]. intros Ho. specialize (R Ho). lia. }
  rewrite run_schedule_app, H in Q. cbn [bind run_schedule] in Q.
  apply bind_ret_inv in Q. destruct Q as (z & Q & _).
  apply bind_ret_inv in Q. destruct Q as ([[x r'] f'] & P & _).
  exists x, r', f'. split; [assumption|]. split.
  - intros ->. destruct (schedule_sound acts FreshFuture _ _ _ _ _ _ St I H) as (c' & rest & _ & S' & F' & _).
    destruct (poll_sound _ _ _ _ _ _ _ S' F' P) as [[[_ O] _] _]. exact O.
  - intros Fo. eapply poll_waits; eassumption.
Qed.

Theorem reachable_failure acts c sr xs r f e r' f' :
  run_schedule acts FreshFuture (TReader c sr init_reading_length) = Ret (xs, r, f) ->
  poll_read f r = Ret (Ready (Err (Internal e)), r', f') ->
  e = Decryption /\
  forall n, run_schedule (repeat DoPoll n) FreshFuture r' =
            Ret (repeat (Err (Internal Decryption)) n, r', FreshFuture).
Proof.
  intros H P. pose proof (fresh_stands c sr) as St.
  destruct (schedule_sound acts FreshFuture _ _ _ _ _ _ St I H) as (c' & rest & _ & S' & F' & _).
  destruct (poll_sound _ _ _ _ _ _ _ S' F' P) as [[(_ & -> & _) _] _]. split; [reflexivity|].
  pose proof (failure_sticks _ _ _ _ _ _ _ S' F' P) as Q.
  induction n as [|n IH]; [reflexivity|]. cbn [repeat run_schedule]. rewrite Q. cbn [bind]. now rewrite IH.
Qed.

Theorem into_inner_at_boundary acts c sr xs r f :
  run_schedule acts FreshFuture (TReader c sr init_reading_length) = Ret (xs, r, f) ->
  tr_state r = init_reading_length ->
  let '(c', sr') := tokio_reader_into_inner r in
  recv_all c (repeat None (length (payloads_of xs))) (session_content sr) =
    Ret (Some (map seen (payloads_of xs)), c', session_content sr').
Proof.
  intros H T. destruct (schedule_sound acts FreshFuture _ _ _ _ _ _ (fresh_stands c sr) I H) as (c' & rest & Q & S' & _).
  cbn [tokio_reader_into_inner]. rewrite Q. unfold stands in S'. rewrite T in S'. cbn [init_reading_length] in S'.
  destruct S' as (_ & _ & -> & ->). reflexivity.
Qed.

Lemma read_many_sync : forall n r xs r', read_many n (RSync r) = Ret (xs, r') -> exists r'', r' = RSync r''.
Proof.
  induction n as [|n IH]; intros r xs r' H; cbn [read_many read_any] in H.
  - injection H as <- <-. eauto.
  - apply bind_ret_inv in H. destruct H as ([x r1] & Q & H).
    apply bind_ret_inv in Q. destruct Q as ([[y r2] a] & _ & Q). injection Q as <- <-.
    apply bind_ret_inv in H. destruct H as ([ys r3] & Q & H). injection H as <- <-. now apply IH in Q.
Qed.

Theorem awaited_write p pl f p1 n :
  start_write p pl = Ret (Ok f, p1) -> (hold_ups (pw_writer p) < n)%nat ->
  exists x p2, polls_write n f p1 = (Some x, p2) /\ tokio_write p pl = Ret (x, p2).
Proof.
  intros S L. unfold start_write in S. unfold tokio_write.
  apply bind_ret_inv in S. destruct S as (ct & Ct & S). rewrite Ct. cbn [bind].
  apply bind_ret_inv in S. destruct S as (t & Tt & S). rewrite Tt. cbn [bind].
  cbn zeta in *. apply bind_ret_inv in S. destruct S as ([[x c] pb] & En & S). rewrite En. cbn [bind].
  destruct x as [u|y]; [|discriminate]. injection S as <- <-.
  rewrite polls_write_is_write by assumption. unfold finish_write. cbn [pw_writer pw_cipher].
  destruct (write_flush Tokio (pw_writer p) pb) as [[v|kd] w]; eauto.
Qed.

End WithLaws.
