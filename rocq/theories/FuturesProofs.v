(** * FuturesProofs: the tokio reader under arbitrary polling, cancellation and transport behaviour *)
From Coq Require Import List NArith Bool Lia ZArith.
From Coq.Strings Require Import Byte.
From Coq Require Import ZifyBool ZifyNat ZifyN.
From Verif Require Import Base BaseFacts Env FsChacha Spec FsChachaProofs Cipher CipherFacts
  Histories CipherProofs Handshake SpecHandshake HsDriver HandshakeProofs HsRunProofs
  Transport Io SpecIo Futures Sessions TransportProofs NoFuel IoProofs.
Import ListNotations.
Local Open Scope N_scope.

(** ** One read *)

Lemma read_shape s n x s' :
  read s n = (x, s') -> 0 < n ->
  match x with
  | Data bs => content s = bs ++ content s' /\ len bs <= n /\
      (len bs < n -> (length s' < length s)%nat \/ (s = [] /\ bs = [] /\ s' = []))
  | ReadErr _ => content s = content s' /\ (length s' < length s)%nat
  end /\ (length s' <= length s)%nat.
Proof.
  intros H Hn. revert x s' H. induction s as [|[c|k|] s IH]; intros x s'; cbn [read content].
  - intros H; injection H as <- <-. rewrite len_nil. repeat split; auto; lia.
  - destruct (len c <=? n) eqn:L; intros H; injection H as <- <-; cbn [length content].
    + repeat split; auto; lia.
    + rewrite len_take, app_assoc, take_drop. repeat split; auto; lia.
  - intros H; injection H as <- <-. cbn [length]. repeat split; auto; lia.
  - intros H. apply IH in H. destruct H as [H L]. cbn [length]. split; [|lia].
    destruct x as [bs|k].
    + destruct H as (H1 & H2 & H3). repeat split; auto. intros Q. left.
      destruct (H3 Q) as [Q1|(-> & _ & ->)]; cbn [length] in *; lia.
    + destruct H as [H1 H2]. split; [assumption|lia].
Qed.

Definition weight (sr : session) : nat :=
  session_events sr + match session_leftover sr with [] => 0 | _ => 1 end.

Lemma poll_shape sr n x sr' :
  poll_session sr n = (x, sr') -> 0 < n ->
  (session_events sr' <= session_events sr)%nat /\
  match x with
  | Some (Data []) =>
      session_content sr = session_content sr' /\
      ((session_events sr' < session_events sr)%nat \/ session_content sr' = [])
  | Some (Data bs) => session_content sr = bs ++ session_content sr' /\ len bs <= n /\
      (len bs < n -> (weight sr' < weight sr)%nat)
  | Some (ReadErr _) | None =>
      session_content sr = session_content sr' /\ (session_events sr' < session_events sr)%nat
  end.
Proof.
  intros H Hn.
  assert (Inner : forall s y s', read s n = (y, s') ->
    (length s' <= length s)%nat /\
    match y with
    | Data [] => content s = content s' /\ ((length s' < length s)%nat \/ content s' = [])
    | Data bs => content s = bs ++ content s' /\ len bs <= n /\ (len bs < n -> (length s' < length s)%nat)
    | ReadErr _ => content s = content s' /\ (length s' < length s)%nat
    end).
  { intros s y s' R. apply read_shape in R; [|assumption]. destruct R as [R L]. split; [assumption|].
    destruct y as [[|b bs]|k]; [| |assumption].
    - destruct R as (R1 & R2 & R3). split; [assumption|]. rewrite len_nil in R3.
      destruct (R3 Hn) as [|(-> & _ & ->)]; auto.
    - destruct R as (R1 & R2 & R3). repeat split; auto. intros Q.
      destruct (R3 Q) as [|(_ & K & _)]; [assumption|discriminate]. }
  destruct sr as [cur [|] s|l pos s]; cbn [poll_session session_read] in H.
  - destruct (read s n) as [y s'] eqn:R. injection H as <- <-. apply Inner in R.
    unfold weight. cbn [session_events session_content session_leftover].
    destruct y as [[|b bs]|k]; intuition lia.
  - destruct cur as [|b cur].
    + destruct (read s n) as [y s'] eqn:R. injection H as <- <-. apply Inner in R.
      unfold weight. cbn [session_events session_content session_leftover app].
      destruct y as [[|b bs]|k]; intuition lia.
    + injection H as <- <-. set (cur' := b :: cur).
      assert (0 < len cur') by (unfold cur'; rewrite len_cons; lia).
      unfold weight. cbn [session_events session_content session_leftover]. split; [lia|].
      destruct (take n cur') as [|x tl] eqn:T.
      { apply (f_equal len) in T. rewrite len_take, len_nil in T. lia. }
      rewrite <- T. clear x tl T. rewrite app_assoc, take_drop, len_take.
      split; [reflexivity|]. split; [lia|]. intros Q. rewrite drop_all by lia. unfold cur'. lia.
  - destruct (pos <? len l) eqn:P.
    + injection H as <- <-. set (rem := drop pos l) in *.
      assert (len rem = len l - pos) as Lr by (unfold rem; now rewrite len_drop).
      unfold weight. cbn [session_events session_content session_leftover]. split; [lia|].
      rewrite <- drop_drop. fold rem.
      destruct (take (N.min (len rem) n) rem) as [|x tl] eqn:T.
      { apply (f_equal len) in T. rewrite len_take, len_nil in T. lia. }
      rewrite <- T. clear x tl T. rewrite app_assoc, take_drop, len_take.
      split; [reflexivity|]. split; [lia|]. intros Q. rewrite drop_all by lia.
      destruct rem; [rewrite len_nil in Lr; lia|]. lia.
    + unfold weight. cbn [session_events session_content session_leftover].
      rewrite (drop_all pos l) in * by lia.
      destruct (poll_script s n) as [y s'] eqn:R. injection H as <- <-.
      cbn [session_events session_content session_leftover]. rewrite (drop_all pos l) by lia. cbn [app].
      destruct s as [|ev s]; [|destruct ev as [c|k|]].
      1-3: cbn [poll_script] in R.
      * cbn [read] in R. injection R as <- <-. cbn. auto.
      * destruct (read (Chunk c :: s) n) as [y0 s0] eqn:R0. injection R as <- <-. apply Inner in R0.
        destruct y0 as [[|b bs]|k]; intuition lia.
      * cbn [read] in R. injection R as <- <-. cbn [content length]. split; [lia|]. split; [reflexivity|lia].
      * cbn [poll_script] in R. injection R as <- <-. cbn [content length].
        split; [lia|]. split; [reflexivity|lia].
Qed.

Section WithEnv.
Context {E : Env}.

(** ** One [while] loop *)

Lemma weight_fuel sr : (weight sr < fill_fuel sr)%nat.
Proof. destruct sr; unfold weight; cbn [session_events fill_fuel]; destruct (session_leftover _); lia. Qed.

Lemma fill_shape : forall fuel sr buf n,
  n <= len buf -> (S (weight sr) < fuel)%nat ->
  exists x sr' buf' n', fill fuel sr buf n = Ret (x, sr', buf', n') /\
    len buf' = len buf /\ n <= n' <= len buf /\
    take n buf ++ session_content sr = take n' buf' ++ session_content sr' /\
    (session_events sr' <= session_events sr)%nat /\
    match x with
    | Filled => n' = len buf
    | Waiting => n' < len buf /\ (session_events sr' < session_events sr)%nat
    | FillErr _ => n' < len buf /\
        ((session_events sr' < session_events sr)%nat \/ session_content sr' = [])
    end.
Proof.
  induction fuel as [|fuel IH]; intros sr buf n Hn Hf; [lia|]. cbn [fill].
  destruct (n <? len buf) eqn:L.
  2:{ do 4 eexists. split; [reflexivity|]. repeat split; auto; lia. }
  destruct (poll_session sr (len buf - n)) as [x sr1] eqn:P.
  apply poll_shape in P; [|lia]. destruct P as [Ev P].
  destruct x as [[[|b bs]|k]|].
  - destruct P as [P1 P2]. do 4 eexists. split; [reflexivity|]. rewrite P1.
    repeat split; auto; lia.
  - set (d := b :: bs) in *. destruct P as (P1 & P2 & P3).
    assert (0 < len d) by (unfold d; rewrite len_cons; lia).
    rewrite splice_ok by lia. cbn [bind].
    set (buf1 := take n buf ++ d ++ drop (n + len d) buf).
    assert (len buf1 = len buf) as Lb by (unfold buf1; autorewrite with len; lia).
    assert (take (n + len d) buf1 = take n buf ++ d) as Tb.
    { unfold buf1. rewrite app_assoc, take_app_exact; [reflexivity|]. autorewrite with len. lia. }
    destruct (N.lt_ge_cases (len d) (len buf - n)) as [Q|Q].
    + specialize (P3 Q).
      destruct (IH sr1 buf1 (n + len d)) as (x & sr' & buf' & n' & F & G1 & G2 & G3 & G4 & G5); [lia|lia|].
      rewrite F. do 4 eexists. split; [reflexivity|]. rewrite G1. split; [lia|]. split; [lia|].
      rewrite <- G3, Tb, P1, <- app_assoc. split; [reflexivity|]. split; [lia|].
      destruct x; rewrite Lb in *; intuition lia.
    + destruct fuel as [|fuel]; [lia|]. cbn [fill].
      rewrite (proj2 (N.ltb_ge _ _)) by lia.
      do 4 eexists. split; [reflexivity|]. rewrite Tb, P1, <- app_assoc.
      repeat split; auto; lia.
  - destruct P as [P1 P2]. do 4 eexists. split; [reflexivity|]. rewrite P1.
    repeat split; auto; lia.
  - destruct P as [P1 P2]. do 4 eexists. split; [reflexivity|]. rewrite P1.
    repeat split; auto; lia.
Qed.

Lemma fill_fuel_shape sr buf n :
  n <= len buf ->
  exists x sr' buf' n', fill (fill_fuel sr) sr buf n = Ret (x, sr', buf', n') /\
    len buf' = len buf /\ n <= n' <= len buf /\
    take n buf ++ session_content sr = take n' buf' ++ session_content sr' /\
    (session_events sr' <= session_events sr)%nat /\
    match x with
    | Filled => n' = len buf
    | Waiting => n' < len buf /\ (session_events sr' < session_events sr)%nat
    | FillErr _ => n' < len buf /\
        ((session_events sr' < session_events sr)%nat \/ session_content sr' = [])
    end.
Proof.
  intros H. apply fill_shape; [assumption|].
  destruct sr; unfold weight; cbn [session_events fill_fuel]; destruct (session_leftover _); lia.
Qed.

(** ** What a reader state stands for *)

(** The reader stands somewhere inside the packet that begins the byte string [wire], [c] being the
    cipher at the beginning of that packet. *)
Definition stands (r : tokio_reader) (c : cipher) (wire : bytes) : Prop :=
  match tr_state r with
  | ReadingLength lb n =>
      len lb = 3 /\ n <= 3 /\ tr_cipher r = c /\ wire = take n lb ++ session_content (tr_reader r)
  | ReadingPayload pb n => exists lb,
      len lb = 3 /\ decrypt_packet_len c lb = Ret (len pb, tr_cipher r) /\ n <= len pb /\
      wire = lb ++ take n pb ++ session_content (tr_reader r)
  end.

(** A future matches the reader it borrows. *)
Definition future_fits (f : read_future) (r : tokio_reader) : Prop :=
  match f, tr_state r with
  | AtLength, ReadingPayload _ _ | AtPayload, ReadingLength _ _ => False
  | _, _ => True
  end.

(** Resuming a suspended future is the same as dropping it and calling [read] again. *)
Theorem resume_is_restart f r : future_fits f r -> poll_read f r = poll_read FreshFuture r.
Proof. unfold future_fits, poll_read. destruct f, (tr_state r); tauto. Qed.

Definition io_error (e : perror) : Prop := match e with Io _ _ => True | Internal _ => False end.

(** ** Decrypting one body *)

Lemma decrypt_body {aad} c ct x c2 buf :
  17 <= len ct ->
  decrypt c ct (zeros (len ct - 16)) aad = Ret (x, c2, buf) ->
  match x with
  | Ok t => exists hd contents, buf = hd :: contents /\ t = from_byte hd /\ len contents = len ct - 17
  | Err e => e = Decryption /\ c2 = c
  end.
Proof.
  intros L. destruct (split_tag ct L) as (m & tg & -> & L1 & L2 & L3).
  rewrite decrypt_closed by (rewrite ?len_zeros; lia).
  intros H. apply bind_ret_inv in H. destruct H as ([[pt|] pc] & D & H).
  - apply fp_decrypt_some in D. destruct D as (_ & D & _).
    assert (len pt = len m) as Lp by (subst pt; apply len_xor_with).
    injection H as <- _ <-. rewrite drop_all by (rewrite len_zeros; lia). rewrite app_nil_r.
    destruct pt as [|hd contents]; [rewrite len_nil in Lp; lia|].
    exists hd, contents. rewrite len_cons in Lp. rewrite len_app in *. repeat split; lia.
  - injection H as <- <- _. auto.
Qed.

(** ** Polls *)

(** What a completed poll says about the stream. *)
Definition poll_outcome (x : poll (result perror payload)) (r r' : tokio_reader) (c : cipher) (wire : bytes)
  : Prop :=
  match x with
  | NotReady => stands r' c wire /\
      (session_events (tr_reader r') < session_events (tr_reader r))%nat
  | Ready (Err (Io _ _)) => stands r' c wire /\
      ((session_events (tr_reader r') < session_events (tr_reader r))%nat \/
       cut_short c wire)
  | Ready (Err (Internal e)) => stands r' c wire /\ e = Decryption /\
      (exists c1 rest, recv_one c None wire = Ret (None, c1, rest)) /\
      exists pb, tr_state r' = ReadingPayload pb (len pb)
  | Ready (Ok p) => exists hd contents c1 rest,
      p = Decrypted (hd :: contents) /\
      recv_one c None wire = Ret (Some (from_byte hd, contents), c1, rest) /\
      stands r' c1 rest /\ tr_state r' = init_reading_length
  end /\ (session_events (tr_reader r') <= session_events (tr_reader r))%nat.

Lemma phase_payload_sound c c0 sr pb n lb wire x r' f' :
  len lb = 3 -> decrypt_packet_len c0 lb = Ret (len pb, c) -> n <= len pb ->
  wire = lb ++ take n pb ++ session_content sr ->
  phase_payload c sr pb n = Ret (x, r', f') ->
  poll_outcome x (TReader c sr (ReadingPayload pb n)) r' c0 wire /\ future_fits f' r' /\
  (x <> NotReady -> f' = FreshFuture).
Proof.
  intros Hl Hd Hn -> H. unfold phase_payload in H.
  destruct (fill_fuel_shape sr pb n Hn) as (y & sr' & pb' & n' & F & G1 & G2 & G3 & G4 & G5).
  rewrite F in H. cbn [bind] in H. rewrite G3.
  assert (17 <= len pb) as Hpb by (apply packet_len_range in Hd; [lia|assumption]).
  destruct y.
  - subst n'. rewrite <- G1 in *. rewrite take_all by lia.
    unfold decryption_buffer_len in H. change NUM_TAG_BYTES with 16 in H.
    rewrite sub_w_ok in H by lia. cbn [bind] in H.
    apply bind_ret_inv in H. destruct H as ([[z c2] buf] & D & H).
    assert (R : forall c0 lb, len lb = 3 -> decrypt_packet_len c0 lb = Ret (len pb', c) ->
      recv_one c0 None (lb ++ pb' ++ session_content sr') =
      match z with
      | Ok t => Ret (Some (t, drop 1 buf), c2, session_content sr')
      | Err _ => Ret (None, c2, session_content sr')
      end).
    { clear - D Hpb. intros c0 lb Hl Hd. unfold recv_one.
      rewrite (proj2 (N.ltb_ge _ _)) by (rewrite len_app; lia).
      rewrite take_app_exact by (now symmetry). rewrite Hd. cbn [bind].
      rewrite drop_app_exact by (now symmetry).
      rewrite (proj2 (N.ltb_ge _ _)) by (rewrite len_app; lia).
      rewrite take_app_exact, drop_app_exact by reflexivity. rewrite D. cbn [bind].
      destruct z; reflexivity. }
    specialize (R c0 lb Hl Hd).
    pose proof (decrypt_body c pb' z c2 buf Hpb D) as B.
    destruct z as [t|e].
    + destruct B as (hd & contents & -> & -> & Lc). change (drop 1 (hd :: contents)) with contents in R.
      unfold payload_decrypted in H. rewrite andb_false_r in H. cbn [bind] in H.
      injection H as <- <- <-. split; [|split; [exact I|reflexivity]]. split; [|assumption].
      exists hd, contents, c2, (session_content sr'). split; [reflexivity|]. split; [assumption|].
      split; [|reflexivity]. unfold stands, init_reading_length. cbn [tr_state tr_reader tr_cipher].
      change (len (zeros NUM_LENGTH_BYTES)) with 3. rewrite take_0. repeat split. lia.
    + destruct B as [-> ->]. injection H as <- <- <-. split; [|split; [exact I|reflexivity]].
      split; [|assumption]. split; [|split; [reflexivity|split; [eauto|exists pb'; reflexivity]]].
      unfold stands. cbn [tr_state tr_reader tr_cipher]. exists lb. rewrite take_all by lia.
      repeat split; auto; lia.
  - destruct G5 as [G5 G6]. injection H as <- <- <-. split; [|split; [exact I|congruence]].
    split; [|assumption]. split; [|assumption].
    unfold stands. cbn [tr_state tr_reader tr_cipher]. exists lb. rewrite G1. repeat split; auto; lia.
  - destruct G5 as [G5 G6]. injection H as <- <- <-.
    assert (exists k s, e = Io k s) as (k & s & ->).
    { clear - F. revert F. generalize (fill_fuel sr). intros fuel. revert sr pb n.
      induction fuel as [|fuel IH]; intros sr pb n; cbn [fill]; [discriminate|].
      destruct (n <? len pb); [|discriminate].
      destruct (poll_session _ _) as [[[[|b bs]|k]|] sr1]; try discriminate.
      - intros H; injection H as <- _ _ _. unfold from_io. eauto.
      - intros H. apply bind_ret_inv in H. destruct H as (b' & _ & H). eauto.
      - intros H; injection H as <- _ _ _. unfold from_io. eauto. }
    split; [|split; [exact I|reflexivity]]. split; [|assumption]. split.
    + unfold stands. cbn [tr_state tr_reader tr_cipher]. exists lb. rewrite G1. repeat split; auto; lia.
    + destruct G6 as [G6|G6]; [now left|right]. rewrite G6, app_nil_r. right.
      rewrite take_app_exact, drop_app_exact by (now symmetry).
      exists (len pb), c. split; [assumption|]. rewrite len_take. lia.
Qed.

Lemma fill_err fuel : forall sr pb n e sr' pb' n',
  fill fuel sr pb n = Ret (FillErr e, sr', pb', n') -> exists k, e = from_io k.
Proof.
  induction fuel as [|fuel IH]; intros sr pb n e sr' pb' n'; cbn [fill]; [discriminate|].
  destruct (n <? len pb); [|discriminate].
  destruct (poll_session _ _) as [[[[|b bs]|k]|] sr1]; try discriminate.
  - intros H; injection H as <- _ _ _. eauto.
  - intros H. apply bind_ret_inv in H. destruct H as (b' & _ & H). eauto.
  - intros H; injection H as <- _ _ _. eauto.
Qed.

Lemma phase_length_sound c sr lb n wire x r' f' :
  len lb = 3 -> n <= 3 -> wire = take n lb ++ session_content sr ->
  phase_length c sr lb n = Ret (x, r', f') ->
  poll_outcome x (TReader c sr (ReadingLength lb n)) r' c wire /\ future_fits f' r' /\
  (x <> NotReady -> f' = FreshFuture).
Proof.
  intros Hl Hn -> H. unfold phase_length in H.
  destruct (fill_fuel_shape sr lb n) as (y & sr' & lb' & n' & F & G1 & G2 & G3 & G4 & G5); [lia|].
  rewrite F in H. cbn [bind] in H. rewrite G3.
  destruct y.
  - subst n'. rewrite <- G1 in *. rewrite take_all by lia.
    apply bind_ret_inv in H. destruct H as ([m c1] & D & H).
    eapply (phase_payload_sound c1 c sr' (zeros m) 0 lb') in H;
      [|lia|now rewrite len_zeros|lia|rewrite take_0; reflexivity].
    destruct H as ([H1 H2] & H3 & H4). cbn [tr_reader] in H2. split; [|auto].
    unfold poll_outcome in *. cbn [tr_reader] in *. split; [|lia].
    destruct x as [[p|[k s|e]]|]; auto; intuition lia.
  - destruct G5 as [G5 G6]. injection H as <- <- <-. split; [|split; [exact I|congruence]].
    split; [|assumption]. split; [|assumption].
    unfold stands. cbn [tr_state tr_reader tr_cipher]. repeat split; auto; lia.
  - destruct G5 as [G5 G6]. injection H as <- <- <-. apply fill_err in F. destruct F as (k & ->).
    split; [|split; [exact I|reflexivity]]. split; [|assumption]. split.
    + unfold stands. cbn [tr_state tr_reader tr_cipher]. repeat split; auto; lia.
    + destruct G6 as [G6|G6]; [now left|right]. rewrite G6, app_nil_r. left. rewrite len_take. lia.
Qed.

Theorem poll_sound f r c wire x r' f' :
  stands r c wire -> future_fits f r -> poll_read f r = Ret (x, r', f') ->
  poll_outcome x r r' c wire /\ future_fits f' r' /\ (x <> NotReady -> f' = FreshFuture).
Proof.
  intros S Fit H. rewrite (resume_is_restart f r Fit) in H.
  destruct r as [c1 sr st]. unfold stands, poll_read in *. cbn [tr_state tr_reader tr_cipher] in *.
  destruct st as [lb n|pb n].
  - destruct S as (S1 & S2 & <- & S4). eapply phase_length_sound; eassumption.
  - destruct S as (lb & S1 & S2 & S3 & S4). eapply phase_payload_sound; eassumption.
Qed.

(** A packet costs one step of each counter. *)
Lemma decrypt_after_len k c lb n c1 ct buf aad :
  len lb = 3 -> counted k c -> room k -> decrypt_packet_len c lb = Ret (n, c1) ->
  counted (k + 1) c1 /\ exists r c2 b, decrypt c1 ct buf aad = Ret (r, c2, b) /\ counted (k + 1) c2.
Proof.
  intros Hl Hc Hr D.
  destruct (decrypt_len_ret k c lb Hl Hc Hr) as (n' & c1' & D' & Hc1). rewrite D in D'.
  injection D' as <- <-. split; [assumption|].
  rewrite decrypt_packet_len_closed in D by assumption.
  apply bind_ret_inv in D. destruct D as ([out lc] & Hf & D). injection D as _ <-.
  set (c1 := Cipher _ _) in *.
  destruct (N.lt_ge_cases (len ct) 17) as [H|H].
  { rewrite decrypt_small by assumption. eauto 6. }
  destruct (split_tag ct H) as (m & t & -> & H1 & H2 & _).
  destruct (N.lt_ge_cases (len buf) (len m)) as [Hb|Hb].
  - rewrite decrypt_buffer_small by assumption. eauto 6.
  - rewrite decrypt_closed by lia.
    destruct (fp_decrypt_ret k c (aad_or_default aad) m t Hc Hr) as (r & pc & H3 & H4).
    change (packet_cipher c1) with (packet_cipher c). rewrite H3. cbn [bind].
    assert (counted (k + 1) (Cipher (length_cipher c1) pc)).
    { intros Ho. destruct (H4 Ho) as (_ & _ & ?), (Hc1 Ho) as (? & ? & _). auto. }
    destruct r; eauto 6.
Qed.

Lemma recv_one_total k c aad wire :
  counted k c -> room k ->
  exists p c1 rest, recv_one c aad wire = Ret (p, c1, rest) /\ counted (k + 1) c1.
Proof.
  intros Hc Hr. assert (counted (k + 1) c) by (eapply counted_mono; [|eassumption]; lia).
  unfold recv_one. destruct (len wire <? 3) eqn:L; [eauto 6|].
  assert (len (take 3 wire) = 3) as L3 by (rewrite len_take; lia).
  destruct (decrypt_len_ret k c (take 3 wire) L3 Hc Hr) as (n & c1 & D & Hc1). rewrite D. cbn [bind].
  destruct (len (drop 3 wire) <? n); [eauto 6|].
  destruct (decrypt_after_len k c _ _ _ (take n (drop 3 wire)) (zeros (n - 16)) aad L3 Hc Hr D)
    as (_ & r & c2 & b & -> & Hc2). cbn [bind]. destruct r; eauto 6.
Qed.

(** A poll panics only when a counter overflows with overflow checks on. *)
Theorem poll_total f r c wire k :
  stands r c wire -> future_fits f r -> counted k c -> room k ->
  exists x r' f', poll_read f r = Ret (x, r', f').
Proof.
  intros S Fit Hc Hr. rewrite (resume_is_restart f r Fit).
  destruct r as [c1 sr st]. unfold stands, poll_read in *. cbn [tr_state tr_reader tr_cipher] in *.
  assert (P : forall c1 sr lb pb n, len lb = 3 -> decrypt_packet_len c lb = Ret (len pb, c1) -> n <= len pb ->
     exists x r' f', phase_payload c1 sr pb n = Ret (x, r', f')).
  { clear S. clear sr c1 st Fit. intros c1 sr lb pb n Hl Hd Hn. unfold phase_payload.
    assert (17 <= len pb) as Hpb by (apply packet_len_range in Hd; [lia|assumption]).
    destruct (fill_fuel_shape sr pb n Hn) as (y & sr' & pb' & n' & F & G1 & G2 & G3 & G4 & G5).
    rewrite F. cbn [bind].
    destruct y; [|eauto..].
    unfold decryption_buffer_len. change NUM_TAG_BYTES with 16.
    rewrite sub_w_ok by lia. cbn [bind].
    destruct (decrypt_after_len k c lb (len pb) c1 pb' (zeros (len pb' - 16)) None Hl Hc Hr Hd)
      as (_ & z & c2 & buf & D & _).
    rewrite D. cbn [bind]. apply decrypt_body in D; [|lia]. destruct z as [t|e]; [|eauto].
    destruct D as (hd & contents & -> & _). unfold payload_decrypted. rewrite andb_false_r. cbn [bind].
    eauto. }
  destruct st as [lb n|pb n].
  - destruct S as (S1 & S2 & -> & S4). unfold phase_length.
    destruct (fill_fuel_shape sr lb n) as (y & sr' & lb' & n' & F & G1 & G2 & G3 & G4 & G5); [lia|].
    rewrite F. cbn [bind].
    destruct y; [|eauto..].
    destruct (decrypt_len_ret k c lb' ltac:(lia) Hc Hr) as (m & c2 & D & Hc2). rewrite D. cbn [bind].
    eapply P; [|rewrite len_zeros; exact D|]; lia.
  - destruct S as (lb & S1 & S2 & S3 & S4). eapply P; eassumption.
Qed.

(** After an authentication failure every further poll gives the same and changes nothing. *)
Theorem failure_sticks f r c wire e r' f' :
  stands r c wire -> future_fits f r ->
  poll_read f r = Ret (Ready (Err (Internal e)), r', f') ->
  poll_read FreshFuture r' = Ret (Ready (Err (Internal e)), r', FreshFuture).
Proof.
  intros S Fit H. destruct (poll_sound _ _ _ _ _ _ _ S Fit H) as ([(S' & -> & _ & pb & St) _] & _ & _).
  rewrite (resume_is_restart f r Fit) in H.
  assert (P : forall c1 sr pb n, phase_payload c1 sr pb n = Ret (Ready (Err (Internal Decryption)), r', f') ->
    17 <= len pb -> n <= len pb ->
    phase_payload (tr_cipher r') (tr_reader r') (match tr_state r' with ReadingPayload p _ => p | _ => [] end)
      (match tr_state r' with ReadingPayload _ n => n | _ => 0 end) =
    Ret (Ready (Err (Internal Decryption)), r', FreshFuture)).
  { clear. intros c1 sr pb n H Hpb Hn. unfold phase_payload in H.
    destruct (fill_fuel_shape sr pb n Hn) as (y & sr' & pb' & n' & F & G1 & G2 & G3 & G4 & G5).
    rewrite F in H. cbn [bind] in H. destruct y.
    2:{ discriminate. }
    2:{ apply fill_err in F. destruct F as (k & ->). discriminate. }
    apply bind_ret_inv in H. destruct H as (m & Hm & H).
    pose proof Hm as Hm'.
    unfold decryption_buffer_len in Hm'. change NUM_TAG_BYTES with 16 in Hm'.
    rewrite sub_w_ok in Hm' by lia. injection Hm' as <-.
    apply bind_ret_inv in H. destruct H as ([[z c2] buf] & D & H).
    assert (17 <= len pb') as Hpb' by lia.
    pose proof (decrypt_body _ _ _ _ _ Hpb' D) as B. destruct z as [t|e].
    { apply bind_ret_inv in H. destruct H as (p & _ & H). discriminate. }
    destruct B as [-> ->]. injection H as <- _. cbn [tr_cipher tr_reader tr_state].
    unfold phase_payload.
    assert (fill (fill_fuel sr') sr' pb' n' = Ret (Filled, sr', pb', n')) as Fl.
    { destruct sr'; cbn [fill_fuel fill]; rewrite (proj2 (N.ltb_ge _ _)) by lia; reflexivity. }
    rewrite Fl. cbn [bind]. rewrite Hm. cbn [bind]. rewrite D. reflexivity. }
  destruct r as [c1 sr st]. unfold stands, poll_read in *. cbn [tr_state tr_reader tr_cipher] in *.
  rewrite St in *. destruct st as [lb n|pb0 n].
  - destruct S as (S1 & S2 & <- & S4). unfold phase_length in H.
    destruct (fill_fuel_shape sr lb n) as (y & sr' & lb' & n' & F & G1 & G2 & G3 & G4 & G5); [lia|].
    rewrite F in H. cbn [bind] in H. destruct y.
    2:{ discriminate. }
    2:{ apply fill_err in F. destruct F as (k & ->). discriminate. }
    apply bind_ret_inv in H. destruct H as ([m c2] & D & H).
    apply packet_len_range in D; [|lia].
    eapply P; [exact H|rewrite len_zeros; lia|lia].
  - destruct S as (lb & S1 & S2 & S3 & S4). apply packet_len_range in S2; [|assumption].
    eapply P; [exact H|lia|lia].
Qed.

(** ** Schedules *)

Theorem schedule_sound : forall acts f r c wire xs r' f',
  stands r c wire -> future_fits f r ->
  run_schedule acts f r = Ret (xs, r', f') ->
  exists c' rest,
    recv_all c (repeat None (length (payloads_of xs))) wire =
      Ret (Some (map seen (payloads_of xs)), c', rest) /\
    stands r' c' rest /\ future_fits f' r' /\
    Forall (fun p => exists hd l, p = Decrypted (hd :: l)) (payloads_of xs).
Proof.
  induction acts as [|[|] acts IH]; intros f r c wire xs r' f' S Fit H; cbn [run_schedule] in H.
  - injection H as <- <- <-. exists c, wire. cbn. auto.
  - apply bind_ret_inv in H. destruct H as ([[x r1] f1] & P & H).
    apply bind_ret_inv in H. destruct H as ([[ys r2] f2] & Q & H). injection H as <- <- <-.
    destruct (poll_sound _ _ _ _ _ _ _ S Fit P) as ([O _] & Fit1 & _).
    destruct x as [[p|[k s|e]]|].
    + destruct O as (hd & contents & c1 & rest & -> & R & S1 & _).
      destruct (IH _ _ _ _ _ _ _ S1 Fit1 Q) as (c' & rest' & R' & S' & F' & A).
      exists c', rest'. unfold payloads_of in *. cbn [flat_map app map length repeat recv_all seen] in *.
      rewrite R. cbn [bind]. rewrite R'. cbn [bind]. repeat split; auto. constructor; eauto.
    + destruct O as [S1 _]. apply (IH _ _ _ _ _ _ _ S1 Fit1 Q).
    + destruct O as [S1 _]. apply (IH _ _ _ _ _ _ _ S1 Fit1 Q).
    + destruct O as [S1 _]. apply (IH _ _ _ _ _ _ _ S1 Fit1 Q).
  - apply (IH FreshFuture r c wire xs r' f' S I H).
Qed.

(** Cancellations do not change anything. *)
Theorem schedule_cancel_irrelevant : forall acts f r c wire,
  stands r c wire -> future_fits f r ->
  forall xs r' f', run_schedule acts f r = Ret (xs, r', f') ->
  exists f'', run_schedule (filter (fun a => match a with DoPoll => true | DoCancel => false end) acts) f r
              = Ret (xs, r', f'').
Proof.
  induction acts as [|[|] acts IH]; intros f r c wire S Fit xs r' f' H;
    cbn [run_schedule filter] in *.
  - injection H as <- <- <-. eauto.
  - apply bind_ret_inv in H. destruct H as ([[x r1] f1] & P & H).
    apply bind_ret_inv in H. destruct H as ([[ys r2] f2] & Q & H). injection H as <- <- <-.
    rewrite P. cbn [bind].
    destruct (poll_sound _ _ _ _ _ _ _ S Fit P) as ([O _] & Fit1 & _).
    assert (exists c1 w1, stands r1 c1 w1) as (c1 & w1 & S1).
    { destruct x as [[p|[k s|e]]|].
      - destruct O as (? & ? & ? & ? & _ & _ & ? & _). eauto.
      - destruct O. eauto.
      - destruct O. eauto.
      - destruct O. eauto. }
    destruct (IH _ _ _ _ S1 Fit1 _ _ _ Q) as (f'' & ->). cbn [bind]. eauto.
  - destruct (IH FreshFuture _ _ _ S I _ _ _ H) as (f'' & K).
    destruct (filter _ acts) as [|[|] acts'] eqn:Fa.
    + cbn [run_schedule] in *. injection K as <- <- <-. eauto.
    + cbn [run_schedule] in *. rewrite (resume_is_restart f r Fit). eauto.
    + exfalso. assert (In DoCancel (filter (fun a => match a with DoPoll => true | DoCancel => false end) acts))
        as Q by (rewrite Fa; now left). apply filter_In in Q. destruct Q; discriminate.
Qed.


(** ** Reading to the end of the available stream *)

Lemma poll_stream l pos s n c e x sr' :
  0 < n -> session_stream Tokio (TokioReader l pos s) = (c, e) ->
  poll_session (TokioReader l pos s) n = (x, sr') ->
  match x with
  | None => session_stream Tokio sr' = (c, e)
  | Some (Data []) => c = [] /\ e = Closed
  | Some (Data bs) => exists c', c = bs ++ c' /\ session_stream Tokio sr' = (c', e)
  | Some (ReadErr k) => c = [] /\ e = Broken k
  end /\ exists l' pos' s', sr' = TokioReader l' pos' s'.
Proof.
  intros Hn. unfold session_stream. cbn [session_inner session_leftover poll_session].
  destruct (flatten Tokio s) as [c0 e0] eqn:F. intros H; injection H as <- <-.
  destruct (pos <? len l) eqn:P; intros H.
  - injection H as <- <-. split; [|eauto]. set (rem := drop pos l) in *.
    assert (len rem = len l - pos) as Lr by (unfold rem; now rewrite len_drop).
    destruct (take (N.min (len rem) n) rem) as [|x tl] eqn:T.
    { apply (f_equal len) in T. rewrite len_take, len_nil in T. lia. }
    rewrite <- T. clear x tl T. exists (drop (N.min (len rem) n) rem ++ c0).
    cbn [session_inner session_leftover]. rewrite F, <- drop_drop. fold rem.
    rewrite app_assoc, take_drop. auto.
  - rewrite (drop_all pos l) in * by lia. cbn [app] in *.
    destruct (poll_script s n) as [y s'] eqn:R. injection H as <- <-.
    cbn [session_inner session_leftover]. rewrite (drop_all pos l) by lia. cbn [app]. split; [|eauto].
    destruct (read_stream Tokio s n c0 e0 Hn F ltac:(discriminate)) as [I1 I2].
    assert (K : forall y s', read s n = (y, s') ->
      match y with
      | Data [] => c0 = [] /\ e0 = Closed
      | Data bs => exists c', c0 = bs ++ c' /\ (let '(c, e) := flatten Tokio s' in (c, e)) = (c', e0)
      | ReadErr k => c0 = [] /\ e0 = Broken k
      end).
    { intros y1 s1 R1. destruct c0 as [|b c0].
      - destruct (I1 eq_refl) as (s2 & R2). rewrite R1 in R2. injection R2 as -> <-. destruct e0; auto.
      - destruct (I2 ltac:(discriminate)) as (bs & s2 & c' & R2 & Lb & Hc & F' & _).
        rewrite R1 in R2. injection R2 as -> <-. destruct bs as [|b1 bs]; [cbn in Lb; lia|].
        exists c'. rewrite F'. auto. }
    destruct s as [|[ch|k|] s]; cbn [poll_script] in R.
    + destruct (read [] n) as [y1 s1]. injection R as <- <-. now apply K.
    + destruct (read (Chunk ch :: s) n) as [y1 s1]. injection R as <- <-. now apply K.
    + destruct (read (Fail k :: s) n) as [y1 s1]. injection R as <- <-. now apply K.
    + injection R as <- <-. cbn [flatten] in F. now rewrite F.
Qed.

Lemma fill_stream : forall fuel l pos s buf n c e x sr' buf' n',
  n <= len buf -> session_stream Tokio (TokioReader l pos s) = (c, e) ->
  fill fuel (TokioReader l pos s) buf n = Ret (x, sr', buf', n') ->
  (exists l' pos' s', sr' = TokioReader l' pos' s') /\
  match x with
  | FillErr e' => take n buf ++ c = take n' buf' /\ e' = from_io (tokio_end e)
  | _ => exists c', session_stream Tokio sr' = (c', e) /\ take n buf ++ c = take n' buf' ++ c'
  end.
Proof.
  induction fuel as [|fuel IH]; intros l pos s buf n c e x sr' buf' n' Hn Hs; cbn [fill]; [discriminate|].
  destruct (n <? len buf) eqn:L.
  2:{ intros H; injection H as <- <- <- <-. eauto 8. }
  destruct (poll_session _ _) as [y sr1] eqn:P.
  assert (0 < len buf - n) as L0 by lia.
  pose proof (poll_shape _ _ _ _ P L0) as Sh.
  apply (poll_stream l pos s (len buf - n) c e) in P; [|lia|assumption]. destruct P as [P Q].
  destruct y as [[[|b bs]|k]|]; intros H.
  - injection H as <- <- <- <-. destruct P as [-> ->]. rewrite app_nil_r. auto.
  - destruct Sh as (_ & _ & Lb & _). set (d := b :: bs) in *. destruct P as (c' & -> & P).
    destruct Q as (l' & pos' & s' & ->).
    rewrite splice_ok in H by lia. cbn [bind] in H.
    set (buf1 := take n buf ++ d ++ drop (n + len d) buf) in *.
    assert (len buf1 = len buf) as Lb1 by (unfold buf1; autorewrite with len; lia).
    assert (take (n + len d) buf1 = take n buf ++ d) as Tb.
    { unfold buf1. rewrite app_assoc, take_app_exact; [reflexivity|]. autorewrite with len. lia. }
    apply (IH _ _ _ _ _ c' e) in H; [|lia|assumption].
    rewrite app_assoc, <- Tb. assumption.
  - injection H as <- <- <- <-. destruct P as [-> ->]. rewrite app_nil_r. auto.
  - injection H as <- <- <- <-. split; [assumption|]. eauto.
Qed.

(** As [stands], for the part of the stream before its end. *)
Definition within (r : tokio_reader) (c : cipher) (wire : bytes) (e : ending) : Prop :=
  (exists l pos s, tr_reader r = TokioReader l pos s) /\
  exists rest, session_stream Tokio (tr_reader r) = (rest, e) /\
  match tr_state r with
  | ReadingLength lb n =>
      len lb = 3 /\ n <= 3 /\ tr_cipher r = c /\ wire = take n lb ++ rest
  | ReadingPayload pb n => exists lb,
      len lb = 3 /\ decrypt_packet_len c lb = Ret (len pb, tr_cipher r) /\ n <= len pb /\
      wire = lb ++ take n pb ++ rest
  end.

Definition poll_meaning (x : poll (result perror payload)) (r' : tokio_reader) (c : cipher) (wire : bytes)
    (e : ending) : Prop :=
  match x with
  | NotReady => within r' c wire e
  | Ready (Err (Io k s)) => cut_short c wire /\ Io k s = from_io (tokio_end e)
  | Ready (Err (Internal x)) => within r' c wire e /\ x = Decryption /\
      (exists c1 rest, recv_one c None wire = Ret (None, c1, rest))
  | Ready (Ok p) => exists hd contents c1 rest,
      p = Decrypted (hd :: contents) /\
      recv_one c None wire = Ret (Some (from_byte hd, contents), c1, rest) /\
      within r' c1 rest e
  end.

Lemma phase_payload_within c c0 l pos s pb n lb rest e x r' f' :
  len lb = 3 -> decrypt_packet_len c0 lb = Ret (len pb, c) -> n <= len pb ->
  session_stream Tokio (TokioReader l pos s) = (rest, e) ->
  phase_payload c (TokioReader l pos s) pb n = Ret (x, r', f') ->
  poll_meaning x r' c0 (lb ++ take n pb ++ rest) e.
Proof.
  intros Hl Hd Hn Hs H. unfold phase_payload in H.
  destruct (fill_fuel_shape (TokioReader l pos s) pb n Hn) as (y & sr' & pb' & n' & F & G1 & G2 & G3 & G4 & G5).
  rewrite F in H. cbn [bind] in H.
  destruct (fill_stream _ _ _ _ _ _ _ _ _ _ _ _ Hn Hs F) as [Q K]. clear G3.
  assert (17 <= len pb) as Hpb by (apply packet_len_range in Hd; [lia|assumption]).
  destruct y.
  - destruct K as (rest' & Hs' & ->). subst n'. rewrite <- G1 in *. rewrite take_all by lia.
    unfold decryption_buffer_len in H. change NUM_TAG_BYTES with 16 in H.
    rewrite sub_w_ok in H by lia. cbn [bind] in H.
    apply bind_ret_inv in H. destruct H as ([[z c2] buf] & D & H).
    assert (R : recv_one c0 None (lb ++ pb' ++ rest') =
      match z with
      | Ok t => Ret (Some (t, drop 1 buf), c2, rest')
      | Err _ => Ret (None, c2, rest')
      end).
    { clear - D Hpb Hl Hd. unfold recv_one.
      rewrite (proj2 (N.ltb_ge _ _)) by (rewrite len_app; lia).
      rewrite take_app_exact by (now symmetry). rewrite Hd. cbn [bind].
      rewrite drop_app_exact by (now symmetry).
      rewrite (proj2 (N.ltb_ge _ _)) by (rewrite len_app; lia).
      rewrite take_app_exact, drop_app_exact by reflexivity. rewrite D. cbn [bind].
      destruct z; reflexivity. }
    pose proof (decrypt_body c pb' z c2 buf Hpb D) as B.
    destruct z as [t|er].
    + destruct B as (hd & contents & -> & -> & Lc). change (drop 1 (hd :: contents)) with contents in R.
      unfold payload_decrypted in H. rewrite andb_false_r in H. cbn [bind] in H.
      injection H as <- <- <-. cbn [poll_meaning].
      exists hd, contents, c2, rest'. split; [reflexivity|]. split; [assumption|].
      unfold within, init_reading_length. cbn [tr_state tr_reader tr_cipher]. split; [assumption|].
      exists rest'. split; [assumption|].
      change (len (zeros NUM_LENGTH_BYTES)) with 3. rewrite take_0. repeat split. lia.
    + destruct B as [-> ->]. injection H as <- <- <-. cbn [poll_meaning].
      split; [|split; [reflexivity|eauto]].
      unfold within. cbn [tr_state tr_reader tr_cipher]. split; [assumption|].
      exists rest'. split; [assumption|]. exists lb. rewrite take_all by lia.
      repeat split; auto; lia.
  - destruct K as (rest' & Hs' & ->). injection H as <- <- <-. cbn [poll_meaning].
    unfold within. cbn [tr_state tr_reader tr_cipher]. split; [assumption|].
    exists rest'. split; [assumption|]. exists lb. rewrite G1. repeat split; auto; lia.
  - destruct K as [-> ->]. injection H as <- <- <-. cbn [poll_meaning from_io]. split; [|reflexivity].
    right. rewrite take_app_exact, drop_app_exact by (now symmetry).
    exists (len pb), c. split; [assumption|]. rewrite len_take. lia.
Qed.

Lemma phase_length_within c l pos s lb n rest e x r' f' :
  len lb = 3 -> n <= 3 ->
  session_stream Tokio (TokioReader l pos s) = (rest, e) ->
  phase_length c (TokioReader l pos s) lb n = Ret (x, r', f') ->
  poll_meaning x r' c (take n lb ++ rest) e.
Proof.
  intros Hl Hn Hs H. unfold phase_length in H.
  assert (Hn' : n <= len lb) by lia.
  destruct (fill_fuel_shape (TokioReader l pos s) lb n Hn') as (y & sr' & lb' & n' & F & G1 & G2 & G3 & G4 & G5).
  rewrite F in H. cbn [bind] in H.
  destruct (fill_stream _ _ _ _ _ _ _ _ _ _ _ _ Hn' Hs F) as [Q K]. clear G3.
  destruct y.
  - destruct K as (rest' & Hs' & ->). subst n'. rewrite <- G1 in *. rewrite take_all by lia.
    destruct Q as (l' & pos' & s' & ->).
    apply bind_ret_inv in H. destruct H as ([m c1] & D & H).
    eapply (phase_payload_within c1 c l' pos' s' (zeros m) 0 lb' rest' e) in H;
      [|lia|now rewrite len_zeros|lia|assumption].
    rewrite take_0 in H. exact H.
  - destruct K as (rest' & Hs' & ->). injection H as <- <- <-. cbn [poll_meaning].
    unfold within. cbn [tr_state tr_reader tr_cipher]. split; [assumption|].
    exists rest'. split; [assumption|]. repeat split; auto; lia.
  - destruct K as [-> ->]. injection H as <- <- <-. cbn [poll_meaning from_io]. split; [|reflexivity].
    left. rewrite len_take. lia.
Qed.

Theorem poll_within f r c wire e x r' f' :
  within r c wire e -> future_fits f r -> poll_read f r = Ret (x, r', f') ->
  poll_meaning x r' c wire e.
Proof.
  intros W Fit H. rewrite (resume_is_restart f r Fit) in H.
  destruct r as [c1 sr st]. unfold within, poll_read in *. cbn [tr_state tr_reader tr_cipher] in *.
  destruct W as ((l & pos & s & ->) & rest & Hs & W).
  destruct st as [lb n|pb n].
  - destruct W as (S1 & S2 & <- & ->). eapply phase_length_within; eassumption.
  - destruct W as (lb & S1 & S2 & S3 & ->). eapply phase_payload_within; eassumption.
Qed.

(** [stands] with the transport's whole content follows from [within]. *)
Lemma flatten_content fl s c e : flatten fl s = (c, e) -> exists t, content s = c ++ t.
Proof.
  revert c. induction s as [|ev s IH]; intros c; cbn [flatten content].
  - intros H; injection H as <- _. exists []. reflexivity.
  - destruct ev as [[|b bs]|k|].
    + intros H; injection H as <- _. eauto.
    + destruct (flatten fl s) as [c0 e0] eqn:F. intros H.
      assert ((b :: bs) ++ c0 = c /\ e0 = e) as [<- ->] by (inversion H; split; reflexivity).
      destruct (IH c0 eq_refl) as (t & ->). exists t. now rewrite app_assoc.
    + destruct fl, k; first [apply IH | intros H; injection H as <- _; eexists; reflexivity].
    + apply IH.
Qed.

Lemma session_flatten_content fl sr c e :
  session_stream fl sr = (c, e) -> exists t, session_content sr = c ++ t.
Proof.
  unfold session_stream. destruct (flatten fl (session_inner sr)) as [c0 e0] eqn:F.
  intros H; injection H as <- _. apply flatten_content in F. destruct F as (t & F). exists t.
  destruct sr as [cur [|] s|l pos s]; cbn [session_inner session_leftover session_content app] in *;
    rewrite F, ?app_assoc; reflexivity.
Qed.

Lemma within_stands r c wire e : within r c wire e -> exists t, stands r c (wire ++ t).
Proof.
  intros (_ & rest & Hs & W). apply session_flatten_content in Hs. destruct Hs as (t & Hs).
  exists t. unfold stands. rewrite Hs. destruct (tr_state r) as [lb n|pb n].
  - destruct W as (? & ? & ? & ->). rewrite <- app_assoc. auto.
  - destruct W as (lb & ? & ? & ? & ->). exists lb. rewrite <- !app_assoc. auto.
Qed.

(** What [read().await] returns. *)
Definition read_meaning (x : result perror payload) (r' : tokio_reader) (c : cipher) (wire : bytes)
    (e : ending) : Prop := poll_meaning (Ready x) r' c wire e.

Lemma await_meaning : forall fuel f r c wire e k,
  within r c wire e -> future_fits f r -> (session_events (tr_reader r) < fuel)%nat ->
  counted k c -> room k ->
  exists x r', await_read fuel f r = Ret (x, r') /\ read_meaning x r' c wire e /\
    (session_events (tr_reader r') <= session_events (tr_reader r))%nat.
Proof.
  induction fuel as [|fuel IH]; intros f r c wire e k W Fit Hf Hc Hr; [lia|]. cbn [await_read].
  destruct (within_stands r c wire e W) as (t & St).
  destruct (poll_total f r c (wire ++ t) k St Fit Hc Hr) as (x & r' & f' & P).
  rewrite P. cbn [bind].
  pose proof (poll_within f r c wire e x r' f' W Fit P) as M.
  destruct (poll_sound f r c (wire ++ t) x r' f' St Fit P) as ([O Le] & Fit' & _).
  destruct x as [a|].
  - exists a, r'. auto.
  - destruct O as [_ Lt]. cbn [poll_meaning] in M.
    destruct (IH f' r' c wire e k M Fit') as (x & r'' & A & B & D); try assumption; [lia|].
    exists x, r''. repeat split; auto. lia.
Qed.

(** ** Schedules: totality and completeness *)

Lemma cut_short_none c aad wire : cut_short c wire ->
  exists c1 rest, recv_one c aad wire = Ret (None, c1, rest).
Proof.
  intros [H|(n & c1 & D & H)]; unfold recv_one.
  - rewrite (proj2 (N.ltb_lt _ _) H). eauto.
  - destruct (len wire <? 3); [eauto|]. rewrite D. cbn [bind]. rewrite (proj2 (N.ltb_lt _ _) H). eauto.
Qed.

Theorem schedule_total : forall acts f r c wire k,
  stands r c wire -> future_fits f r -> counted k c -> room (k + N.of_nat (polls acts)) ->
  exists xs r' f', run_schedule acts f r = Ret (xs, r', f').
Proof.
  induction acts as [|[|] acts IH]; intros f r c wire k S Fit Hc Hr; cbn [run_schedule].
  - eauto.
  - assert (polls (DoPoll :: acts) = Datatypes.S (polls acts)) as Pl by reflexivity. rewrite Pl in Hr.
    assert (room k) as Hr0 by (intros Ho; specialize (Hr Ho); lia).
    destruct (poll_total f r c wire k S Fit Hc Hr0) as (x & r1 & f1 & P). rewrite P. cbn [bind].
    destruct (poll_sound _ _ _ _ _ _ _ S Fit P) as ([O _] & Fit1 & _).
    assert (exists c1 w1, stands r1 c1 w1 /\ counted (k + 1) c1) as (c1 & w1 & S1 & Hc1).
    { assert (counted (k + 1) c) by (eapply counted_mono; [|eassumption]; lia).
      destruct x as [[p|[k0 s|e]]|].
      - destruct O as (hd & contents & c1 & rest & _ & R & S1 & _).
        destruct (recv_one_total k c None wire Hc Hr0) as (p1 & c2 & rest2 & R2 & Hc2).
        rewrite R in R2. injection R2 as _ <- _. eauto.
      - destruct O; eauto.
      - destruct O; eauto.
      - destruct O; eauto. }
    destruct (IH f1 r1 c1 w1 (k + 1) S1 Fit1 Hc1) as (xs & r' & f' & ->).
    { intros Ho. specialize (Hr Ho). lia. }
    cbn [bind]. eauto.
  - apply (IH FreshFuture r c wire k S I Hc Hr).
Qed.

(** Enough polls deliver every packet the transport will ever carry: each poll that does not, uses
    up an event of the transport. *)
Theorem schedule_complete : forall acts f r c wire n ps c' rest xs r' f',
  stands r c wire -> future_fits f r ->
  recv_all c (repeat None n) wire = Ret (Some ps, c', rest) ->
  run_schedule acts f r = Ret (xs, r', f') ->
  (session_events (tr_reader r) + n <= polls acts)%nat ->
  (n <= length (payloads_of xs))%nat.
Proof.
  induction acts as [|[|] acts IH]; intros f r c wire n ps c' rest xs r' f' S Fit R H Hp;
    cbn [run_schedule] in H.
  - change (polls []) with 0%nat in Hp. lia.
  - assert (polls (DoPoll :: acts) = Datatypes.S (polls acts)) as Pl by reflexivity. rewrite Pl in Hp.
    destruct n as [|n]; [lia|].
    apply bind_ret_inv in H. destruct H as ([[x r1] f1] & P & H).
    apply bind_ret_inv in H. destruct H as ([[ys r2] f2] & Q & H). injection H as <- <- <-.
    destruct (poll_sound _ _ _ _ _ _ _ S Fit P) as ([O Le] & Fit1 & _).
    assert (exists p c1 rest1 ps', recv_one c None wire = Ret (Some p, c1, rest1) /\
      recv_all c1 (repeat None n) rest1 = Ret (Some ps', c', rest)) as (p & c1 & rest1 & ps' & R1 & R2).
    { cbn [repeat recv_all] in R. apply bind_ret_inv in R. destruct R as ([[[p|] c1] rest1] & R1 & R).
      - apply bind_ret_inv in R. destruct R as ([[[ps'|] c2] rest2] & R2 & R).
        + injection R as _ <- <-. eauto 8.
        + discriminate.
      - discriminate. }
    destruct x as [[pl|[k s|e]]|]; cbn [payloads_of flat_map app length] in *.
    + destruct O as (hd & contents & c1' & rest' & -> & R' & S1 & _). rewrite R' in R1.
      injection R1 as <- <- <-.
      specialize (IH f1 r1 c1' rest' n _ _ _ _ _ _ S1 Fit1 R2 Q ltac:(lia)).
      unfold payloads_of in IH. lia.
    + destruct O as [S1 [O|O]].
      * apply (IH f1 r1 c wire (Datatypes.S n) _ _ _ _ _ _ S1 Fit1 R Q). lia.
      * destruct (cut_short_none c None wire O) as (? & ? & O'). rewrite O' in R1. discriminate.
    + destruct O as (_ & _ & (? & ? & O') & _). rewrite O' in R1. discriminate.
    + destruct O as [S1 O].
      apply (IH f1 r1 c wire (Datatypes.S n) _ _ _ _ _ _ S1 Fit1 R Q). lia.
  - apply (IH FreshFuture r c wire n _ _ _ _ _ _ S I R H Hp).
Qed.

End WithEnv.
