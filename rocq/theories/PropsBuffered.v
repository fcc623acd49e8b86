(** * Property C92: any reader, and a [BufReader] *)
From Coq Require Import List Arith NArith Bool Lia.
From Coq.Strings Require Import Byte.
From Verif Require Import Base BaseFacts Env FsChacha Cipher Histories CipherProofs Handshake SpecHandshake HsDriver Transport TransportProofs Io
  SpecIo Sessions SessionProofs Futures FuturesProofs Toy PropsCipher PropsHandshake PropsIo HsSteps HsStepsProofs PipesProofs PropsPipes
  Buffered SpecBuffered BufferedProofs.
Import ListNotations.
Local Open Scope N_scope.

(** ** C92 *)
(** A [BufReader] of any capacity gives what the reader inside gives. *)
Theorem C92_bufreader : (exists size, faithful buf_read unread size) /\ forall capacity s, unread (buf_new capacity s) = s.
Proof. split; [exists buf_size; exact buf_faithful|reflexivity]. Qed.
Print Assumptions C92_bufreader.

Lemma begin_asks {E : Env} magic r rnd g p : hs_begin magic r rnd g = Ret p -> asks p.
Proof.
  unfold hs_begin. destruct (hs_new magic r rnd) as [[h|e]| |]; cbn [bind]; try discriminate.
  - unfold begin. destruct (send_key h g (zeros (send_key_len g))) as [[[h'|e] kb]| |]; cbn [bind]; try discriminate; intros H; injection H as <-; exact I.
  - intros H. injection H as <-. exact I.
Qed.

Lemma over_once {E : Env} fl d p s w n m x s1 w1 : hs_steps n fl d p s w = Ret (Over x, s1, w1) ->
  hs_steps m fl d p s w <> Panic /\ hs_steps m fl d p s w <> NoFuel /\
  forall y s2 w2, hs_steps m fl d p s w = Ret (Over y, s2, w2) -> y = x /\ s2 = s1 /\ w2 = w1.
Proof.
  intros H. destruct (Nat.le_ge_cases n m) as [L|L].
  - replace m with (n + (m - n))%nat by lia. rewrite hs_steps_app, H. cbn [bind]. rewrite hs_steps_over. split; [discriminate|]. split; [discriminate|].
    intros y s2 w2 Q. injection Q as <- <- <-. auto.
  - replace n with (m + (n - m))%nat in H by lia. rewrite hs_steps_app in H. destruct (hs_steps m fl d p s w) as [[[q s2] w2]| |]; try discriminate H.
    split; [discriminate|]. split; [discriminate|]. intros y s3 w3 Q. injection Q as -> -> ->. cbn [bind] in H. rewrite hs_steps_over in H. injection H as <- <- <-. auto.
Qed.

(** The handshake over any reader that gives what a script has is the handshake over that script. *)
Theorem C92_handshake : forall (E : Env) (EL : EnvLaws E) (St : Type) rd (rest : St -> script) size fl magic r rnd g d st w p,
  faithful rd rest size -> len magic = 4 -> calm fl (rest st) -> hs_begin magic r rnd g = Ret p ->
  match io_handshake fl magic r rnd g d (rest st) w with
  | Ret o => exists n x st', any_steps St rd n fl d p st w = Ret (Over x, st', ho_writer o) /\
      stream_view fl (match x with Ok (i, oc, sr) => Ok (i, oc, set_inner sr (rest st')) | Err e => Err e end) = stream_view fl (ho_result o)
  | Panic => exists n, any_steps St rd n fl d p st w = Panic
  | NoFuel => False
  end.
Proof.
  intros E EL St rd rest size fl magic r rnd g d st w p F Hm C B.
  set (n := S (total St size p st w)).
  destruct (any_steps_meaning fl d St rd rest size F n p st w (begin_asks _ _ _ _ _ B)) as (tr & H).
  assert (NF : io_handshake fl magic r rnd g d (rest st) w <> NoFuel).
  { destruct (C63_steps E EL fl magic r rnd g d (rest st) w Hm) as [S1 _]. intros Q. rewrite Q in S1. exact S1. }
  destruct (any_steps St rd n fl d p st w) as [[[p' st'] w']| |] eqn:Q.
  - destruct H as (D & SM & k & H). specialize (H (rest st')).
    assert (O : over p') by (destruct D as [D|D]; [exact D|subst n; lia]). destruct p' as [| | | | | | | | |x]; try contradiction.
    pose proof (C27_segmentation E EL fl magic r rnd g d _ _ w Hm (same_flatten fl _ _ SM) (same_calm fl _ _ SM C) C) as V.
    destruct (C63_steps E EL fl magic r rnd g d (tr ++ rest st') w Hm) as [S1 _].
    destruct (io_handshake fl magic r rnd g d (tr ++ rest st') w) as [o| |].
    + destruct S1 as (_ & S1). destruct (S1 p B) as (n1 & s1 & x1 & S2 & S3).
      destruct (over_once fl d p _ w k n1 _ _ _ H) as (_ & _ & U). destruct (U _ _ _ S2) as (-> & -> & U3).
      destruct (io_handshake fl magic r rnd g d (rest st) w) as [o2| |]; cbn [run_map bind] in V; try discriminate V.
      assert (V1 : hs_view fl o = hs_view fl o2) by congruence. unfold hs_view in V1. injection V1 as V1 V2 V3.
      exists n, x, st'. rewrite Q. split; [congruence|]. rewrite <- V1, S3. reflexivity.
    + exfalso. destruct S1 as [S1|(q & n1 & B1 & S1)]; [congruence|]. replace q with p in S1 by congruence.
      exact (proj1 (over_once fl d p _ w k n1 _ _ _ H) S1).
    + contradiction.
  - destruct H as ((u & SM) & k & H). specialize (H u).
    pose proof (C27_segmentation E EL fl magic r rnd g d _ _ w Hm (same_flatten fl _ _ SM) (same_calm fl _ _ SM C) C) as V.
    destruct (C63_steps E EL fl magic r rnd g d (tr ++ u) w Hm) as [S1 _].
    destruct (io_handshake fl magic r rnd g d (tr ++ u) w) as [o| |].
    + exfalso. destruct S1 as (_ & S1). destruct (S1 p B) as (n1 & s1 & x1 & S2 & S3).
      exact (proj1 (over_once fl d p _ w n1 k _ _ _ S2) H).
    + destruct (io_handshake fl magic r rnd g d (rest st) w) as [o2| |]; [discriminate V|exists n; exact Q|now contradict NF].
    + contradiction.
  - exfalso. destruct H as (k & H). specialize (H []). destruct (C63_steps E EL fl magic r rnd g d (tr ++ []) w Hm) as [S1 _].
    destruct (io_handshake fl magic r rnd g d (tr ++ []) w) as [o| |].
    + destruct S1 as (_ & S1). destruct (S1 p B) as (n1 & s1 & x1 & S2 & S3). exact (proj1 (proj2 (over_once fl d p _ w n1 k _ _ _ S2)) H).
    + destruct S1 as [S1|(q & n1 & B1 & S1)]; [congruence|]. replace q with p in S1 by congruence.
      destruct (Nat.le_ge_cases n1 k) as [L|L].
      * replace k with (n1 + (k - n1))%nat in H by lia. rewrite hs_steps_app, S1 in H. discriminate H.
      * replace n1 with (k + (n1 - k))%nat in S1 by lia. rewrite hs_steps_app, H in S1. discriminate S1.
    + contradiction.
Qed.
Print Assumptions C92_handshake.

(** A blocking read over it gives what one over the script gives, takes as much off the stream and leaves the same cipher;
    [fuel] bounds the calls. *)
Theorem C92_read : forall (E : Env) (EL : EnvLaws E) (St : Type) rd (rest : St -> script) size c sr st,
  faithful rd rest size -> exists enough, forall fuel, (enough <= fuel)%nat ->
  match sync_read (SyncReader c (set_inner sr (rest st))) with
  | Ret (x, r, a) => exists sr' st', any_sync_read St rd fuel c sr st = Ret (x, sr_cipher r, sr', st', a) /\
      ((forall k, x <> Err (from_io k)) -> session_stream Sync (set_inner sr' (rest st')) = session_stream Sync (sr_reader r))
  | Panic => any_sync_read St rd fuel c sr st = Panic
  | NoFuel => any_sync_read St rd fuel c sr st = NoFuel
  end.
Proof.
  intros E EL St rd rest size c sr st F. exists (S (length (session_leftover sr) + size st)). intros fuel L.
  pose proof (any_sync_read_meaning St rd rest size F fuel c sr st ltac:(lia)) as H.
  destruct (sync_read (SyncReader c (set_inner sr (rest st)))) as [[[x r] a]| |]; [|exact H..].
  destruct H as (sr' & st' & H1 & _ & H2). exists sr', st'. auto.
Qed.
Print Assumptions C92_read.

(** Polls and cancellations of the asynchronous [read] over it do what they do over a script with the same bytes, ends and failures in
    the same order. *)
Theorem C92_polls : forall (E : Env) (EL : EnvLaws E) (St : Type) rd (rest : St -> script) size acts c l pos s st k,
  faithful rd rest size -> counted k c -> (overflow_checks = true -> k + N.of_nat (polls acts) + 1 < 2 ^ 32) ->
  exists enough, forall fuel, (enough <= fuel)%nat -> exists xs c' l' pos' s' state st' f answered,
    any_schedule St rd fuel acts FreshFuture (TReader c (TokioReader l pos s) init_reading_length) st =
      Ret (xs, TReader c' (TokioReader l' pos' s') state, st', f) /\
    same_items (answered ++ rest st') (rest st) /\
    forall t, run_schedule acts FreshFuture (TReader c (TokioReader l pos (answered ++ t)) init_reading_length) =
      Ret (xs, TReader c' (TokioReader l' pos' t) state, f).
Proof.
  intros E EL St rd rest size acts c l pos s st k F Hc R. exists (S (length (drop pos l) + size st)). intros fuel L.
  destruct (any_schedule_meaning St rd rest size F fuel acts FreshFuture (TReader c (TokioReader l pos s) init_reading_length) st I) as (tr & H).
  { cbn [tr_reader session_leftover]. lia. }
  assert (T : forall t, exists xs r f, run_schedule acts FreshFuture (set_reader (TReader c (TokioReader l pos s) init_reading_length) (tr ++ t)) = Ret (xs, r, f)).
  { intros t. exact (C35_total E EL acts c (TokioReader l pos (tr ++ t)) k Hc R). }
  destruct (any_schedule St rd fuel acts FreshFuture (TReader c (TokioReader l pos s) init_reading_length) st) as [[[[xs r'] st'] f']| |].
  - destruct H as (O & SM & H). destruct r' as [c' [? ? ?|l' pos' s'] state]; [contradiction|].
    exists xs, c', l', pos', s', state, st', f', tr. split; [reflexivity|]. split; [exact SM|]. exact H.
  - destruct (T []) as (xs & r & f & T1). rewrite H in T1. discriminate T1.
  - destruct (T []) as (xs & r & f & T1). rewrite H in T1. discriminate T1.
Qed.
Print Assumptions C92_polls.

Lemma content_items s : content s = flat_map (fun i => match i with Byt b => [b] | _ => [] end) (items s).
Proof.
  induction s as [|[bs|k|] s IH]; cbn [content]; [reflexivity|..].
  - change (Chunk bs :: s) with ([Chunk bs] ++ s). rewrite items_app, flat_map_app, <- IH. f_equal. destruct bs as [|b bs]; [reflexivity|].
    rewrite chunk_items by discriminate. generalize (b :: bs) as l. induction l as [|y l IHl]; [reflexivity|]. cbn [map flat_map app]. rewrite <- IHl. reflexivity.
  - exact IH.
  - exact IH.
Qed.

Lemma same_content s1 s2 : same_items s1 s2 -> content s1 = content s2.
Proof.
  intros (k & H). rewrite !content_items, H, flat_map_app. rewrite <- app_nil_r. f_equal. clear H. induction k as [|k IH]; [reflexivity|exact IH].
Qed.

(** So every payload it returns is the next one of the stream. *)
Theorem C92_in_order : forall (E : Env) (EL : EnvLaws E) (St : Type) rd (rest : St -> script) size acts c l pos s st k,
  faithful rd rest size -> counted k c -> (overflow_checks = true -> k + N.of_nat (polls acts) + 1 < 2 ^ 32) ->
  exists enough, forall fuel, (enough <= fuel)%nat -> exists xs r st' f c' wire,
    any_schedule St rd fuel acts FreshFuture (TReader c (TokioReader l pos s) init_reading_length) st = Ret (xs, r, st', f) /\
    recv_all c (repeat None (length (payloads_of xs))) (drop pos l ++ content (rest st)) = Ret (Some (map seen (payloads_of xs)), c', wire).
Proof.
  intros E EL St rd rest size acts c l pos s st k F Hc R.
  destruct (C92_polls E EL St rd rest size acts c l pos s st k F Hc R) as (m & H). exists m. intros fuel L.
  destruct (H fuel L) as (xs & c' & l' & pos' & s' & state & st' & f & tr & H1 & SM & H2).
  destruct (C35_in_order E EL acts c (TokioReader l pos (tr ++ rest st')) xs _ _ (H2 (rest st'))) as (c2 & w2 & Q & _).
  exists xs, (TReader c' (TokioReader l' pos' s') state), st', f, c2, w2. split; [exact H1|].
  cbn [session_content] in Q. rewrite (same_content _ _ SM) in Q. exact Q.
Qed.
Print Assumptions C92_in_order.

(** ** How often the transport is read *)

Section Invariants.
Context {E : Env}.
Variables (St : Type) (rd : St -> N -> option read_result * St) (P : St -> Prop).
Hypothesis keeps : forall st n o st', 0 < n -> P st -> rd st n = (o, st') -> o <> Some (Data []) -> P st'.

Lemma session_read_keeps sr st n o sr' st' : 0 < n -> P st -> any_session_read St rd sr st n = (o, sr', st') -> o <> Some (Data []) -> P st'.
Proof.
  intros N0 H Q D. unfold any_session_read in Q. destruct (session_leftover sr) as [|b lo] eqn:L.
  - destruct (rd st n) as [[r|] st1] eqn:R.
    + destruct (empty_read sr L) as (sr1 & _ & ER). rewrite ER in Q. injection Q as <- <- <-. apply (keeps _ _ _ _ N0 H R). intros Z. injection Z as ->.
      apply D. cbn [answer_script read fst]. rewrite len_nil. destruct (N.leb_spec 0 n); [reflexivity|lia].
    + injection Q as <- <- <-. apply (keeps _ _ _ _ N0 H R). discriminate.
  - destruct (session_read sr n) as [r sr1]. injection Q as <- <- <-. exact H.
Qed.

Lemma read_exact_keeps fl : forall fuel sr st n bs sr' st', P st -> any_read_exact St rd fuel fl sr st n = Ret (Ok bs, sr', st') -> P st'.
Proof.
  induction fuel as [|fuel IH]; intros sr st n bs sr' st' H Q; [discriminate Q|]. cbn [any_read_exact] in Q.
  destruct (N.eqb_spec n 0); [injection Q as <- <- <-; exact H|].
  destruct (any_session_read St rd sr st n) as [[o sr1] st1] eqn:A.
  assert (K : o <> Some (Data []) -> P st1) by (apply (session_read_keeps sr st n o sr1 st1); [lia|exact H|exact A]).
  destruct o as [[[|b l]|k]|].
  - discriminate Q.
  - destruct (any_read_exact St rd fuel fl sr1 st1 (n - len (b :: l))) as [[[[more|k] sr2] st2]| |] eqn:A2; cbn [bind] in Q; try discriminate Q.
    injection Q as <- <- <-. exact (IH _ _ _ _ _ _ (K ltac:(discriminate)) A2).
  - destruct (retries fl k); [|discriminate Q]. exact (IH _ _ _ _ _ _ (K ltac:(discriminate)) Q).
  - exact (IH _ _ _ _ _ _ (K ltac:(discriminate)) Q).
Qed.

Lemma sync_read_keeps fuel c sr st p c' sr' st' a : P st -> any_sync_read St rd fuel c sr st = Ret (Ok p, c', sr', st', a) -> P st'.
Proof.
  intros H Q. unfold any_sync_read in Q. destruct (any_read_exact St rd fuel Sync sr st NUM_LENGTH_BYTES) as [[[[lb|k] sr1] st1]| |] eqn:A1; cbn [bind] in Q; try discriminate Q.
  destruct (decrypt_packet_len c lb) as [[n c1]| |]; cbn [bind] in Q; try discriminate Q.
  destruct (any_read_exact St rd fuel Sync sr1 st1 n) as [[[[pb|k] sr2] st2]| |] eqn:A2; cbn [bind] in Q; try discriminate Q.
  destruct (decrypt_to_vec c1 pb None) as [[[[t pt]|e] c2]| |]; cbn [bind] in Q; try discriminate Q.
  destruct (payload_decrypted pt) as [q| |]; cbn [bind] in Q; try discriminate Q. injection Q as _ _ _ <- _.
  exact (read_exact_keeps _ _ _ _ _ _ _ _ (read_exact_keeps _ _ _ _ _ _ _ _ H A1) A2).
Qed.

Lemma took_keeps c sr st ps st' : took rd c sr st ps st' -> P st -> P st'.
Proof. intros T. induction T as [|fuel c sr st p c1 sr1 st1 a ps st2 R T IH]; intros H; [exact H|]. apply IH. exact (sync_read_keeps _ _ _ _ _ _ _ _ _ H R). Qed.

End Invariants.

(** A [BufReader] on a transport that has [bs] at hand fills its buffer: it reads it once for every [capacity] bytes, and once more. *)
Theorem C92_few_calls : forall (E : Env) capacity bs c sr ps b,
  took buf_read c sr (buf_new capacity [Chunk bs]) ps b -> capacity * (br_calls b - 1) <= len bs.
Proof.
  intros E capacity bs c sr ps b T.
  set (P := fun b : buf_reader => br_capacity b = capacity /\
    (br_inner b = [] /\ capacity * (br_calls b - 1) <= len bs \/ exists r, br_inner b = [Chunk r] /\ capacity * br_calls b + len r <= len bs)).
  assert (K : P b).
  { eapply (took_keeps buf_reader buf_read P); [|exact T|].
    2:{ split; [reflexivity|]. right. exists bs. split; [reflexivity|]. cbn [buf_new br_calls]. lia. }
    clear. intros b n o b' N0 (C & H) R D. unfold buf_read in R. destruct (br_buffer b) as [|y l] eqn:B.
    - assert (EACH : forall m o1 s1, br_capacity b <= m -> 0 < m -> poll_script (br_inner b) m = (o1, s1) -> o1 <> Some (Data []) ->
        s1 = [] /\ capacity * (br_calls b + 1 - 1) <= len bs \/ exists r, s1 = [Chunk r] /\ capacity * (br_calls b + 1) + len r <= len bs).
      { intros m o1 s1 LE M0 PS ND. destruct H as [(H1 & H2)|(r & H1 & H2)]; rewrite H1 in PS; cbn [poll_script read] in PS.
        - injection PS as <- <-. now contradict ND.
        - destruct (N.leb_spec (len r) m) as [G|G]; injection PS as <- <-.
          + left. split; [reflexivity|]. rewrite N.add_sub. lia.
          + right. exists (drop m r). split; [reflexivity|]. rewrite len_drop. rewrite C in LE. lia. }
      destruct (N.leb_spec (br_capacity b) n) as [G|G].
      + destruct (poll_script (br_inner b) n) as [o1 s1] eqn:PS. injection R as <- <-. split; [exact C|]. cbn [br_inner br_calls]. exact (EACH n o1 s1 G N0 PS D).
      + destruct (poll_script (br_inner b) (br_capacity b)) as [o1 s1] eqn:PS.
        destruct (N.eq_dec (br_capacity b) 0) as [Z|Z]; [lia|].
        pose proof (EACH (br_capacity b) o1 s1 ltac:(lia) ltac:(lia) PS) as EA.
        destruct o1 as [[x|k]|]; injection R as <- <-; (split; [exact C|]); cbn [br_inner br_calls]; apply EA; try discriminate.
        intros Q. injection Q as ->. apply D. now rewrite take_nil.
    - injection R as <- <-. split; [exact C|]. exact H. }
  destruct K as (_ & [(_ & K)|(r & _ & K)]); [exact K|]. pose proof (N.mul_le_mono_l (br_calls b - 1) (br_calls b) capacity ltac:(lia)). lia.
Qed.
Print Assumptions C92_few_calls.

Lemma exact_call {E : Env} (St : Type) (rd : St -> N -> option read_result * St) fl : forall fuel sr st k n bs sr' st' k',
  session_leftover sr = [] -> any_read_exact _ (counted_reader rd) fuel fl sr (st, k) n = Ret (Ok bs, sr', (st', k')) ->
  session_leftover sr' = [] /\ (0 < n -> k + 1 <= k') /\ k <= k'.
Proof.
  induction fuel as [|fuel IH]; intros sr st k n bs sr' st' k' L Q; [discriminate Q|]. cbn [any_read_exact] in Q.
  destruct (N.eqb_spec n 0); [injection Q as <- <- <- <-; split; [exact L|lia]|].
  unfold any_session_read in Q. rewrite L in Q. unfold counted_reader at 1 in Q. cbn [fst snd] in Q. destruct (rd st n) as [[r|] st1] eqn:R.
  - destruct (empty_read sr L) as (sr1 & L1 & ER). rewrite ER in Q. destruct (read (answer_script r) n) as [r1 s1]. cbn [fst snd] in Q. rewrite set_inner_twice in Q.
    assert (L2 : session_leftover (set_inner sr1 []) = []) by (rewrite leftover_set; exact L1).
    destruct r1 as [[|b l]|e].
    + discriminate Q.
    + destruct (any_read_exact _ (counted_reader rd) fuel fl (set_inner sr1 []) (st1, k + 1) (n - len (b :: l))) as [[[[more|e] sr2] [st2 k2]]| |] eqn:A2; cbn [bind] in Q; try discriminate Q.
      injection Q as <- <- <- <-. destruct (IH _ _ _ _ _ _ _ _ L2 A2) as (I1 & _ & I2). split; [exact I1|lia].
    + destruct (retries fl e); [|discriminate Q]. destruct (IH _ _ _ _ _ _ _ _ L2 Q) as (I1 & _ & I2). split; [exact I1|lia].
  - destruct (IH _ _ _ _ _ _ _ _ L Q) as (I1 & _ & I2). split; [exact I1|lia].
Qed.

Lemma decrypt_to_vec_nonempty {E : Env} c pb aad x c' : decrypt_to_vec c pb aad = Ret (Ok x, c') -> 0 < len pb.
Proof.
  intros H. destruct (N.lt_ge_cases (len pb) 16) as [L|L]; [|lia]. rewrite (C12_vec_short E c pb aad L) in H. destruct overflow_checks; discriminate H.
Qed.

(** Without one every payload costs at least two reads of the transport, whatever it has at hand. *)
Theorem C92_two_calls : forall (E : Env) (St : Type) (rd : St -> N -> option read_result * St) c sr st k ps st' k',
  session_leftover sr = [] -> took (counted_reader rd) c sr (st, k) ps (st', k') -> k + 2 * len ps <= k'.
Proof.
  intros E St rd c sr st k ps st' k' L T. remember (st, k) as x eqn:X. remember (st', k') as y eqn:Y. revert st k X L.
  induction T as [c sr x|fuel c sr x p c1 sr1 x1 a ps x2 R T IH]; intros st k X L.
  - rewrite X in Y. injection Y as -> ->. change (len []) with 0. lia.
  - subst x. destruct x1 as [st1 k1]. unfold any_sync_read in R.
    destruct (any_read_exact _ (counted_reader rd) fuel Sync sr (st, k) NUM_LENGTH_BYTES) as [[[[lb|e] sr2] [st2 k2]]| |] eqn:A1; cbn [bind] in R; try discriminate R.
    destruct (decrypt_packet_len c lb) as [[n c2]| |]; cbn [bind] in R; try discriminate R.
    destruct (any_read_exact _ (counted_reader rd) fuel Sync sr2 (st2, k2) n) as [[[[pb|e] sr3] [st3 k3]]| |] eqn:A2; cbn [bind] in R; try discriminate R.
    destruct (decrypt_to_vec c2 pb None) as [[[[t pt]|e] c3]| |] eqn:D; cbn [bind] in R; try discriminate R.
    destruct (payload_decrypted pt) as [q| |]; cbn [bind] in R; try discriminate R. injection R as _ _ -> -> -> _.
    destruct (exact_call St rd Sync _ _ _ _ _ _ _ _ _ L A1) as (L1 & K1 & _). destruct (exact_call St rd Sync _ _ _ _ _ _ _ _ _ L1 A2) as (L2 & K2 & _).
    assert (N0 : 0 < n).
    { destruct (N.eq_dec n 0) as [->|]; [|lia]. exfalso. destruct fuel; [discriminate A2|]. cbn [any_read_exact] in A2. cbn in A2. injection A2 as <- _ _ _.
      apply decrypt_to_vec_nonempty in D. exact (N.lt_irrefl 0 D). }
    specialize (K1 eq_refl). specialize (K2 N0). specialize (IH Y _ _ eq_refl L2). rewrite len_cons. lia.
Qed.
Print Assumptions C92_two_calls.

(** Two packets, at hand at once, read through a [BufReader] and without one. *)
Definition drained {St : Type} (E : Env) (rd : St -> N -> option read_result * St) (c : cipher) (st : St) : list payload * option St :=
  match @any_sync_read E St rd 50 c (ChainReader [] false []) st with
  | Ret (Ok p1, c, sr, st, _) =>
    match @any_sync_read E St rd 50 c sr st with
    | Ret (Ok p2, c, sr, st, _) => ([p1; p2], Some st)
    | _ => ([p1], None)
    end
  | _ => ([], None)
  end.

Example C92_example :
  let ps := [Decrypted [x00; x01; x02; x03]; Decrypted [x80]] in
  drained (toy true) buf_read toy_in (buf_new 8192 [Chunk two_packets]) = (ps, Some (BufReader 8192 [] [] 1)) /\
  drained (toy true) buf_read toy_in (buf_new 10 [Chunk two_packets]) = (ps, Some (BufReader 10 [] [] 4)) /\
  drained (toy true) (counted_reader poll_script) toy_in ([Chunk two_packets], 0) = (ps, Some ([], 4)) /\
  len two_packets = 43 /\
  let b := snd sample_wires in
  match @hs_begin (toy true) mainnet Initiator ska (Some (repeat x2a 300)),
        io_handshake (E := toy true) Sync mainnet Initiator ska (Some (repeat x2a 300)) None (drip b) fresh with
  | Ret p, Ret o =>
    match @any_steps (toy true) _ buf_read 900 Sync None p (buf_new 8192 (drip b)) fresh, @any_steps (toy true) _ buf_read 30 Sync None p (buf_new 8192 [Chunk b]) fresh with
    | Ret (Over (Ok (i1, o1, sr1)), b1, w1), Ret (Over (Ok (i2, o2, sr2)), b2, w2) =>
      w1 = ho_writer o /\ w2 = ho_writer o /\ br_calls b2 = 1 /\
      stream_view Sync (Ok (i1, o1, set_inner sr1 (unread b1))) = stream_view Sync (ho_result o) /\
      stream_view Sync (Ok (i2, o2, set_inner sr2 (unread b2))) = stream_view Sync (ho_result o)
    | _, _ => False
    end
  | _, _ => False
  end.
Proof. vm_compute. repeat split. Qed.
Print Assumptions C92_example.
