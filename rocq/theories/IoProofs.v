(** * IoProofs: the I/O handshake as a function of the byte stream *)
From Coq Require Import List NArith Bool Lia ZArith.
From Coq.Strings Require Import Byte.
From Coq Require Import ZifyBool ZifyNat ZifyN.
From Verif Require Import Base BaseFacts Env FsChacha Spec FsChachaProofs Cipher CipherFacts
  Histories CipherProofs Handshake SpecHandshake HsDriver HandshakeProofs HsRunProofs
  Transport Io SpecIo Futures Sessions TransportProofs NoFuel.
Import ListNotations.
Local Open Scope N_scope.

Section WithEnv.
Context {E : Env} {EL : EnvLaws E}.

(** ** The garbage loop *)

Lemma garbage_loop_stream fl h : forall fuel buf s reads c e,
  len (remote_garbage_terminator (hs_state h)) = 16 ->
  flatten fl s = (c, e) -> calm fl s ->
  4111 <= N.of_nat fuel + len buf - 1 -> (0 < fuel)%nat ->
  exists x s' r, garbage_loop fuel h buf s reads = Ret (x, s', r) /\
    reads <= r <= reads + (4111 - len buf) /\
    match receive_garbage h (buf ++ c) with
    | Ret (Ok (FoundGarbage h' n)) => exists buf' c',
        x = Ok (h', n, buf') /\ n <= len buf' /\ buf ++ c = buf' ++ c' /\
        flatten fl s' = (c', e) /\ calm fl s' /\ buf ++ content s = buf' ++ content s'
    | Ret (Ok (NeedMoreData _)) => x = Err (end_error e)
    | Ret (Err y) => x = Err (Internal y)
    | _ => False
    end.
Proof.
  induction fuel as [|fuel IH]; intros buf s reads c e Ht F C Hf Hf0; [lia|].
  cbn [garbage_loop].
  destruct (receive_garbage_cases h buf Ht) as [(i & Hi & Fi & K)|[(_ & L & K)|(_ & L & K)]].
  - rewrite (garbage_stable h buf c _ Ht K) by discriminate. rewrite K. cbn [bind found].
    do 3 eexists. split; [reflexivity|]. split; [lia|]. exists buf, c. repeat split; auto.
    destruct Fi as [[Fi _] _]. lia.
  - rewrite (garbage_stable h buf c _ Ht K) by discriminate. rewrite K. cbn [bind].
    do 3 eexists. split; [reflexivity|]. split; [lia|reflexivity].
  - rewrite K. cbn [bind].
    destruct (read_stream fl s 256 c e ltac:(lia) F C) as [I1 I2].
    destruct c as [|b c].
    + destruct (I1 eq_refl) as (s' & R). rewrite R. rewrite app_nil_r, K.
      destruct e as [|k]; do 3 eexists; (split; [reflexivity|]); (split; [lia|reflexivity]).
    + destruct I2 as (bs & s' & c' & R & Lb & Hc & F' & C' & Kc); [discriminate|]. rewrite R.
      rewrite Hc. clear I1 K R.
      destruct bs as [|b0 bs0]; [cbn in Lb; lia|]. set (bs := b0 :: bs0) in *.
      destruct (IH (buf ++ bs) s' (reads + 1) c' e Ht F' C') as (x & s'' & r & G & Hr & M);
        [rewrite len_app; lia|lia|].
      rewrite G. rewrite <- app_assoc in M. rewrite len_app in Hr.
      exists x, s'', r. split; [reflexivity|]. split; [lia|].
      destruct (receive_garbage h (buf ++ bs ++ c')) as [[[h' n|h']|y]| |]; auto.
      destruct M as (buf' & c'' & ? & ? & ? & ? & ? & M). exists buf', c''. repeat split; auto.
      rewrite Kc. rewrite <- M. now rewrite app_assoc.
Qed.

(** ** The packet loop *)

Fixpoint pure_versions (fuel : nat) (h : handshake received_garbage) (c : bytes) (e : ending)
    (allocs : list N) : run (result perror (cipher * cipher * (bytes * ending)) * list N) :=
  match fuel with
  | O => NoFuel
  | S fuel =>
    if len c <? 3 then Ret (Err (end_error e), allocs) else
    let! (n, h) := hs_decrypt_packet_len h (take 3 c) in
    let c := drop 3 c in
    if MAX_PACKET_SIZE_FOR_ALLOCATION <? n then Ret (Err (Internal PacketTooBig), allocs) else
    let allocs := allocs ++ [n] in
    if len c <? n then Ret (Err (end_error e), allocs) else
    let! (x, _) := receive_version h (take n c) in
    match x with
    | Ok (Complete s) => Ret (Ok (inbound s, outbound s, (drop n c, e)), allocs)
    | Ok (DecoyPacket h) => pure_versions fuel h (drop n c) e allocs
    | Err y => Ret (Err (Internal y), allocs)
    end
  end.

Lemma version_loop_stream fl : forall fuel h sr c e allocs,
  session_stream fl sr = (c, e) ->
  run_map (fun '(x, a) => (stream_view fl x, a)) (version_loop fuel fl h sr allocs) =
  pure_versions fuel h c e allocs.
Proof.
  induction fuel as [|fuel IH]; intros h sr c e allocs F; [reflexivity|].
  cbn [version_loop pure_versions]. change NUM_LENGTH_BYTES with 3.
  destruct (session_read_exact_stream fl sr 3 c e F) as [I1 I2].
  destruct (len c <? 3) eqn:L3.
  { destruct I2 as (sr' & ->); [lia|]. reflexivity. }
  destruct I1 as (sr1 & -> & F1 & _ & _); [lia|].
  destruct (hs_decrypt_packet_len h (take 3 c)) as [[n h1]| |]; cbn [bind run_map]; try reflexivity.
  destruct (MAX_PACKET_SIZE_FOR_ALLOCATION <? n); [reflexivity|].
  destruct (session_read_exact_stream fl sr1 n _ e F1) as [J1 J2].
  destruct (len (drop 3 c) <? n) eqn:Ln.
  { destruct J2 as (sr' & ->); [lia|]. reflexivity. }
  destruct J1 as (sr2 & -> & F2 & _ & _); [lia|].
  destruct (receive_version h1 _) as [[[[s|h2]|y] b]| |]; cbn [bind run_map]; try reflexivity.
  - unfold run_map, into_split. cbn [bind stream_view]. now rewrite F2.
  - apply IH. exact F2.
Qed.

(** More fuel changes nothing once there is enough. *)
Lemma pure_versions_fuel : forall f1 f2 h c e a,
  (length c < f1)%nat -> (length c < f2)%nat ->
  pure_versions f1 h c e a = pure_versions f2 h c e a.
Proof.
  induction f1 as [|f1 IH]; intros f2 h c e a H1 H2; [lia|]. destruct f2 as [|f2]; [lia|].
  cbn [pure_versions]. destruct (len c <? 3) eqn:L3; [reflexivity|].
  destruct (hs_decrypt_packet_len h (take 3 c)) as [[n h1]| |]; cbn [bind]; try reflexivity.
  destruct (_ <? n); [reflexivity|]. destruct (_ <? n) eqn:Ln; [reflexivity|].
  destruct (receive_version h1 _) as [[[[s|h2]|y] b]| |]; cbn [bind]; try reflexivity.
  assert (length (drop n (drop 3 c)) < length c)%nat as Q.
  { unfold drop, len in *. rewrite !skipn_length. lia. }
  apply IH; lia.
Qed.

(** ** The whole handshake *)

Definition pure_hs (fl : flavor) (h : handshake initialized) (garbage : option bytes)
    (decoys : option (list bytes)) (c : bytes) (e : ending) (w : writer)
  : run (result perror (cipher * cipher * (bytes * ending)) * writer * list N) :=
  let! (x, key_buffer) := send_key h garbage (zeros (send_key_len garbage)) in
  match x with Err y => Ret (Err (Internal y), w, []) | Ok h =>
  match write_flush fl w key_buffer with (Err k, w) => Ret (Err (from_io k), w, []) | (Ok _, w) =>
  if len c <? 64 then Ret (Err (end_error e), w, []) else
  let! x := receive_key h (take 64 c) in
  match x with Err y => Ret (Err (Internal y), w, []) | Ok h =>
  let! (x, version_buffer) := send_version h (zeros (send_version_len decoys)) decoys in
  match x with Err y => Ret (Err (Internal y), w, []) | Ok h =>
  match write_flush fl w version_buffer with (Err k, w) => Ret (Err (from_io k), w, []) | (Ok _, w) =>
  let c := drop 64 c in
  if len c <? 16 then Ret (Err (end_error e), w, []) else
  let! x := receive_garbage h c in
  match x with
  | Ok (FoundGarbage h n) =>
    let! (x, a) := pure_versions (S (length (drop n c))) h (drop n c) e [] in Ret (x, w, a)
  | Ok (NeedMoreData _) => Ret (Err (end_error e), w, [])
  | Err y => Ret (Err (Internal y), w, [])
  end
  end end end end end.

(** What the states reached by the driver satisfy. *)
Lemma received_terminator h their h' out d h'' buf :
  len (hs_magic h) = 4 -> len their = 64 ->
  receive_key h their = Ret (Ok h') -> send_version h' out d = Ret (Ok h'', buf) ->
  len (remote_garbage_terminator (hs_state h'')) = 16.
Proof.
  intros Hm Ht R S.
  destruct (receive_key_v1 h their Ht Hm) as [K1 K2].
  destruct (bytes_eq_dec (take 4 their) (hs_magic h)) as [V|V].
  { apply K1 in V. congruence. }
  destruct (K2 V) as (m & Q & KF). rewrite Q in R. injection R as <-.
  cbn zeta in KF. destruct (in_order (hs_role h) (elligator_swift (sk_point (hs_state h))) their) as [ei er].
  destruct (N.lt_ge_cases (len out) (36 + decoys_len (decoy_list d))) as [L|L].
  { rewrite send_version_small in S by assumption. discriminate. }
  rewrite send_version_eq in S;
    [|cbn [hs_state session_keys hs_role]; eapply terminator_len; eassumption|assumption].
  apply bind_ret_inv in S. destruct S as ([ps oc] & _ & S). injection S as <- _.
  cbn [hs_state remote_garbage_terminator session_keys hs_role]. eapply terminator_len; eassumption.
Qed.

Lemma send_key_magic h g out h' buf :
  send_key h g out = Ret (Ok h', buf) -> hs_magic h' = hs_magic h.
Proof.
  unfold send_key. destruct (match g with Some _ => _ | None => _ end); [discriminate|].
  destruct (_ <? _); [discriminate|].
  destruct (splice _ _ _ _) as [o| |]; cbn [bind]; try discriminate.
  destruct (match g with Some _ => _ | None => _ end) as [o'| |]; cbn [bind]; try discriminate.
  intros H; injection H as <- _. reflexivity.
Qed.

Theorem io_handshake_stream fl h g d s w c e :
  len (hs_magic h) = 4 -> flatten fl s = (c, e) -> calm fl s ->
  run_map (hs_view fl) (io_handshake_with fl h g d s w) = pure_hs fl h g d c e w.
Proof.
  intros Hm F C. unfold io_handshake_with, pure_hs.
  destruct (send_key h g _) as [[[h1|y] kb]| |] eqn:SK; cbn [bind run_map]; try reflexivity.
  apply send_key_magic in SK. rewrite <- SK in Hm. clear SK h.
  destruct (write_flush fl w kb) as [[[]|k] w1]; [|reflexivity].
  change NUM_ELLIGATOR_SWIFT_BYTES with 64. change NUM_GARBAGE_TERMINTOR_BYTES with 16.
  destruct (read_exact_stream fl s 64 [] c e F) as [I1 I2].
  destruct (len c <? 64) eqn:L64.
  { destruct I2 as (s' & ->); [lia|]. reflexivity. }
  destruct I1 as (s1 & -> & F1 & C1 & K1); [lia|]. cbn [app].
  destruct (receive_key h1 (take 64 c)) as [[h2|y]| |] eqn:RK; cbn [bind run_map]; try reflexivity.
  destruct (send_version h2 _ d) as [[[h3|y] vb]| |] eqn:SV; cbn [bind run_map]; try reflexivity.
  assert (len (remote_garbage_terminator (hs_state h3)) = 16) as Ht.
  { eapply received_terminator; [exact Hm| |exact RK|exact SV]. rewrite len_take. lia. }
  destruct (write_flush fl w1 vb) as [[[]|k] w2]; [|reflexivity].
  set (c1 := drop 64 c) in *.
  destruct (read_exact_stream fl s1 16 [] c1 e F1) as [J1 J2].
  destruct (len c1 <? 16) eqn:L16.
  { destruct J2 as (s' & ->); [lia|]. reflexivity. }
  destruct J1 as (s2 & -> & F2 & C2 & K2); [lia|]. cbn [app].
  destruct (garbage_loop_stream fl h3 garbage_fuel (take 16 c1) s2 0 (drop 16 c1) e)
    as (x & s3 & r & G & Hr & M); auto.
  { rewrite len_take, N.min_l by lia. unfold garbage_fuel. lia. }
  { unfold garbage_fuel. lia. }
  rewrite G. rewrite take_drop in M. cbn [bind].
  destruct (receive_garbage h3 c1) as [[[h4 n|h4]|y]| |]; try contradiction; cbn [bind].
  - destruct M as (buf' & c' & -> & Ln & Hc & F3 & C3 & Kc).
    rewrite slice_ok by lia. cbn [bind].
    rewrite take_all by (rewrite len_drop; lia).
    set (sr := session_reader fl (drop n buf') s3).
    assert (session_stream fl sr = (drop n c1, e)) as SS.
    { unfold session_stream, sr. rewrite Hc, drop_app_le by lia.
      destruct fl; cbn [session_reader session_inner session_leftover]; rewrite F3, ?drop_0; reflexivity. }
    pose proof (version_loop_stream fl (S (length (session_content sr))) h4 sr _ _ [] SS) as V.
    assert (length (drop n c1) <= length (session_content sr))%nat as Lsc.
    { assert (exists z, session_content sr = drop n c1 ++ z) as (z & ->).
      { unfold sr. rewrite Hc, drop_app_le by lia.
        clear - F3. assert (exists z, content s3 = c' ++ z) as (z & Z).
        { revert c' F3. induction s3 as [|[[|b bs]|k|] s3 IH]; intros c' F3; cbn [flatten content] in *.
          - injection F3 as <- _. exists []. reflexivity.
          - injection F3 as <- _. exists (content s3). reflexivity.
          - destruct (flatten fl s3) as [c0 e0]. injection F3 as <- ->.
            destruct (IH c0 eq_refl) as (z & ->). exists z. cbn [app]. now rewrite app_assoc.
          - destruct (match fl, k with Sync, Interrupted => true | _, _ => false end) eqn:B.
            + destruct fl; [|discriminate]. destruct k; try discriminate. auto.
            + assert (([], Broken k) = (c', e)) as Q by (destruct fl, k; try discriminate; exact F3).
              injection Q as <- _. exists (content s3). reflexivity.
          - auto. }
        exists z. destruct fl; cbn [session_reader session_content]; rewrite Z, ?drop_0, app_assoc; reflexivity. }
      rewrite app_length. lia. }
    rewrite (pure_versions_fuel _ (S (length (drop n c1)))) in V by lia.
    rewrite <- V. unfold run_map.
    destruct (version_loop _ fl h4 sr []) as [[x a]| |]; reflexivity.
  - subst x. reflexivity.
  - subst x. reflexivity.
Qed.

(** ** Termination, for every script *)

Lemma read_content s n bs s' :
  read s n = (Data bs, s') -> content s = bs ++ content s'.
Proof.
  revert bs s'. induction s as [|[c|k|] s IH]; intros bs s'; cbn [read content].
  - intros H; injection H as <- <-. reflexivity.
  - destruct (len c <=? n); intros H; injection H as <- <-; [reflexivity|].
    cbn [content]. now rewrite app_assoc, take_drop.
  - discriminate.
  - apply IH.
Qed.

Lemma garbage_loop_reads h : forall fuel buf s reads,
  len (remote_garbage_terminator (hs_state h)) = 16 ->
  4111 <= N.of_nat fuel + len buf - 1 -> (0 < fuel)%nat ->
  exists x s' r, garbage_loop fuel h buf s reads = Ret (x, s', r) /\
    reads <= r <= reads + (4111 - len buf).
Proof.
  induction fuel as [|fuel IH]; intros buf s reads Ht Hf Hf0; [lia|].
  cbn [garbage_loop].
  destruct (receive_garbage_cases h buf Ht) as [(i & Hi & Fi & K)|[(_ & L & K)|(_ & L & K)]];
    rewrite K; cbn [bind found].
  - do 3 eexists. split; [reflexivity|]. lia.
  - do 3 eexists. split; [reflexivity|]. lia.
  - destruct (read s 256) as [[[|b bs]|k] s'].
    + do 3 eexists. split; [reflexivity|]. lia.
    + destruct (IH (buf ++ b :: bs) s' (reads + 1) Ht) as (x & s'' & r & G & Hr);
        [rewrite len_app, len_cons; lia|lia|].
      rewrite G. rewrite len_app, len_cons in Hr. do 3 eexists. split; [reflexivity|]. lia.
    + do 3 eexists. split; [reflexivity|]. lia.
Qed.

Lemma read_exact_content fl s n bs s' :
  read_exact fl s n [] = (Ok bs, s') -> content s = bs ++ content s' /\ len bs = n.
Proof.
  intros H. destruct (flatten fl s) as [c e] eqn:F.
  destruct (read_exact_stream fl s n [] c e F) as [I1 I2].
  destruct (N.le_gt_cases n (len c)) as [L|L].
  - destruct (I1 L) as (s1 & R & _ & _ & K). rewrite R in H. injection H as <- <-.
    rewrite len_take, N.min_l by assumption. auto.
  - destruct (I2 L) as (s1 & R). rewrite R in H. discriminate.
Qed.

Lemma session_read_exact_content fl sr n bs sr' :
  session_read_exact fl sr n = (Ok bs, sr') ->
  session_content sr = bs ++ session_content sr' /\ len bs = n.
Proof.
  intros H. destruct (session_stream fl sr) as [c e] eqn:F.
  destruct (session_read_exact_stream fl sr n c e F) as [I1 I2].
  destruct (N.le_gt_cases n (len c)) as [L|L].
  - destruct (I1 L) as (s1 & R & _ & _ & K). rewrite R in H. injection H as <- <-.
    rewrite len_take, N.min_l by assumption. auto.
  - destruct (I2 L) as (s1 & R). rewrite R in H. discriminate.
Qed.

Lemma version_loop_fuel fl : forall fuel h sr a,
  (length (session_content sr) < fuel)%nat -> version_loop fuel fl h sr a <> NoFuel.
Proof.
  induction fuel as [|fuel IH]; intros h sr a Hf; [lia|]. cbn [version_loop].
  destruct (session_read_exact fl sr _) as [[lb|k] sr1] eqn:R1; [|discriminate].
  apply session_read_exact_content in R1. destruct R1 as [R1 L1].
  apply fueled_bind; [apply fueled_hs_packet_len|]. intros [n h1].
  destruct (_ <? n); [discriminate|].
  destruct (session_read_exact fl sr1 _) as [[pb|k] sr2] eqn:R2; [|discriminate].
  apply session_read_exact_content in R2. destruct R2 as [R2 L2].
  apply fueled_bind; [apply fueled_receive_version|]. intros [[[s|h2]|y] b]; try discriminate.
  apply IH. change NUM_LENGTH_BYTES with 3 in L1. unfold len in *.
  apply (f_equal (@length byte)) in R1, R2. rewrite app_length in *. lia.
Qed.

(** C40 *)
Theorem io_handshake_terminates fl h g d s w :
  len (hs_magic h) = 4 ->
  io_handshake_with fl h g d s w <> NoFuel /\
  forall o, io_handshake_with fl h g d s w = Ret o -> ho_reads o <= 4095.
Proof.
  intros Hm.
  enough (match io_handshake_with fl h g d s w with
          | Ret o => ho_reads o <= 4095 | Panic => True | NoFuel => False end) as Q.
  { destruct (io_handshake_with fl h g d s w) as [o| |]; (split; [congruence|]); intros o' K;
      [injection K as <-; assumption|discriminate|discriminate]. }
  unfold io_handshake_with.
  assert (Triv : forall r w', ho_reads (HsOutcome r w' [] 0) <= 4095) by (cbn [ho_reads]; lia).
  pose proof (fueled_send_key h g (zeros (send_key_len g))) as Fk.
  destruct (send_key h g _) as [[[h1|y] kb]| |] eqn:SK; cbn [bind]; auto.
  apply send_key_magic in SK. rewrite <- SK in Hm. clear SK Fk h.
  destruct (write_flush fl w kb) as [[[]|k] w1]; [|auto].
  destruct (read_exact fl s _ _) as [[their|k] s1] eqn:R1; [|auto].
  apply read_exact_content in R1. destruct R1 as [_ L1]. change NUM_ELLIGATOR_SWIFT_BYTES with 64 in L1.
  pose proof (fueled_receive_key h1 their) as Fk.
  destruct (receive_key h1 their) as [[h2|y]| |] eqn:RK; cbn [bind]; auto.
  pose proof (fueled_send_version h2 (zeros (send_version_len d)) d) as Fv.
  destruct (send_version h2 _ d) as [[[h3|y] vb]| |] eqn:SV; cbn [bind]; auto.
  assert (len (remote_garbage_terminator (hs_state h3)) = 16) as Ht
    by (eapply received_terminator; [exact Hm|exact L1|exact RK|exact SV]).
  destruct (write_flush fl w1 vb) as [[[]|k] w2]; [|auto].
  destruct (read_exact fl s1 _ _) as [[gb|k] s2] eqn:R2; [|auto].
  apply read_exact_content in R2. destruct R2 as [_ L2]. change NUM_GARBAGE_TERMINTOR_BYTES with 16 in L2.
  destruct (garbage_loop_reads h3 garbage_fuel gb s2 0 Ht) as (x & s3 & r & G & Hr).
  { rewrite L2. unfold garbage_fuel. lia. }
  { unfold garbage_fuel. lia. }
  rewrite G. cbn [bind]. rewrite L2 in Hr.
  destruct x as [[[h4 n] gb']|y]; [|cbn [ho_reads]; lia].
  pose proof (fueled_slice gb' n (len gb')) as Fs.
  destruct (slice gb' n _) as [lo| |]; cbn [bind]; auto.
  pose proof (version_loop_fuel fl _ h4 (session_reader fl lo s3) [] (Nat.lt_succ_diag_r _)) as Fv2.
  destruct (version_loop _ _ _ _ _) as [[? ?]| |]; cbn [bind]; auto. cbn [ho_reads]. lia.
Qed.

End WithEnv.
