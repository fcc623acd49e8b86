(** * PropsErrorLists: which errors each function can return (C120) *)
From Coq Require Import List NArith Bool Lia.
From Coq.Strings Require Import Byte.
From Verif Require Import Base BaseFacts Env FsChacha Spec Cipher Histories CipherFacts CipherProofs Handshake SpecHandshake HsDriver
  HandshakeProofs HsRunProofs Transport Io SpecIo Futures Sessions TransportProofs IoProofs FuturesProofs IoRunProofs SessionProofs
  EndpointProofs ReaderProofs Toy PropsCipher PropsHandshake PropsIo SpecErrorLists.
Import ListNotations.
Local Open Scope N_scope.

Lemma encrypt_error {E : Env} c pt buf t aad x c' b :
  encrypt c pt buf t aad = Ret (Err x, c', b) ->
  x = BufferTooSmall (encryption_buffer_len (len pt)) /\ len buf < encryption_buffer_len (len pt).
Proof.
  unfold encrypt. destruct (_ <? _) eqn:L; [intros H; split; [congruence|lia]|].
  intros H. exfalso. repeat (apply bind_ret_inv in H; destruct H as (? & _ & H); repeat match type of H with (let (_, _) := ?p in _) = _ => destruct p end).
  discriminate.
Qed.

Lemma encrypt_into_ok {E : Env} c out a pt t aad x c' b :
  encrypt_into c out a (encryption_buffer_len (len pt)) pt t aad <> Ret (Err x, c', b).
Proof.
  unfold encrypt_into. intros H. apply bind_ret_inv in H. destruct H as (sub & S & H).
  apply bind_ret_inv in H. destruct H as ([[r oc] s'] & Q & H).
  apply bind_ret_inv in H. destruct H as (o' & _ & H). injection H as -> _ _.
  apply encrypt_error in Q. destruct Q as [_ Q]. unfold slice in S.
  destruct (_ && _) eqn:B; [|discriminate]. injection S as <-. apply andb_prop in B. destruct B as [B1 B2].
  rewrite len_take, len_drop in Q. lia.
Qed.

Lemma send_decoys_ok {E : Env} : forall ds c out n aad x c' b n' aad',
  send_decoys ds c out n aad <> Ret (Err x, c', b, n', aad').
Proof.
  induction ds as [|d ds IH]; intros c out n aad x c' b n' aad' H; cbn [send_decoys] in H; [discriminate|].
  apply bind_ret_inv in H. destruct H as ([[[[]|y] c1] o1] & Q & H).
  - eapply IH; eassumption.
  - eapply encrypt_into_ok; eassumption.
Qed.

Lemma send_version_error {E : Env} h out d x b :
  send_version h out d = Ret (Err x, b) -> x = BufferTooSmall (send_version_len d) /\ len out < send_version_len d.
Proof.
  unfold send_version. destruct (_ <? _) eqn:L.
  { intros H. split; [congruence|lia]. }
  destruct (match hs_role h with Initiator => _ | Responder => _ end) as [lt rt].
  intros H. exfalso. apply bind_ret_inv in H. destruct H as (o1 & _ & H).
  apply bind_ret_inv in H. destruct H as ([[[[[[]|y] c1] o2] n] a] & Q & H).
  - apply bind_ret_inv in H. destruct H as ([[[[]|y] c2] o3] & Q2 & H); [discriminate|].
    eapply encrypt_into_ok; eassumption.
  - eapply send_decoys_ok; eassumption.
Qed.

Lemma send_key_error {E : Env} h g out x b : send_key h g out = Ret (Err x, b) ->
  (x = TooMuchGarbage /\ 4095 < len (garbage_bytes g)) \/ (x = BufferTooSmall (send_key_len g) /\ len out < send_key_len g).
Proof.
  unfold send_key. change MAX_NUM_GARBAGE_BYTES with 4095.
  destruct (match g with Some _ => _ | None => _ end) eqn:T.
  { intros H. left. split; [congruence|]. destruct g as [g|]; [cbn [garbage_bytes]; lia|discriminate]. }
  destruct (_ <? _) eqn:L; [intros H; right; split; [congruence|lia]|].
  intros H. exfalso. apply bind_ret_inv in H. destruct H as (? & _ & H). apply bind_ret_inv in H. destruct H as (? & _ & H). discriminate.
Qed.

Lemma in_place_error {E : Env} c ct aad x c' b : decrypt_in_place c ct aad = Ret (Err x, c', b) ->
  (x = CiphertextTooSmall /\ len ct < 17) \/ x = Decryption.
Proof.
  intros D. unfold decrypt_in_place, validate_ciphertext_size in D. change (NUM_TAG_BYTES + NUM_HEADER_BYTES) with 17 in D.
  destruct (_ <? _) eqn:L.
  { left. split; [congruence|lia]. }
  apply bind_ret_inv in D. destruct D as (n & _ & D). apply bind_ret_inv in D. destruct D as ([m t] & _ & D).
  apply bind_ret_inv in D. destruct D as ([[pt|] pc] & _ & D).
  - apply bind_ret_inv in D. destruct D as (? & _ & D). discriminate.
  - right. congruence.
Qed.

Lemma receive_version_error {E : Env} h buf x b : receive_version h buf = Ret (Err x, b) ->
  (x = CiphertextTooSmall /\ len buf < 17) \/ x = Decryption.
Proof.
  unfold receive_version. intros H. apply bind_ret_inv in H. destruct H as ([[r ic] b1] & D & H).
  destruct r as [[[] pt]|y]; [discriminate..|]. assert (x = y) as -> by congruence.
  eapply in_place_error; eassumption.
Qed.

Lemma decrypt_error {E : Env} c ct buf aad x c' b : decrypt c ct buf aad = Ret (Err x, c', b) ->
  x = CiphertextTooSmall \/ (exists n, x = BufferTooSmall n) \/ x = Decryption.
Proof.
  intros D. unfold decrypt, validate_ciphertext_size in D. destruct (_ <? _).
  { left. congruence. }
  apply bind_ret_inv in D. destruct D as (n & _ & D). apply bind_ret_inv in D. destruct D as ([m t] & _ & D).
  destruct (_ <? _). { right. left. exists (len m). congruence. }
  apply bind_ret_inv in D. destruct D as (? & _ & D). apply bind_ret_inv in D. destruct D as (? & _ & D).
  apply bind_ret_inv in D. destruct D as ([[pt|] pc] & _ & D).
  - apply bind_ret_inv in D. destruct D as (? & _ & D). apply bind_ret_inv in D. destruct D as (? & _ & D). discriminate.
  - right. right. congruence.
Qed.

Lemma vec_error {E : Env} c ct aad x c' : decrypt_to_vec c ct aad = Ret (Err x, c') ->
  (x = CiphertextTooSmall /\ len ct < 17) \/ x = PacketTooBig \/ x = Decryption.
Proof.
  intros H. destruct (N.lt_ge_cases (len ct) 16) as [L|L].
  { rewrite decrypt_to_vec_short in H by assumption. destruct overflow_checks; [discriminate|]. right. left. congruence. }
  unfold decrypt_to_vec, decryption_buffer_len in H. change NUM_TAG_BYTES with 16 in H. rewrite sub_w_ok in H by lia. cbn [bind] in H.
  destruct (_ <? _); [right; left; congruence|].
  apply bind_ret_inv in H. destruct H as ([[[t|y] c1] b] & D & H); [discriminate|]. assert (x = y) as -> by congruence.
  destruct (decrypt_size_errors _ _ _ _ _ _ _ D) as [S1 S2].
  destruct (decrypt_error _ _ _ _ _ _ _ D) as [-> |[(n & ->)| ->]].
  - left. split; [reflexivity|]. now apply S1.
  - exfalso. destruct (proj1 (S2 n) eq_refl) as (_ & B & _). rewrite len_zeros in B. lia.
  - auto.
Qed.

Lemma garbage_error {E : Env} h buf x : receive_garbage h buf = Ret (Err x) -> x = NoGarbageTerminator.
Proof.
  unfold receive_garbage. intros H. apply bind_ret_inv in H. destruct H as ([[g rest]|y] & S & H); [discriminate|].
  unfold split_garbage in S. apply bind_ret_inv in S. destruct S as (se & _ & S).
  destruct (window_position _ se).
  - apply bind_ret_inv in S. destruct S as ([? ?] & _ & S). apply bind_ret_inv in S. destruct S as (? & _ & S). discriminate.
  - destruct (_ <=? _); injection S as <-; [congruence|discriminate].
Qed.

Lemma garbage_loop_error {E : Env} : forall fuel h b s n x s' n', garbage_loop fuel h b s n = Ret (Err x, s', n') ->
  pkind_of x = KIo \/ pkind_of x = KNoGarbageTerminator.
Proof.
  induction fuel as [|f IH]; intros h b s n x s' n' H; cbn [garbage_loop] in H; [discriminate|].
  apply bind_ret_inv in H. destruct H as ([[h1 m|h1]|y] & G & H).
  - discriminate.
  - destruct (read s 256) as [[[|b0 bs]|k] s1].
    + injection H as <- _ _. auto.
    + eapply IH; eassumption.
    + injection H as <- _ _. auto.
  - apply garbage_error in G. injection H as <- _ _. subst y. auto.
Qed.

Lemma version_loop_error {E : Env} {EL : EnvLaws E} fl : forall fuel h sr a x a', version_loop fuel fl h sr a = Ret (Err x, a') ->
  pkind_of x = KIo \/ pkind_of x = KPacketTooBig \/ pkind_of x = KDecryption.
Proof.
  induction fuel as [|f IH]; intros h sr a x a' H; cbn [version_loop] in H; [discriminate|].
  destruct (session_read_exact fl sr NUM_LENGTH_BYTES) as [[lb|k] sr1] eqn:R1; [|injection H as <- _; auto].
  apply session_read_exact_content in R1. destruct R1 as [_ L1].
  apply bind_ret_inv in H. destruct H as ([n h1] & D & H).
  destruct (_ <? n); [injection H as <- _; auto|]. cbn zeta in H.
  destruct (session_read_exact fl sr1 n) as [[pb|k] sr2] eqn:R2; [|injection H as <- _; auto].
  apply session_read_exact_content in R2. destruct R2 as [_ L2].
  apply bind_ret_inv in H. destruct H as ([[[c|h2]|y] b] & R & H).
  - destruct (into_split c). discriminate.
  - eapply IH; eassumption.
  - injection H as <- _. apply receive_version_error in R. destruct R as [[-> R]| ->]; [|auto].
    exfalso. unfold hs_decrypt_packet_len in D. apply bind_ret_inv in D. destruct D as ([m ic] & D & Q). injection Q as <- _.
    apply packet_len_range in D; [lia|assumption].
Qed.

Lemma handshake_kinds {E : Env} {EL : EnvLaws E} fl magic r sk g d s w o x :
  len magic = 4 -> io_handshake fl magic r sk g d s w = Ret o -> ho_result o = Err x ->
  In (pkind_of x) [KIo; KSecretGeneration; KV1Protocol; KNoGarbageTerminator; KPacketTooBig; KDecryption] \/
  (pkind_of x = KTooMuchGarbage /\ 4095 < len (garbage_bytes g)).
Proof.
  intros Hm H R.
  unfold io_handshake in H. apply bind_ret_inv in H. destruct H as ([h|y] & N & H).
  2:{ injection H as <-. cbn [ho_result] in R. injection R as <-. unfold hs_new in N.
      destruct (_ && _); [discriminate|]. destruct (sk_valid sk); [discriminate|]. injection N as <-. left. cbn. auto 10. }
  pose proof (hs_new_magic _ _ _ _ N) as M. unfold io_handshake_with in H.
  apply bind_ret_inv in H. destruct H as ([[h1|y] fa] & SK & H).
  2:{ injection H as <-. cbn [ho_result] in R. injection R as <-. apply send_key_error in SK.
      destruct SK as [[-> SK]|[_ SK]]; [cbn; auto|]. rewrite len_zeros in SK. lia. }
  pose proof (send_key_magic _ _ _ _ _ SK) as M1.
  destruct (write_flush fl w fa) as [[[]|k] w1].
  2:{ injection H as <-. cbn [ho_result] in R. injection R as <-. left. cbn. auto 10. }
  destruct (read_exact fl s NUM_ELLIGATOR_SWIFT_BYTES []) as [[their|k] s1] eqn:R1.
  2:{ injection H as <-. cbn [ho_result] in R. injection R as <-. left. cbn. auto 10. }
  apply read_exact_content in R1. destruct R1 as [_ Ht].
  destruct (receive_key_v1 h1 their Ht ltac:(congruence)) as [V1 V2].
  apply bind_ret_inv in H. destruct H as ([h2|y] & RK & H).
  2:{ injection H as <-. cbn [ho_result] in R. injection R as <-.
      destruct (bytes_eqb (take 4 their) (hs_magic h1)) eqn:Q.
      - apply bytes_eqb_spec in Q. rewrite (proj2 V1 Q) in RK. injection RK as <-. left. cbn. auto 10.
      - apply bytes_eqb_neq in Q. destruct (V2 Q) as (m & H' & _). rewrite H' in RK. discriminate. }
  apply bind_ret_inv in H. destruct H as ([[h3|y] vb] & SV & H).
  2:{ apply send_version_error in SV. destruct SV as [_ SV]. rewrite len_zeros in SV. lia. }
  destruct (write_flush fl w1 vb) as [[[]|k] w2].
  2:{ injection H as <-. cbn [ho_result] in R. injection R as <-. left. cbn. auto 10. }
  destruct (read_exact fl s1 NUM_GARBAGE_TERMINTOR_BYTES []) as [[gb|k] s2].
  2:{ injection H as <-. cbn [ho_result] in R. injection R as <-. left. cbn. auto 10. }
  apply bind_ret_inv in H. destruct H as ([[[[[h4 n] gb']|y] s3] reads] & GL & H).
  2:{ injection H as <-. cbn [ho_result] in R. injection R as <-. apply garbage_loop_error in GL.
      destruct GL as [-> | ->]; left; cbn; auto 10. }
  apply bind_ret_inv in H. destruct H as (lo & _ & H). cbn zeta in H.
  apply bind_ret_inv in H. destruct H as ([y al] & V & H). injection H as <-. cbn [ho_result] in R. subst y.
  apply version_loop_error in V. destruct V as [-> |[-> | ->]]; left; cbn; auto 10.
Qed.

(** ** C120 *)

(** Nothing else occurs: in every environment, for every call. *)
Theorem C120_only : forall (E : Env) (EL : EnvLaws E) a k, gives a k -> In k (occurring a).
Proof.
  intros E EL a k G. destruct a; cbn [gives occurring] in *.
  - destruct G as (h & g & out & x & b & H & ->). apply send_key_error in H. destruct H as [[-> _]|[-> _]]; cbn; auto.
  - destruct G as (h & their & x & Hm & Ht & H & ->).
    destruct (receive_key_v1 h their Ht Hm) as [V1 V2].
    destruct (bytes_eqb (take 4 their) (hs_magic h)) eqn:Q.
    + apply bytes_eqb_spec in Q. rewrite (proj2 V1 Q) in H. injection H as <-. cbn. auto.
    + apply bytes_eqb_neq in Q. destruct (V2 Q) as (m & H' & _). rewrite H' in H. discriminate.
  - destruct G as (h & out & d & x & b & H & ->). apply send_version_error in H. destruct H as [-> _]. cbn. auto.
  - destruct G as (h & buf & x & H & ->). apply garbage_error in H. subst x. cbn. auto.
  - destruct G as (h & buf & x & b & H & ->). apply receive_version_error in H. destruct H as [[-> _]| ->]; cbn; auto.
  - destruct G as (a & b & sk & p & magic & x & Hm & H & ->).
    destruct (derivation a b sk p magic Hm) as (m & H' & _). rewrite H' in H. discriminate.
  - destruct G as (c & ct & aad & x & c' & b & H & ->). apply in_place_error in H. destruct H as [[-> _]| ->]; cbn; auto.
  - destruct G as (c & ct & buf & aad & x & c' & b & H & ->). apply decrypt_error in H.
    destruct H as [-> |[(n & ->)| ->]]; cbn; auto.
  - destruct G as (c & ct & aad & x & c' & H & ->). apply vec_error in H. destruct H as [[-> _]|[-> | ->]]; cbn; auto.
  - destruct G as (c & pt & buf & t & aad & x & c' & b & H & ->). apply encrypt_error in H. destruct H as [-> _]. cbn. auto.
  - destruct G as (magic & r & sk & g & d & s & w & o & x & Hm & H & R & ->).
    destruct (handshake_kinds _ _ _ _ _ _ _ _ _ _ Hm H R) as [Q|[-> _]]; [|cbn; auto]. cbn in Q |- *. tauto.
  - destruct G as (r & x & r' & a & H & ->). destruct (session_stream Sync (sr_reader r)) as [wire e] eqn:S.
    pose proof (sync_read_sound _ _ _ _ _ _ S H) as M. destruct x as [k s|y]; cbn [pkind_of]; [cbn; auto|].
    destruct M as (n & _ & _ & _ & _ & [[-> _]|[-> _]]); cbn; auto.
  - destruct G as (acts & c & sr & xs & r & f & x & r' & f' & S & P & ->).
    destruct x as [k s|y]; cbn [pkind_of]; [cbn; auto|].
    destruct (reachable_failure _ _ _ _ _ _ _ _ _ S P) as [-> _]. cbn. auto.
  - destruct G as (p & pl & x & p' & H & ->). unfold sync_write in H.
    apply bind_ret_inv in H. destruct H as (ct & _ & H). apply bind_ret_inv in H. destruct H as (t & _ & H).
    apply bind_ret_inv in H. destruct H as ([pb c] & _ & H). destruct (write_flush _ _ _) as [[[]|k] w]; [discriminate|].
    injection H as <- _. cbn. auto.
  - destruct G as (p & pl & x & p' & H & ->). unfold tokio_write in H.
    apply bind_ret_inv in H. destruct H as (ct & _ & H). apply bind_ret_inv in H. destruct H as (t & _ & H). cbn zeta in H.
    apply bind_ret_inv in H. destruct H as ([[[[]|y] c] pb] & Q & H).
    + destruct (write_flush _ _ _) as [[[]|k] w]; [discriminate|]. injection H as <- _. cbn. auto.
    + apply encrypt_error in Q. destruct Q as [_ Q]. rewrite len_zeros in Q. lia.
Qed.
Print Assumptions C120_only.

Lemma big_read (body : bytes) : len body = 16777232 ->
  exists r', @sync_read (toy true) (SyncReader toy_in (ChainReader [] true [Chunk (max_prefix ++ body)])) =
    Ret (Err (Internal PacketTooBig), r', Some 16777232).
Proof.
  intros L.
  assert (session_stream Sync (ChainReader [] true [Chunk (max_prefix ++ body)]) = (max_prefix ++ body, Closed)) as S.
  { generalize body. clear. intros body. cbn. now rewrite ?app_nil_r. }
  unfold sync_read. cbn [sr_reader sr_cipher]. change NUM_LENGTH_BYTES with 3.
  destruct (session_read_exact_stream Sync _ 3 _ _ S) as [I1 _].
  destruct I1 as (sr1 & -> & S1 & _); [rewrite len_app; change (len max_prefix) with 3; lia|].
  rewrite take_app_exact by reflexivity. rewrite drop_app_exact in S1 by reflexivity.
  destruct (@decrypt_packet_len (toy true) toy_in max_prefix) as [[n c]| |] eqn:D; [|vm_compute in D; discriminate..].
  assert (n = 16777232) as -> by (vm_compute in D; congruence). cbn [bind].
  destruct (session_read_exact_stream Sync sr1 16777232 body Closed S1) as [J1 _].
  destruct J1 as (sr2 & -> & _); [lia|].
  rewrite (decrypt_to_vec_too_big (E := toy true)); [|rewrite len_take; lia]. cbn [bind]. eauto.
Qed.

(** Everything in the lists occurs. *)
Theorem C120_all_occur : forall a k, In k (occurring a) -> @gives (toy true) a k.
Proof.
  set (h0 := Handshake mainnet Initiator (Initialized (EcdhPoint ska (@ellswift_of (toy true) ska)))).
  set (b := snd sample_wires).
  intros a k. destruct a; cbn [occurring In gives]; intros H;
    repeat match goal with H : _ \/ _ |- _ => destruct H as [<-|H] | H : False |- _ => destruct H end.
  - exists h0, (Some (zeros 4096)), [], TooMuchGarbage. eexists. split; [vm_compute; reflexivity|reflexivity].
  - exists h0, None, [], (BufferTooSmall 64). eexists. split; [vm_compute; reflexivity|reflexivity].
  - exists (Handshake mainnet Initiator (SentKey (EcdhPoint ska (counting 9 64)) None)), (mainnet ++ zeros 60), V1Protocol.
    vm_compute. repeat split.
  - exists (Handshake mainnet Initiator (ReceivedKey km None)), [], None, (BufferTooSmall 36). eexists.
    split; [vm_compute; reflexivity|reflexivity].
  - exists (Handshake mainnet Initiator (SentVersion (session_new km Initiator) (repeat x01 16))), (zeros 4111), NoGarbageTerminator.
    split; [vm_compute; reflexivity|reflexivity].
  - exists (Handshake mainnet Initiator (ReceivedGarbage (session_new km Initiator) None)), (zeros 20), Decryption. eexists.
    split; [vm_compute; reflexivity|reflexivity].
  - exists (Handshake mainnet Initiator (ReceivedGarbage (session_new km Initiator) None)), (zeros 16), CiphertextTooSmall. eexists.
    split; [vm_compute; reflexivity|reflexivity].
  - exists toy_in, (zeros 16), None, CiphertextTooSmall. do 2 eexists. split; [vm_compute; reflexivity|reflexivity].
  - exists toy_in, (zeros 17), None, Decryption. do 2 eexists. split; [vm_compute; reflexivity|reflexivity].
  - exists toy_in, (zeros 16), [], None, CiphertextTooSmall. do 2 eexists. split; [vm_compute; reflexivity|reflexivity].
  - exists toy_in, (zeros 17), [], None, (BufferTooSmall 1). do 2 eexists. split; [vm_compute; reflexivity|reflexivity].
  - exists toy_in, (zeros 17), (zeros 1), None, Decryption. do 2 eexists. split; [vm_compute; reflexivity|reflexivity].
  - exists toy_in, (zeros 16), None, CiphertextTooSmall. eexists. split; [vm_compute; reflexivity|reflexivity].
  - exists toy_in, (zeros 4000031), None, PacketTooBig. exists toy_in. split; [|reflexivity].
    apply decrypt_to_vec_too_big. rewrite len_zeros. lia.
  - exists toy_in, (zeros 17), None, Decryption. eexists. split; [vm_compute; reflexivity|reflexivity].
  - exists toy_in, [], [], Genuine, None, (BufferTooSmall 20). do 2 eexists. split; [vm_compute; reflexivity|reflexivity].
  - exists mainnet, Initiator, ska, None, None, [], fresh. do 2 eexists. split; [reflexivity|].
    split; [destruct fl; vm_compute; reflexivity|]. split; reflexivity.
  - exists mainnet, Initiator, (zeros 31), None, None, [], fresh. do 2 eexists. split; [reflexivity|].
    split; [destruct fl; vm_compute; reflexivity|]. split; reflexivity.
  - exists mainnet, Initiator, ska, (Some (zeros 4096)), None, [], fresh. do 2 eexists. split; [reflexivity|].
    split; [destruct fl; vm_compute; reflexivity|]. split; reflexivity.
  - exists mainnet, Initiator, ska, None, None, [Chunk (mainnet ++ zeros 60)], fresh. do 2 eexists. split; [reflexivity|].
    split; [destruct fl; vm_compute; reflexivity|]. split; reflexivity.
  - exists mainnet, Initiator, ska, (Some (repeat x2a 300)), None, [Chunk (take 64 b ++ zeros 4111)], fresh. do 2 eexists.
    split; [reflexivity|]. split; [destruct fl; vm_compute; reflexivity|]. split; reflexivity.
  - exists mainnet, Initiator, ska, (Some (repeat x2a 300)), None, [Chunk (take 120 b ++ [x00; xff; xff] ++ zeros 30)], fresh.
    do 2 eexists. split; [reflexivity|]. split; [destruct fl; vm_compute; reflexivity|]. split; reflexivity.
  - exists mainnet, Initiator, ska, (Some (repeat x2a 300)), None, [Chunk (take 123 b ++ zeros 40)], fresh.
    do 2 eexists. split; [reflexivity|]. split; [destruct fl; vm_compute; reflexivity|]. split; reflexivity.
  - exists (SyncReader toy_in (ChainReader [] true [])). do 3 eexists. split; [vm_compute; reflexivity|reflexivity].
  - destruct (big_read (zeros 16777232) (len_zeros _)) as (r' & R).
    exists (SyncReader toy_in (ChainReader [] true [Chunk (max_prefix ++ zeros 16777232)])), (Internal PacketTooBig), r', (Some 16777232).
    split; [exact R|reflexivity].
  - exists (SyncReader toy_in (ChainReader [] true [Chunk (take 4 two_packets ++ [x55] ++ drop 5 two_packets)])). do 3 eexists.
    split; [vm_compute; reflexivity|reflexivity].
  - exists [], toy_in, (TokioReader [] 0 []). do 6 eexists. split; [vm_compute; reflexivity|]. split; [vm_compute; reflexivity|reflexivity].
  - exists [], toy_in, (TokioReader [] 0 [Chunk (take 4 two_packets ++ [x55] ++ drop 5 two_packets)]). do 6 eexists.
    split; [vm_compute; reflexivity|]. split; [vm_compute; reflexivity|reflexivity].
  - exists (PWriter toy_in (Writer [WFail (OtherKind 32)] [] [])), (Decrypted [x00; x01]). do 2 eexists. split; [vm_compute; reflexivity|reflexivity].
  - exists (PWriter toy_in (Writer [WFail (OtherKind 32)] [] [])), (Decrypted [x00; x01]). do 2 eexists. split; [vm_compute; reflexivity|reflexivity].
Qed.
Print Assumptions C120_all_occur.

(** The documentation of the functions without I/O lists every error that occurs. *)
Theorem C120_documented : forall (E : Env) (EL : EnvLaws E) a l k,
  documented a = Some l -> (forall fl, a <> AHandshake fl) -> gives a k -> In k l.
Proof.
  intros E EL a l k D NH G. apply C120_only in G; [|assumption]. destruct a; cbn in D, G; try discriminate;
    try (now destruct (NH fl)); injection D as <-; cbn; tauto.
Qed.
Print Assumptions C120_documented.

(** Three of the listed errors never occur: the key derivation cannot fail, and sending the version decrypts nothing.  All
    others do. *)
Theorem C120_listed : forall a l k, documented a = Some l -> In k l ->
  ((a = AReceiveKey /\ k = KSecretGeneration) \/ (a = AFromEcdh /\ k = KSecretGeneration) \/ (a = ASendVersion /\ k = KDecryption)) /\
    (forall (E : Env) (EL : EnvLaws E), ~ gives a k) \/
  @gives (toy true) a k.
Proof.
  intros a l k D H.
  assert (In k (occurring a) \/ ~ In k (occurring a) /\
    ((a = AReceiveKey /\ k = KSecretGeneration) \/ (a = AFromEcdh /\ k = KSecretGeneration) \/ (a = ASendVersion /\ k = KDecryption))) as Q.
  { destruct a; cbn in D; try discriminate; injection D as <-; cbn in H |- *;
      repeat match goal with H : _ \/ _ |- _ => destruct H as [<-|H] | H : False |- _ => destruct H end; auto 10;
      right; (split; [intros W; repeat match goal with H : _ \/ _ |- _ => destruct H as [W|W] end; (discriminate || contradiction)|auto]). }
  destruct Q as [Q|[Q1 Q2]].
  - right. now apply C120_all_occur.
  - left. split; [assumption|]. intros E EL G. now apply C120_only in G.
Qed.
Print Assumptions C120_listed.

(** The documentation of the handshake lists the errors of the transport only. *)
Theorem C120_handshake_documented_refuted :
  ~ forall (E : Env) (EL : EnvLaws E) fl l k, documented (AHandshake fl) = Some l -> gives (AHandshake fl) k -> In k l.
Proof.
  intros H. destruct (H (toy true) (toy_laws true) Sync [KIo] KV1Protocol eq_refl) as [Q|[]]; [|discriminate].
  apply C120_all_occur. cbn. auto.
Qed.
Print Assumptions C120_handshake_documented_refuted.

Theorem C120_listed_occurs_refuted :
  ~ forall a l k, documented a = Some l -> In k l -> exists (E : Env) (EL : EnvLaws E), gives a k.
Proof.
  intros H. destruct (H AReceiveKey [KV1Protocol; KSecretGeneration] KSecretGeneration eq_refl) as (E & EL & G); [cbn; auto|].
  apply C120_only in G; [|assumption]. cbn in G. destruct G as [G|[]]. discriminate.
Qed.
Print Assumptions C120_listed_occurs_refuted.

(** A read that is refused for its size in one of the two readers only, an error of the handshake that is not documented, and
    a call with too small a buffer. *)
Example C120_example :
  In KPacketTooBig (occurring ARead) /\ ~ In KPacketTooBig (occurring AReadAsync) /\
  (match io_handshake (E := toy true) Tokio mainnet Responder skb None None [Chunk (repeat x33 64 ++ repeat x44 5000)] fresh with
   | Ret o => match ho_result o with Err x => pkind_of x = KNoGarbageTerminator | _ => False end
   | _ => False
   end) /\
  match send_version (E := toy true) (Handshake mainnet Initiator (ReceivedKey km None)) (zeros 60) (Some [zeros 5]) with
  | Ret (Err x, _) => kind_of x = KBufferTooSmall /\ x = BufferTooSmall 61
  | _ => False
  end.
Proof. split; [cbn; auto|]. split; [cbn; intuition discriminate|]. vm_compute. repeat split. Qed.
