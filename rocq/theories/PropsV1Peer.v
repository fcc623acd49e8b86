(** * PropsV1Peer: what a peer that speaks V1 makes the handshake say (C119) *)
From Coq Require Import List NArith Bool Lia.
From Coq.Strings Require Import Byte.
From Verif Require Import Base BaseFacts Env FsChacha Spec Cipher Histories CipherProofs Handshake SpecHandshake HsDriver
  HandshakeProofs HsRunProofs Transport Io SpecIo Sessions TransportProofs IoProofs IoRunProofs SessionProofs EndpointProofs Toy
  PropsHandshake PropsIo SpecV1Peer.
Import ListNotations.
Local Open Scope N_scope.

Lemma encrypt_not_v1 {E : Env} c pt buf t aad x c' b :
  encrypt c pt buf t aad = Ret (Err x, c', b) -> x <> V1Protocol.
Proof.
  unfold encrypt. destruct (_ <? _); [intros H; assert (x = BufferTooSmall (encryption_buffer_len (len pt))) as -> by congruence; discriminate|].
  intros H. exfalso. repeat (apply bind_ret_inv in H; destruct H as (? & _ & H); repeat match type of H with (let (_, _) := ?p in _) = _ => destruct p end).
  discriminate.
Qed.

Lemma encrypt_into_not_v1 {E : Env} c out a n pt t aad x c' b :
  encrypt_into c out a n pt t aad = Ret (Err x, c', b) -> x <> V1Protocol.
Proof.
  unfold encrypt_into. intros H. apply bind_ret_inv in H. destruct H as (sub & _ & H).
  apply bind_ret_inv in H. destruct H as ([[r oc] s'] & Q & H).
  apply bind_ret_inv in H. destruct H as (o' & _ & H). injection H as -> _ _. eapply encrypt_not_v1; eassumption.
Qed.

Lemma send_decoys_not_v1 {E : Env} : forall ds c out n aad x c' b n' aad',
  send_decoys ds c out n aad = Ret (Err x, c', b, n', aad') -> x <> V1Protocol.
Proof.
  induction ds as [|d ds IH]; intros c out n aad x c' b n' aad' H; cbn [send_decoys] in H; [discriminate|].
  apply bind_ret_inv in H. destruct H as ([[[[]|y] c1] o1] & Q & H).
  - eapply IH; eassumption.
  - assert (x = y) as -> by congruence. eapply encrypt_into_not_v1; eassumption.
Qed.

Lemma send_version_not_v1 {E : Env} h out d x b :
  send_version h out d = Ret (Err x, b) -> x <> V1Protocol.
Proof.
  unfold send_version. destruct (_ <? _).
  { intros H. assert (x = BufferTooSmall (send_version_len d)) as -> by congruence. discriminate. }
  destruct (match hs_role h with Initiator => _ | Responder => _ end) as [lt rt].
  intros H. apply bind_ret_inv in H. destruct H as (o1 & _ & H).
  apply bind_ret_inv in H. destruct H as ([[[[[[]|y] c1] o2] n] a] & Q & H).
  - apply bind_ret_inv in H. destruct H as ([[[[]|y] c2] o3] & Q2 & H); [discriminate|].
    assert (x = y) as -> by congruence. eapply encrypt_into_not_v1; eassumption.
  - assert (x = y) as -> by congruence. eapply send_decoys_not_v1; eassumption.
Qed.

Lemma receive_version_not_v1 {E : Env} h buf x b :
  receive_version h buf = Ret (Err x, b) -> x <> V1Protocol.
Proof.
  unfold receive_version. intros H. apply bind_ret_inv in H. destruct H as ([[r ic] b1] & D & H).
  destruct r as [[[] pt]|y]; [discriminate..|]. assert (x = y) as -> by congruence. clear H.
  unfold decrypt_in_place, validate_ciphertext_size in D. destruct (_ <? _).
  { assert (y = CiphertextTooSmall) as -> by congruence. discriminate. }
  apply bind_ret_inv in D. destruct D as (n & _ & D). apply bind_ret_inv in D. destruct D as ([m t] & _ & D).
  apply bind_ret_inv in D. destruct D as ([[pt|] pc] & _ & D).
  - apply bind_ret_inv in D. destruct D as (? & _ & D). discriminate.
  - assert (y = Decryption) as -> by congruence. discriminate.
Qed.

Lemma pure_versions_not_v1 {E : Env} : forall f h c e a a',
  pure_versions f h c e a <> Ret (Err (Internal V1Protocol), a').
Proof.
  induction f as [|f IH]; intros h c e a a' H; cbn [pure_versions] in H; [discriminate|].
  destruct (len c <? 3); [destruct e; discriminate|].
  apply bind_ret_inv in H. destruct H as ([n h1] & _ & H). cbn zeta in H.
  destruct (MAX_PACKET_SIZE_FOR_ALLOCATION <? n); [discriminate|].
  destruct (len (drop 3 c) <? n); [destruct e; discriminate|].
  apply bind_ret_inv in H. destruct H as ([[[s|h2]|y] b] & R & H).
  - discriminate.
  - eapply IH; eassumption.
  - assert (y = V1Protocol) as -> by congruence. now apply receive_version_not_v1 in R.
Qed.

(** ** C119 *)

(** The handshake says that the peer speaks V1 only when the peer has sent 64 bytes that begin with the magic; whatever the
    transport of the writing side does. *)
Theorem C119_only : forall (E : Env) (EL : EnvLaws E) fl magic r sk g d s w c e o,
  len magic = 4 -> flatten fl s = (c, e) -> calm fl s -> io_handshake fl magic r sk g d s w = Ret o ->
  ho_result o = Err (Internal V1Protocol) -> 64 <= len c /\ take 4 c = magic.
Proof.
  intros E EL fl magic r sk g d s w c e o Hm F C H R.
  pose proof (view_ret _ _ _ _ _ _ _ _ _ _ _ Hm F C H) as P. unfold hs_view, stream_view in P. rewrite R in P. clear H R.
  unfold pure_handshake in P. apply bind_ret_inv in P. destruct P as ([h|y] & N & P).
  2:{ exfalso. assert (y = V1Protocol) as -> by congruence. unfold hs_new in N.
      destruct (_ && _); [discriminate|]. destruct (sk_valid sk); discriminate. }
  pose proof (hs_new_magic _ _ _ _ N) as M. unfold pure_hs in P.
  apply bind_ret_inv in P. destruct P as ([[h1|y] fa] & SK & P).
  2:{ exfalso. assert (y = V1Protocol) as -> by congruence. unfold send_key in SK.
      destruct (match g with Some _ => _ | None => _ end); [discriminate|]. destruct (_ <? _); [discriminate|].
      apply bind_ret_inv in SK. destruct SK as (? & _ & SK). apply bind_ret_inv in SK. destruct SK as (? & _ & SK). discriminate. }
  pose proof (send_key_magic _ _ _ _ _ SK) as M1.
  destruct (write_flush fl w fa) as [[[]|k] w1]; [|destruct k; discriminate].
  destruct (len c <? 64) eqn:L; [destruct e; discriminate|]. apply N.ltb_ge in L.
  assert (len (take 64 c) = 64) as Lt by (rewrite len_take; lia).
  split; [assumption|].
  destruct (receive_key_v1 h1 (take 64 c) Lt ltac:(congruence)) as [V _].
  replace (take 4 c) with (take 4 (take 64 c)) by (rewrite take_take; f_equal; reflexivity).
  assert (hs_magic h1 = magic) as <- by congruence. apply V.
  apply bind_ret_inv in P. destruct P as ([h2|y] & RK & P); [|rewrite RK; congruence].
  exfalso.
  apply bind_ret_inv in P. destruct P as ([[h3|y] vb] & SV & P).
  2:{ assert (y = V1Protocol) as -> by congruence. now apply send_version_not_v1 in SV. }
  assert (len (remote_garbage_terminator (hs_state h3)) = 16) as Ht.
  { eapply received_terminator; [|exact Lt|exact RK|exact SV]. congruence. }
  destruct (write_flush fl w1 vb) as [[[]|k] w2]; [|destruct k; discriminate]. cbn zeta in P.
  destruct (len (drop 64 c) <? 16); [destruct e; discriminate|].
  destruct (receive_garbage_cases h3 (drop 64 c) Ht) as [(i & _ & _ & G)|[(_ & _ & G)|(_ & _ & G)]];
    rewrite G in P; cbn [bind found] in P.
  - unfold found in P. apply bind_ret_inv in P. destruct P as ([x a] & V' & P).
    assert (x = Err (Internal V1Protocol)) as -> by congruence. now apply pure_versions_not_v1 in V'.
  - discriminate.
  - destruct e; discriminate.
Qed.
Print Assumptions C119_only.

(** What the first 64 bytes of the peer's stream decide. *)
Theorem C119_decided : forall (E : Env) (EL : EnvLaws E) fl magic r sk g d s w c e,
  len magic = 4 -> flatten fl s = (c, e) -> calm fl s -> healthy w ->
  sk_valid sk = true -> (debug_assertions = true -> sk <> zeros 32) -> len (garbage_bytes g) <= 4095 ->
  (len c < 64 -> exists o, io_handshake fl magic r sk g d s w = Ret o /\ ho_result o = Err (end_error e)) /\
  (64 <= len c -> take 4 c = magic ->
     exists o, io_handshake fl magic r sk g d s w = Ret o /\ ho_result o = Err (Internal V1Protocol)).
Proof.
  intros E EL fl magic r sk g d s w c e Hm F C Hw Hv Hz Hg.
  pose proof (start_ok magic r sk g Hv Hz Hg) as St. apply start_inv in St. destruct St as (h0 & N & SK).
  destruct (write_flush_healthy fl w (bip_first_flight sk (garbage_bytes g)) Hw) as (w1 & W1 & _ & _).
  assert (forall x, pure_handshake fl magic r sk g d c e w = Ret (Err x, w1, []) ->
          exists o, io_handshake fl magic r sk g d s w = Ret o /\ ho_result o = Err x) as Fin.
  { intros x P. destruct (ret_view _ _ _ _ _ _ _ _ _ _ _ Hm F C P) as (o & H & V). exists o. split; [assumption|].
    unfold hs_view in V. injection V as V _ _. destruct (ho_result o) as [[[i oc] sr]|z]; cbn [stream_view] in V; congruence. }
  unfold pure_handshake, pure_hs in Fin. rewrite N in Fin. cbn [bind] in Fin. rewrite SK in Fin. cbn [bind] in Fin.
  rewrite W1 in Fin. split.
  - intros L. apply Fin. now rewrite (proj2 (N.ltb_lt _ _) L).
  - intros L T. apply Fin. rewrite (proj2 (N.ltb_ge _ _) L).
    match goal with |- context [receive_key ?h ?b] => destruct (receive_key_v1 h b) as [V _] end.
    + rewrite len_take. lia.
    + assumption.
    + rewrite (proj2 V); [reflexivity|]. rewrite take_take. exact T.
Qed.
Print Assumptions C119_decided.

Lemma v1_bytes_len magic m : len magic = 4 -> v1_sized m -> len (v1_bytes magic m) = 24 + len (v1_payload m).
Proof.
  intros Hm (A & B & _). unfold v1_bytes. rewrite !len_app, A, B, Hm, len_le_bytes. lia.
Qed.

(** A peer that sends any V1 messages and then closes or breaks the connection: with 64 bytes or more it is told apart,
    with fewer the end of the stream is reported. *)
Theorem C119_v1_peer : forall (E : Env) (EL : EnvLaws E) fl magic r sk g d s w m ms e,
  len magic = 4 -> flatten fl s = (v1_stream magic (m :: ms), e) -> calm fl s -> healthy w ->
  sk_valid sk = true -> (debug_assertions = true -> sk <> zeros 32) -> len (garbage_bytes g) <= 4095 ->
  exists o, io_handshake fl magic r sk g d s w = Ret o /\
    ho_result o = Err (if 64 <=? len (v1_stream magic (m :: ms)) then Internal V1Protocol else end_error e).
Proof.
  intros E EL fl magic r sk g d s w m ms e Hm F C Hw Hv Hz Hg.
  destruct (C119_decided E EL fl magic r sk g d s w _ e Hm F C Hw Hv Hz Hg) as [D1 D2].
  destruct (64 <=? _) eqn:L.
  - apply D2; [lia|]. unfold v1_stream. cbn [map concat]. unfold v1_bytes. rewrite <- app_assoc.
    apply take_app_exact. lia.
  - apply D1. lia.
Qed.
Print Assumptions C119_v1_peer.

(** One message with a payload of 40 bytes is enough, and a version message has more than 80; less can be too little. *)
Theorem C119_one_message : forall (E : Env) (EL : EnvLaws E) fl magic r sk g d s w m ms e,
  len magic = 4 -> flatten fl s = (v1_stream magic (m :: ms), e) -> calm fl s -> healthy w ->
  sk_valid sk = true -> (debug_assertions = true -> sk <> zeros 32) -> len (garbage_bytes g) <= 4095 ->
  v1_sized m ->
  (40 <= len (v1_payload m) ->
     exists o, io_handshake fl magic r sk g d s w = Ret o /\ ho_result o = Err (Internal V1Protocol)) /\
  (len (v1_payload m) < 40 -> ms = [] -> e = Closed ->
     exists o, io_handshake fl magic r sk g d s w = Ret o /\ ho_result o = Err (Io UnexpectedEof RetryV1)).
Proof.
  intros E EL fl magic r sk g d s w m ms e Hm F C Hw Hv Hz Hg Sz.
  destruct (C119_v1_peer E EL fl magic r sk g d s w m ms e Hm F C Hw Hv Hz Hg) as (o & H & R).
  pose proof (v1_bytes_len magic m Hm Sz) as L.
  assert (len (v1_stream magic (m :: ms)) = 24 + len (v1_payload m) + len (v1_stream magic ms)) as L2.
  { unfold v1_stream. cbn [map concat]. rewrite len_app. lia. }
  split.
  - intros P. exists o. split; [assumption|]. rewrite R, (proj2 (N.leb_le _ _)) by lia. reflexivity.
  - intros P -> ->. exists o. split; [assumption|]. change (len (v1_stream magic [])) with 0 in L2.
    rewrite R, (proj2 (N.leb_gt _ _)) by lia. reflexivity.
Qed.
Print Assumptions C119_one_message.

(** The version message of a V1 peer, for the example and the refutation: 86 bytes of payload. *)
Definition sample_version : v1_message :=
  V1Message ([x76; x65; x72; x73; x69; x6f; x6e] ++ zeros 5) [x11; x22; x33; x44] (repeat x5a 86).

(** A peer that can be reached with V1 does not always get the suggestion to retry with V1: the one that says so itself gets
    an error without a suggestion. *)
Theorem C119_v1_gets_retry_refuted :
  ~ forall (E : Env) (EL : EnvLaws E) fl magic r sk g d s w m o,
      len magic = 4 -> flatten fl s = (v1_stream magic [m], Closed) -> calm fl s -> healthy w -> v1_sized m ->
      io_handshake fl magic r sk g d s w = Ret o -> exists k, ho_result o = Err (Io k RetryV1).
Proof.
  intros H.
  destruct (io_handshake (E := toy true) Sync mainnet Responder skb None None [Chunk (v1_bytes mainnet sample_version)] fresh)
    as [o| |] eqn:Q; [|vm_compute in Q; discriminate..].
  destruct (H (toy true) (toy_laws true) Sync mainnet Responder skb None None [Chunk (v1_bytes mainnet sample_version)] fresh
    sample_version o) as (k & R).
  - reflexivity.
  - vm_compute. reflexivity.
  - vm_compute. repeat constructor; discriminate.
  - split; constructor.
  - vm_compute. repeat split.
  - exact Q.
  - vm_compute in Q. injection Q as <-. vm_compute in R. discriminate.
Qed.
Print Assumptions C119_v1_gets_retry_refuted.

Example C119_example :
  let hs s := match io_handshake (E := toy true) Sync mainnet Responder skb None None s fresh with
              | Ret o => Some (ho_result o) | _ => None end in
  let verack := V1Message ([x76; x65; x72; x61; x63; x6b] ++ zeros 6) [x5d; xf6; xe0; xe2] [] in
  let says x y := match x with Some (Err z) => z = y | _ => False end in
  len (v1_bytes mainnet sample_version) = 110 /\ len (v1_bytes mainnet verack) = 24 /\
  says (hs [Chunk (v1_bytes mainnet sample_version)]) (Internal V1Protocol) /\
  says (hs [Chunk (v1_bytes mainnet verack)]) (Io UnexpectedEof RetryV1) /\
  says (hs [Chunk (v1_stream mainnet [verack; verack; verack])]) (Internal V1Protocol) /\
  says (hs [Chunk (take 63 (v1_bytes mainnet sample_version)); Fail (OtherKind 4)]) (Io (OtherKind 4) Abort) /\
  says (hs []) (Io UnexpectedEof RetryV1).
Proof. vm_compute. repeat split. Qed.
