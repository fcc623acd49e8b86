(** * PropsClone: copies of a cipher (C82)

    [OutboundCipher], [InboundCipher] and [CipherSession] derive [Clone] (lib.rs:416, 590, 692): a copy is a second value in
    the same state, and both can be used. *)
From Coq Require Import List PeanoNat NArith Bool Lia ZifyBool ZifyN ZifyNat.
From Coq.Strings Require Import Byte.
From Verif Require Import Base BaseFacts Env FsChacha Cipher Spec Histories FsChachaProofs CipherProofs SpecIntegrity IntegrityProofs
  PropsIntegrity SpecSecrecy SecrecyProofs Toy PropsCipher PropsSecrecy.
Import ListNotations.
Local Open Scope N_scope.

(** The plaintext of a message as BIP-324 has it: header and contents. *)
Definition plaintext_of (x : msg) : bytes := bip_header (is_decoy (m_type x)) :: m_contents x.

Lemma xor_take n : forall a b, take n (xor_with a b) = xor_with (take n a) (take n b).
Proof.
  unfold take. induction (N.to_nat n) as [|k IH]; intros a b; [reflexivity|].
  destruct a as [|x a], b as [|y b]; cbn [firstn xor_with]; try reflexivity.
  now rewrite IH.
Qed.

Lemma xor_cancel : forall k a b, len k = len a -> len k = len b -> xor_with (xor_with k a) (xor_with k b) = xor_with a b.
Proof.
  intros k a b La Lb. rewrite (xor_with_comm k a) by assumption. rewrite xor_assoc by (rewrite ?len_xor_with; lia).
  now rewrite xor_with_invol.
Qed.

Section Stream.
Context {E : Env} {EL : EnvLaws E}.
Lemma body_of_packet kL kP i d a c : drop 3 (bip_packet kL kP i d a c) = bip_body kP i d a c.
Proof. unfold bip_packet. apply drop_app_exact. unfold bip_length_prefix. now rewrite len_xor_with, len_le_bytes. Qed.

Lemma prefix_of_packet kL kP i d a c : take 3 (bip_packet kL kP i d a c) = bip_length_prefix kL i (len c).
Proof. unfold bip_packet. apply take_app_exact. unfold bip_length_prefix. now rewrite len_xor_with, len_le_bytes. Qed.

Lemma session_then m r pre p0 c ms ps c' : len pre + len ms < 2 ^ 32 ->
  send_all (outbound (session_new m r)) pre = Ret (p0, c) -> send_all c ms = Ret (ps, c') ->
  ps = bip_stream (send_length_key m r) (send_packet_key m r) (len pre) (map to_bip ms).
Proof.
  intros L H H'. rewrite session_out_at, send_all_at in H by lia. injection H as _ <-.
  change (0 + len pre) with (len pre) in H'. rewrite send_all_at in H' by lia. now injection H' as <- _.
Qed.
End Stream.

(** ** C82 *)

(** Packets that two copies make at the same place of their histories use the same key stream: what they show together
    is the difference of the two messages, as far as the shorter goes, and of their lengths. *)
Theorem C82_reuse : forall (E : Env) (EL : EnvLaws E) m r pre p0 c xs ys ps qs cx cy i x y p q,
  send_all (outbound (session_new m r)) pre = Ret (p0, c) ->
  send_all c xs = Ret (ps, cx) -> send_all c ys = Ret (qs, cy) ->
  len pre + len xs < 2 ^ 32 -> len pre + len ys < 2 ^ 32 ->
  nth_error xs i = Some x -> nth_error ys i = Some y -> nth_error ps i = Some p -> nth_error qs i = Some q ->
  let n := 1 + N.min (len (m_contents x)) (len (m_contents y)) in
  KeystreamSplits E ->
  xor_with (take n (drop 3 p)) (take n (drop 3 q)) = xor_with (take n (plaintext_of x)) (take n (plaintext_of y)) /\
  xor_with (take 3 p) (take 3 q) = xor_with (le_bytes 3 (len (m_contents x))) (le_bytes 3 (len (m_contents y))).
Proof.
  intros E EL m r pre p0 c xs ys ps qs cx cy i x y p q H0 Hx Hy Lx Ly Nx Ny Np Nq n Sp.
  rewrite (session_then _ _ _ _ _ _ _ _ Lx H0 Hx) in Np. rewrite (session_then _ _ _ _ _ _ _ _ Ly H0 Hy) in Nq.
  rewrite (stream_nth _ _ _ _ _ (is_decoy (m_type x)) (aad_or_default (m_aad x)) (m_contents x)) in Np
    by (rewrite nth_error_map, Nx; reflexivity).
  rewrite (stream_nth _ _ _ _ _ (is_decoy (m_type y)) (aad_or_default (m_aad y)) (m_contents y)) in Nq
    by (rewrite nth_error_map, Ny; reflexivity).
  injection Np as <-. injection Nq as <-. rewrite !body_of_packet, !prefix_of_packet. split.
  - unfold bip_body, rfc_aead. fold (plaintext_of x) (plaintext_of y).
    set (k := bip_packet_key _ _). set (nn := bip_packet_nonce _).
    assert (T : forall z, n <= len (plaintext_of z) ->
      forall t, take n (xor_with (keystream k nn 64 (len (plaintext_of z))) (plaintext_of z) ++ t) =
        xor_with (keystream k nn 64 n) (take n (plaintext_of z))).
    { intros z Hz t. rewrite take_app_le by (rewrite len_xor_with; exact Hz). rewrite xor_take. f_equal.
      replace (len (plaintext_of z)) with (n + (len (plaintext_of z) - n)) by lia. rewrite Sp.
      apply take_app_exact. now rewrite keystream_len. }
    assert (Px : n <= len (plaintext_of x)) by (unfold n, plaintext_of; rewrite len_cons; lia).
    assert (Py : n <= len (plaintext_of y)) by (unfold n, plaintext_of; rewrite len_cons; lia).
    rewrite !T by assumption. apply xor_cancel; rewrite keystream_len, len_take; lia.
  - unfold bip_length_prefix. apply xor_cancel; rewrite keystream_len, len_le_bytes; reflexivity.
Qed.
Print Assumptions C82_reuse.

(** So what C80 says of one cipher is false of two copies that both send. *)
Theorem C82_hidden_refuted :
  ~ forall (E : Env) (EL : EnvLaws E) m r xs ys xs' ys',
      len xs < 2 ^ 32 -> len ys < 2 ^ 32 -> Forall2 alike xs xs' -> Forall2 alike ys ys' ->
      apart (length_keys m r) (packet_keys m r) (N.max (len xs) (len ys)) ->
      exists ks ps qs cx cy cx' cy',
        EnvLaws (with_keystream E ks) /\
        @send_all E (outbound (session_new m r)) xs = Ret (ps, cx) /\ @send_all E (outbound (session_new m r)) ys = Ret (qs, cy) /\
        @send_all (with_keystream E ks) (outbound (session_new m r)) xs' = Ret (ps, cx') /\
        @send_all (with_keystream E ks) (outbound (session_new m r)) ys' = Ret (qs, cy').
Proof.
  intros H. pose (one b := [Msg Genuine None [b]]).
  destruct (H (toy false) (toy_laws false) km Initiator (one x01) (one x01) (one x01) (one x02))
    as (ks & ps & qs & cx & cy & cx' & cy' & L & H1 & H2 & H3 & H4); try reflexivity.
  { constructor; [split; reflexivity|constructor]. }
  { constructor; [split; reflexivity|constructor]. }
  { intros e He. destruct e as [|e]; [vm_compute; discriminate|]. change (N.max _ _) with 1 in He. lia. }
  assert (ps = qs) as -> by (rewrite H1 in H2; now injection H2).
  set (E' := with_keystream (toy false) ks) in *.
  destruct (@stream_conforms E' L km Initiator (one x01) eq_refl) as [d D]. rewrite D in H3. injection H3 as H3 _.
  destruct (@stream_conforms E' L km Initiator (one x02) eq_refl) as [d' D']. rewrite D' in H4. injection H4 as H4 _.
  rewrite <- H4 in H3. cbn [one map to_bip bip_stream m_type m_aad m_contents is_decoy aad_or_default] in H3.
  injection H3 as H3. apply (f_equal (fun b => drop 3 b)) in H3. rewrite !(@body_of_packet E') in H3.
  unfold bip_body, rfc_aead in H3. apply app_inj_len in H3; [|now rewrite !len_xor_with]. destruct H3 as [H3 _].
  apply xor_with_inj in H3. discriminate H3.
Qed.
Print Assumptions C82_hidden_refuted.

(** One transport does not carry both. A reader that has taken what one copy sent takes from then on nothing, whatever
    it gets (so nothing of the other copy, which has sent no more than the first), unless somebody forged the
    tag of a packet that neither has made. *)
Theorem C82_one_transport : forall (E : Env) (EL : EnvLaws E) m r pre p0 c xs ys ps qs cx cy a wire vs c' rest,
  send_all (outbound (session_new m r)) pre = Ret (p0, c) ->
  send_all c xs = Ret (ps, cx) -> send_all c ys = Ret (qs, cy) -> len ys <= len xs -> len pre + len xs < 2 ^ 64 ->
  recv_all cx [a] wire = Ret (Some vs, c', rest) ->
  exists body, occurs body wire /\
    forgery (send_packet_key m r) (pre ++ xs) (p0 ++ ps) (len pre + len xs) (aad_or_default a) body /\
    forgery (send_packet_key m r) (pre ++ ys) (p0 ++ qs) (len pre + len xs) (aad_or_default a) body.
Proof.
  intros E EL m r pre p0 c xs ys ps qs cx cy a wire vs c' rest H0 Hx Hy Le L H.
  pose proof (send_all_join _ _ _ _ _ _ _ H0 Hx) as HX.
  destruct (C65_bytes E EL m r (pre ++ xs) [] cx (p0 ++ ps) [] cx [a] wire vs c' rest HX eq_refl) as [(j & body & Hj & Ho & F)|(X & _)].
  - rewrite len_app, len_nil. lia.
  - exact H.
  - cbn [length] in Hj. assert (j = 0%nat) as -> by lia. cbn [nth] in F. rewrite !app_nil_r, len_app, N.add_0_r in F.
    exists body. split; [exact Ho|]. fold (aad_or_default a) in F. split; [exact F|]. destruct F as [F _]. split; [exact F|].
    intros W. destruct W as (z & q & W1 & _). assert (nth_error (pre ++ ys) (N.to_nat (len pre + len xs)) <> None) as W by congruence.
    apply nth_error_Some in W. rewrite app_length in W. unfold len in *. lia.
  - cbn in X. lia.
Qed.
Print Assumptions C82_one_transport.

(** A copy of an inbound cipher takes again what the original took: the protection against replay (C13) is per copy. *)
Theorem C82_inbound : forall (E : Env) (EL : EnvLaws E) m r ms,
  Forall (fun x => len (m_contents x) < 2 ^ 24) ms -> len ms < 2 ^ 32 ->
  exists pkts out, send_all (outbound (session_new m r)) ms = Ret (pkts, out) /\
    forall copies, Forall (fun c => c = inbound (session_new m (opp r))) copies ->
      Forall (fun c => recv_all c (map m_aad ms) (concat pkts) = Ret (Some (map view ms), out, [])) copies.
Proof.
  intros E EL m r ms F L. destruct (C01_round_trip E EL m r ms [] F) as (pkts & out & H1 & H2); [intros _; exact L|].
  exists pkts, out. split; [exact H1|]. intros copies C. eapply Forall_impl; [|exact C]. intros c ->.
  rewrite app_nil_r in H2. exact H2.
Qed.
Print Assumptions C82_inbound.

(** Two copies send ["abc"] and ["xbc!"]; and a reader of both streams, one after the other. *)
Definition first_copy : list msg := [Msg Genuine None [x61; x62; x63]].
Definition second_copy : list msg := [Msg Decoy None [x78; x62; x63; x21]].

Example C82_example :
  match @send_all (toy false) (outbound (session_new km Initiator)) first_copy,
        @send_all (toy false) (outbound (session_new km Initiator)) second_copy with
  | Ret ([p], c), Ret ([q], _) =>
      xor_with (take 4 (drop 3 p)) (take 4 (drop 3 q)) = [x80; x19; x00; x00] /\
      xor_with (take 3 p) (take 3 q) = [x07; x00; x00] /\
      match @recv_all (toy false) (inbound (session_new km Responder)) [None; None] (p ++ q) with
      | Ret (r, _, _) => r = None
      | _ => False
      end /\
      match @recv_all (toy false) (inbound (session_new km Responder)) [None] (p ++ q) with
      | Ret (r, c', rest) => r = Some [(Genuine, [x61; x62; x63])] /\ c' = c /\ rest = q
      | _ => False
      end
  | _, _ => False
  end.
Proof. vm_compute. repeat split. Qed.
