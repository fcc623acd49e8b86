(** * Property C87: an endpoint whose own bytes come back *)
From Coq Require Import List NArith Bool Lia.
From Coq.Strings Require Import Byte.
From Verif Require Import Base BaseFacts Env Toy FsChacha Spec FsChachaProofs Cipher CipherFacts Histories CipherProofs Handshake SpecHandshake
  HsDriver HandshakeProofs HsRunProofs Transport Io SpecIo Sessions TransportProofs IoProofs IoRunProofs EndpointProofs
  PropsHandshake PropsIo PropsMiddle.
Import ListNotations.
Local Open Scope N_scope.

(** ** C87 *)
(** An echo: the endpoint takes its own key for the peer's, derives keys from it, and answers; what comes back then is its own
    garbage, terminator and packets. It does not complete unless the terminator of the other direction occurs in them. *)
Theorem C87_echo : forall (E : Env) (EL : EnvLaws E) fl magic r sk g d w,
  len magic = 4 -> sk_valid sk = true -> (debug_assertions = true -> sk <> zeros 32) ->
  len (garbage_bytes g) <= 4095 -> (overflow_checks = true -> len (decoy_list d) + 1 < 2 ^ 32) ->
  let own := ellswift_of sk in
  take 4 own <> magic -> healthy w ->
  exists m ps oc,
    keys_from (bip_prk magic (bip_secret own own sk (party_of r))) m /\
    send_all (outbound (session_new m r)) (version_msgs g (decoy_list d)) = Ret (ps, oc) /\
    let back := garbage_bytes g ++ terminator m r ++ concat ps in
    forall s e, flatten fl s = (own ++ back, e) -> calm fl s ->
    (forall i, i <= 4095 -> ~ occurs_at (terminator m (opp r)) back i) ->
    exists o, io_handshake fl magic r sk g d s w = Ret o /\
      ho_result o = Err (if 4111 <=? len back then Internal NoGarbageTerminator else end_error e) /\
      written (ho_writer o) = written w ++ own ++ back.
Proof.
  intros E EL fl magic r sk g d w Hm Hv Hz Hg Ho own V1 Hw.
  destruct (key_ok magic r (EcdhPoint sk own) g own d Hm (ellswift_len sk) V1 Ho) as (m & ps & oc & KF & SA & PK).
  cbn [elligator_swift secret_key] in KF.
  assert (keys_from (bip_prk magic (bip_secret own own sk (party_of r))) m) as KF' by (destruct r; exact KF).
  subst own. exists m, ps, oc. split; [exact KF'|]. split; [exact SA|]. intros back s e F C No.
  pose proof (start_ok magic r sk g Hv Hz Hg) as ST. apply start_inv in ST. destruct ST as (h0 & HN & SK).
  apply key_inv in PK. destruct PK as (h2 & RK & SV).
  unfold io_handshake. rewrite HN. cbn [bind].
  pose proof (hs_new_magic _ _ _ _ HN) as M0. rewrite <- M0 in Hm.
  pose proof (io_handshake_stream fl h0 g d s w (ellswift_of sk ++ back) e Hm F C) as P.
  unfold pure_hs in P. rewrite SK in P. cbn [bind] in P.
  destruct (write_flush_healthy fl w (bip_first_flight sk (garbage_bytes g)) Hw) as (w1 & W1 & H1 & O1). rewrite W1 in P.
  replace (len (ellswift_of sk ++ back) <? 64) with false in P.
  2:{ symmetry. apply N.ltb_ge. rewrite len_app. pose proof (ellswift_len sk) as L. lia. }
  rewrite take_app_exact in P by (symmetry; apply (ellswift_len sk)). rewrite RK in P. cbn [bind] in P.
  rewrite SV in P. cbn [bind] in P.
  destruct (write_flush_healthy fl w1 (terminator m r ++ concat ps) H1) as (w2 & W2 & H2 & O2). rewrite W2 in P.
  rewrite drop_app_exact in P by (symmetry; apply (ellswift_len sk)).
  pose proof (terminator_len _ _ r KF') as T1. pose proof (terminator_len _ _ (opp r) KF') as T2.
  assert (16 <= len back) as Lb by (unfold back; rewrite !len_app, T1; lia).
  cbn zeta in P. replace (len back <? 16) with false in P by (symmetry; now apply N.ltb_ge).
  set (h3 := Handshake magic r (SentVersion _ _)) in P.
  assert (run_map (hs_view fl) (io_handshake_with fl h0 g d s w) =
    Ret (Err (if 4111 <=? len back then Internal NoGarbageTerminator else end_error e), w2, [])) as P'.
  { rewrite P. destruct (receive_garbage_cases h3 back T2) as [(i & Hi & [O _] & K)|[(_ & L & K)|(_ & L & K)]].
    - exfalso. now apply (No i Hi).
    - rewrite K. cbn [bind]. rewrite (proj2 (N.leb_le _ _) L). reflexivity.
    - rewrite K. cbn [bind]. rewrite (proj2 (N.leb_gt _ _) L). reflexivity. }
  clear P. unfold run_map in P'. apply bind_ret_inv in P'. destruct P' as (o & R & Q). exists o. split; [exact R|].
  unfold hs_view in Q. injection Q as Q1 Q2 _. split.
  - destruct (ho_result o) as [[[i oc'] sr]|x]; [discriminate|]. cbn in Q1. injection Q1 as ->. reflexivity.
  - rewrite Q2, O2, O1. unfold bip_first_flight, back. now rewrite <- !app_assoc.
Qed.
Print Assumptions C87_echo.

(** However the bytes come back, cut anywhere, with errors between them. *)
Theorem C87_completes_by_coincidence : forall (E : Env) (EL : EnvLaws E) fl magic r sk g d w s o i oc sr own more,
  len magic = 4 -> io_handshake fl magic r sk g d s w = Ret o -> ho_result o = Ok (i, oc, sr) ->
  written (ho_writer o) = written w ++ own -> own = content s ++ more ->
  exists m, keys_from (bip_prk magic (bip_secret (ellswift_of sk) (ellswift_of sk) sk (party_of r))) m /\
    exists j, j <= 4095 /\ occurs_at (terminator m (opp r)) (drop 64 own) j.
Proof.
  intros E EL fl magic r sk g d w s o i oc sr own more Hm H R W Ow.
  destruct (handshake_content fl magic r sk g d s w o i oc sr Hm H R) as (h & fa & h' & wa & their & received & ST & Lt & PK & Ct & Cm & _ & Wr).
  rewrite W in Wr. apply app_inv_head in Wr.
  assert (sk_valid sk = true /\ (debug_assertions = true -> sk <> zeros 32) /\ len (garbage_bytes g) <= 4095) as (Hv & Hz & Hg).
  { pose proof ST as Q. apply start_inv in Q. destruct Q as (h0 & HN & SK). unfold hs_new in HN.
    destruct (debug_assertions && bytes_eqb sk (zeros 32))%bool eqn:Z; [discriminate|].
    destruct (sk_valid sk); [|discriminate]. injection HN as <-. split; [reflexivity|]. split.
    - intros D. rewrite D in Z. now apply bytes_eqb_neq in Z.
    - destruct (N.le_gt_cases (len (garbage_bytes g)) 4095) as [L|L]; [assumption|].
      destruct (send_key_contract (Handshake magic r (Initialized (EcdhPoint sk (ellswift_of sk)))) g
        (zeros (send_key_len g)) (ellswift_len sk)) as (C1 & _).
      rewrite C1 in SK by assumption. discriminate. }
  pose proof (start_ok magic r sk g Hv Hz Hg) as ST'. rewrite ST in ST'. injection ST' as -> ->.
  assert (their = ellswift_of sk) as ->.
  { rewrite Ct, Wr in Ow. unfold bip_first_flight in Ow. rewrite <- !app_assoc in Ow.
    apply app_inj_len in Ow; [|now rewrite Lt, ellswift_len]. symmetry. apply Ow. }
  pose proof PK as Q. apply key_inv in Q. destruct Q as (h2 & RK & SV).
  set (h1 := Handshake magic r (SentKey (EcdhPoint sk (ellswift_of sk)) g)) in *.
  assert (exists m, keys_from (bip_prk magic (bip_secret (ellswift_of sk) (ellswift_of sk) sk (party_of r))) m /\
    remote_garbage_terminator (hs_state h') = terminator m (opp r)) as (m & KF & Tm).
  { destruct (receive_key_v1 h1 (ellswift_of sk) (ellswift_len sk) Hm) as [K1 K2].
    destruct (bytes_eq_dec (take 4 (ellswift_of sk)) (hs_magic h1)) as [V|V]; [apply K1 in V; congruence|].
    destruct (K2 V) as (m & Q & KF). rewrite Q in RK. injection RK as <-. exists m.
    assert (keys_from (bip_prk magic (bip_secret (ellswift_of sk) (ellswift_of sk) sk (party_of r))) m) as KF'
      by (clear - KF; destruct r; exact KF).
    split; [exact KF'|].
    destruct (N.lt_ge_cases (len (zeros (send_version_len d))) (36 + decoys_len (decoy_list d))) as [L|L].
    { rewrite send_version_small in SV by assumption. discriminate. }
    rewrite send_version_eq in SV; [|exact (terminator_len _ _ _ KF')|assumption].
    apply bind_ret_inv in SV. destruct SV as ([ps oc'] & _ & SV). injection SV as <- _. reflexivity. }
  exists m. split; [exact KF|]. destruct Cm as (garbage & packets & ds & x & Rc & Lg & [Fi _] & _).
  rewrite Tm in Fi. exists (len garbage). split; [exact Lg|].
  assert (drop 64 own = received ++ more) as Dr.
  { rewrite Ow, Ct, <- app_assoc. apply drop_app_exact. now rewrite Lt. }
  rewrite Dr. destruct Fi as [O1 O2]. split; [rewrite len_app; lia|]. rewrite <- O2 at 2.
  rewrite drop_app_le by lia. apply take_app_le. rewrite len_drop. lia.
Qed.
Print Assumptions C87_completes_by_coincidence.

(** Packets of an established session that come back: the endpoint takes one only if its tag is also the tag of the same
    ciphertext under a key, nonce and associated data of the other direction. *)
Theorem C87_packet : forall (E : Env) (EL : EnvLaws E) m r ms pkts out i x pkt c j aad t pt c' b,
  send_all (outbound (session_new m r)) ms = Ret (pkts, out) -> len ms < 2 ^ 32 ->
  nth_error ms i = Some x -> nth_error pkts i = Some pkt ->
  packet_cipher c = fp_at (send_packet_key m (opp r)) j ->
  decrypt_in_place c (drop 3 pkt) aad = Ret (Ok (t, pt), c', b) ->
  let ct := take (len (m_contents x) + 1) (drop 3 pkt) in
  mac (bip_packet_key (send_packet_key m (opp r)) (N.to_nat (j / 224))) (bip_packet_nonce j) (aad_or_default aad) ct =
  mac (bip_packet_key (send_packet_key m r) (N.to_nat (N.of_nat i / 224))) (bip_packet_nonce (N.of_nat i)) (aad_or_default (m_aad x)) ct.
Proof.
  intros E EL m r ms pkts out i x pkt c j aad t pt c' b SA L Nx Np Pc H ct.
  set (kP := send_packet_key m r) in *. set (kL := send_length_key m r).
  assert (outbound (session_new m r) = Cipher (fc_at kL 0) (fp_at kP 0)) as O0.
  { apply session_out_at. }
  rewrite O0, send_all_at in SA by lia. injection SA as <- _.
  assert (forall l n k y q, nth_error l k = Some y -> nth_error (bip_stream kL kP n (map to_bip l)) k = Some q ->
    q = bip_packet kL kP (n + N.of_nat k) (is_decoy (m_type y)) (aad_or_default (m_aad y)) (m_contents y)) as Nth.
  { clear. induction l as [|z l IH]; intros n [|k] y q Ny Nq; try discriminate.
    - cbn in Ny, Nq. injection Ny as ->. injection Nq as <-. f_equal. lia.
    - cbn [map bip_stream nth_error] in Ny, Nq. destruct (to_bip z) as [[d0 a0] c0]. cbn [nth_error] in Nq.
      rewrite (IH _ _ _ _ Ny Nq). f_equal. lia. }
  pose proof (Nth ms 0 i x pkt Nx Np) as ->. rewrite N.add_0_l in *. clear Nth Np.
  assert (forall l, len (bip_length_prefix kL (N.of_nat i) l) = 3) as L3 by (intros l; unfold bip_length_prefix; now rewrite len_xor_with, len_le_bytes).
  subst ct. unfold bip_packet in *. rewrite drop_app_exact in H |- * by (symmetry; apply L3).
  unfold bip_body, rfc_aead in H |- *.
  set (key := bip_packet_key kP _) in *. set (nonce := bip_packet_nonce (N.of_nat i)) in *.
  set (mb := xor_with _ _) in *.
  assert (len mb = len (m_contents x) + 1) as Lm by (unfold mb; now rewrite len_xor_with, len_cons).
  rewrite take_app_exact by (now symmetry). rewrite decrypt_in_place_closed in H; [|apply mac_len|lia].
  apply bind_ret_inv in H. destruct H as ([o pc] & Hd & H). apply fp_decrypt_some in Hd.
  destruct o as [q|]; [|discriminate]. destruct Hd as (Ht & _ & _).
  rewrite Pc, fp_nonce_at in Ht. cbn [fp_key fp_at] in Ht. now symmetry.
Qed.
Print Assumptions C87_packet.

(** That its own key comes back is not noticed: the endpoint answers it. *)
Theorem C87_own_key_refused_refuted :
  ~ forall (E : Env) (EL : EnvLaws E) magic r sk g h out d,
      len magic = 4 -> take 4 (ellswift_of sk) <> magic -> party_start magic r sk g = Ret (Ok (h, out)) ->
      forall x, party_key h (ellswift_of sk) d <> Ret (Ok x).
Proof.
  intros H. destruct (@party_start (toy true) mainnet Initiator ska None) as [[[h out]|e]| |] eqn:P; try (vm_compute in P; discriminate).
  destruct (@party_key (toy true) h (@ellswift_of (toy true) ska) None) as [[x|e]| |] eqn:K.
  2-4: vm_compute in P; injection P as <- <-; vm_compute in K; discriminate.
  refine (H (toy true) (toy_laws true) mainnet Initiator ska None h out None _ _ P x K); [reflexivity|].
  vm_compute. discriminate.
Qed.
Print Assumptions C87_own_key_refused_refuted.

(** With 40 bytes of garbage and a decoy, in an environment whose keys depend on the directions. *)
Example C87_example :
  let g := Some (repeat x2b 40) in
  match @party_start (toy_keyed true) mainnet Initiator ska g with
  | Ret (Ok (h, fa)) =>
    match @party_key (toy_keyed true) h (take 64 fa) (Some [[x01; x02]]) with
    | Ret (Ok (_, wa)) =>
      match @io_handshake (toy_keyed true) Sync mainnet Initiator ska g (Some [[x01; x02]]) [Chunk (fa ++ wa)] fresh with
      | Ret o => written (ho_writer o) = fa ++ wa /\ ho_result o = Err eof
      | _ => False
      end
    | _ => False
    end
  | _ => False
  end.
Proof. vm_compute. repeat split. Qed.
