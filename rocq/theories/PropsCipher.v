(** * Properties C01-C16 and C50: the cipher layer (lib.rs, fschacha20poly1305.rs) *)
From Coq Require Import List NArith Bool Lia ZArith.
From Coq.Strings Require Import Byte.
From Verif Require Import Base Env FsChacha Spec FsChachaProofs Cipher CipherFacts Histories
  CipherProofs Toy.
Import ListNotations.
Local Open Scope N_scope.

(** Sample data for the examples. *)
Definition km : key_material :=
  KeyMaterial (counting 1 32) (counting 2 32) (counting 3 32) (counting 4 32) (counting 5 32)
              (counting 6 16) (counting 7 16).
Definition three : list msg :=
  [Msg Genuine (Some (counting 9 5)) (counting 10 7); Msg Decoy None (counting 20 3);
   Msg Genuine None []].
(** 500 messages: more than two re-keyings. *)
Definition many : list msg :=
  map (fun i => Msg (if Nat.even i then Genuine else Decoy) None (counting (N.of_nat i) (i mod 5)))
      (seq 0 500).

(** ** C01 *)
Theorem C01_round_trip : forall (E : Env) (EL : EnvLaws E) m r ms rest,
  Forall (fun x => len (m_contents x) < 2 ^ 24) ms ->
  (overflow_checks = true -> len ms < 2 ^ 32) ->
  exists pkts out',
    send_all (outbound (session_new m r)) ms = Ret (pkts, out') /\
    recv_all (inbound (session_new m (opp r))) (map m_aad ms) (concat pkts ++ rest) =
    Ret (Some (map (fun x => (m_type x, m_contents x)) ms), out', rest).
Proof. exact @round_trip. Qed.
Print Assumptions C01_round_trip.

Example C01_example :
  Forall (fun x => len (m_contents x) < 2 ^ 24) many /\
  match @send_all (toy true) (outbound (session_new km Responder)) many with
  | Ret (pkts, _) =>
      match @recv_all (toy true) (inbound (session_new km Initiator)) (map m_aad many)
              (concat pkts ++ [x2a]) with
      | Ret (Some got, _, rest) => length got = 500%nat /\ rest = [x2a]
      | _ => False
      end
  | _ => False
  end.
Proof.
  split.
  - apply Forall_forall. intros x Hx. unfold many in Hx. apply in_map_iff in Hx.
    destruct Hx as (i & <- & _). cbn [m_contents]. rewrite len_counting.
    pose proof (Nat.mod_upper_bound i 5). change (2 ^ 24) with 16777216. lia.
  - vm_compute. split; reflexivity.
Qed.

(** The same from any pair of equal cipher states, whenever the sender does not panic. *)
Theorem C01_round_trip_any_state : forall (E : Env) (EL : EnvLaws E) ms c pkts c' rest,
  Forall (fun m => len (m_contents m) < 2 ^ 24) ms ->
  send_all c ms = Ret (pkts, c') ->
  recv_all c (map m_aad ms) (concat pkts ++ rest) =
  Ret (Some (map (fun m => (m_type m, m_contents m)) ms), c', rest).
Proof. exact @recv_all_sent. Qed.
Print Assumptions C01_round_trip_any_state.

(** ** C02, C03 *)
Theorem C02_C03_stream_conforms : forall (E : Env) (EL : EnvLaws E) m r ms,
  len ms < 2 ^ 32 ->
  exists out', send_all (outbound (session_new m r)) ms =
    Ret (bip_stream (send_length_key m r) (send_packet_key m r) 0 (map to_bip ms), out').
Proof. exact @stream_conforms. Qed.
Print Assumptions C02_C03_stream_conforms.

Theorem C02_bodies_conform : forall (E : Env) (EL : EnvLaws E) m r ms ps c' i x,
  len ms < 2 ^ 64 ->
  send_all (outbound (session_new m r)) ms = Ret (ps, c') ->
  nth_error ms i = Some x -> exists p, nth_error ps i = Some p /\
    drop 3 p = bip_body (send_packet_key m r) (N.of_nat i) (is_decoy (m_type x))
                        (aad_or_default (m_aad x)) (m_contents x).
Proof. exact @bodies_conform. Qed.
Print Assumptions C02_bodies_conform.

Example C02_C03_example :
  match @send_all (toy false) (outbound (session_new km Initiator)) three with
  | Ret (ps, _) => ps = @bip_stream (toy false) (counting 2 32) (counting 3 32) 0 (map to_bip three)
                   /\ map (@len byte) ps = [27; 23; 20]
  | _ => False
  end.
Proof. vm_compute. split; reflexivity. Qed.

(** ** C04 *)
Theorem C04_length_counter_debug : forall (E : Env) (EL : EnvLaws E) m r ms,
  overflow_checks = true -> len ms = 2 ^ 32 - 1 ->
  exists ps c', send_all (outbound (session_new m r)) ms = Ret (ps, c') /\
    (forall pt t aad, encrypt_to_vec c' pt t aad = Panic) /\
    (forall pt buf t aad, len pt + 20 <= len buf -> encrypt c' pt buf t aad = Panic).
Proof. exact @length_counter_debug. Qed.
Print Assumptions C04_length_counter_debug.

Theorem C04_length_counter_release : forall (E : Env) (EL : EnvLaws E) m r ms x y,
  overflow_checks = false -> len ms = 2 ^ 32 - 1 ->
  exists ps c' p q c'' c''',
    send_all (outbound (session_new m r)) ms = Ret (ps, c') /\
    encrypt_to_vec c' (m_contents x) (m_type x) (m_aad x) = Ret (p, c'') /\
    encrypt_to_vec c'' (m_contents y) (m_type y) (m_aad y) = Ret (q, c''') /\
    let e := (2 ^ 32 - 1) / 224 in
    let early := keystream (bip_length_key (send_length_key m r) (N.to_nat e))
                           (bip_length_nonce e) 96 32 in
    take 3 q = xor_with (keystream early (bip_length_nonce 0) 0 3)
                        (le_bytes 3 (len (m_contents y))).
Proof. exact @length_counter_release. Qed.
Print Assumptions C04_length_counter_release.

(** "Every length prefix is the BIP-324 one" fails at packet 2^32 of a release build. *)
Theorem C04_prefix_conformance_refuted :
  exists (E : Env) (EL : EnvLaws E) m r ms ps c' p q c'' c''' x y,
    len ms = 2 ^ 32 - 1 /\
    send_all (outbound (session_new m r)) ms = Ret (ps, c') /\
    encrypt_to_vec c' (m_contents x) (m_type x) (m_aad x) = Ret (p, c'') /\
    encrypt_to_vec c'' (m_contents y) (m_type y) (m_aad y) = Ret (q, c''') /\
    take 3 q <> bip_length_prefix (send_length_key m r) (2 ^ 32) (len (m_contents y)).
Proof.
  exists (toy false), (toy_laws false), km, Initiator.
  pose (x := Msg Genuine None []).
  exists (repeat x (N.to_nat (2 ^ 32 - 1))).
  assert (len (repeat x (N.to_nat (2 ^ 32 - 1))) = 2 ^ 32 - 1) as L
    by (unfold len; rewrite repeat_length; apply Nnat.N2Nat.id).
  destruct (C04_length_counter_release (toy false) (toy_laws false) km Initiator _ x x eq_refl L)
    as (ps & c' & p & q & c'' & c''' & H1 & H2 & H3 & H4).
  exists ps, c', p, q, c'', c''', x, x.
  split; [exact L|]. split; [exact H1|]. split; [exact H2|]. split; [exact H3|].
  cbv zeta in H4. rewrite H4. unfold bip_length_prefix.
  cbn [keystream toy]. intros K. vm_compute in K. discriminate.
Qed.
Print Assumptions C04_prefix_conformance_refuted.

(** ** C05 *)
Theorem C05_packet_nonces_unique : forall (E : Env) (EL : EnvLaws E) m r ms1 ms2 ps1 ps2 c1 c2,
  len ms1 < 2 ^ 64 -> len ms2 < 2 ^ 64 -> len ms1 <> len ms2 ->
  send_all (outbound (session_new m r)) ms1 = Ret (ps1, c1) ->
  send_all (outbound (session_new m r)) ms2 = Ret (ps2, c2) ->
  fp_nonce (packet_cipher c1) <> fp_nonce (packet_cipher c2).
Proof. exact @nonces_unique. Qed.
Print Assumptions C05_packet_nonces_unique.

Theorem C05_rekey_nonces_disjoint : forall a e, bip_packet_nonce a <> bip_rekey_nonce e.
Proof. exact bip_packet_rekey_nonce_disjoint. Qed.
Print Assumptions C05_rekey_nonces_disjoint.

Theorem C05_rekey_nonces_unique : forall a b,
  a < 2 ^ 64 -> b < 2 ^ 64 -> bip_rekey_nonce a = bip_rekey_nonce b -> a = b.
Proof. exact bip_rekey_nonce_inj. Qed.
Print Assumptions C05_rekey_nonces_unique.

Theorem C05_length_positions_disjoint :
  forall (E : Env) (EL : EnvLaws E) m r ms1 ms2 ps1 ps2 c1 c2,
  len ms1 < 2 ^ 32 -> len ms2 < 2 ^ 32 -> len ms1 < len ms2 ->
  send_all (outbound (session_new m r)) ms1 = Ret (ps1, c1) ->
  send_all (outbound (session_new m r)) ms2 = Ret (ps2, c2) ->
  let l1 := length_cipher c1 in let l2 := length_cipher c2 in
  fc_block l1 + 3 <= 672 /\
  (fc_nonce l1 = fc_nonce l2 -> fc_key l1 = fc_key l2 /\ fc_block l1 + 3 <= fc_block l2).
Proof. exact @length_positions_disjoint. Qed.
Print Assumptions C05_length_positions_disjoint.

Example C05_example :
  match @send_all (toy true) (outbound (session_new km Initiator)) (firstn 223 many),
        @send_all (toy true) (outbound (session_new km Initiator)) (firstn 224 many) with
  | Ret (_, c1), Ret (_, c2) =>
      fp_nonce (packet_cipher c1) = [xdf; x00; x00; x00; x00; x00; x00; x00; x00; x00; x00; x00] /\
      fp_nonce (packet_cipher c2) = [x00; x00; x00; x00; x01; x00; x00; x00; x00; x00; x00; x00] /\
      fc_block (length_cipher c1) = 669 /\ fc_block (length_cipher c2) = 0
  | _, _ => False
  end.
Proof. vm_compute. repeat split. Qed.

(** ** C06 *)
Theorem C06_encrypt_contract : forall (E : Env) (EL : EnvLaws E) c pt buf t aad r c' buf',
  encrypt c pt buf t aad = Ret (r, c', buf') ->
  (len buf < len pt + 20 /\ r = Err (BufferTooSmall (len pt + 20)) /\ c' = c /\ buf' = buf) \/
  (len pt + 20 <= len buf /\ r = Ok tt /\ len buf' = len buf /\
   drop (len pt + 20) buf' = drop (len pt + 20) buf /\
   encrypt_to_vec c pt t aad = Ret (take (len pt + 20) buf', c')).
Proof. exact @encrypt_contract. Qed.
Print Assumptions C06_encrypt_contract.

Theorem C06_packet_size : forall (E : Env) (EL : EnvLaws E) c pt t aad p c',
  encrypt_to_vec c pt t aad = Ret (p, c') -> len p = len pt + 20.
Proof. exact @encrypt_vec_len. Qed.
Print Assumptions C06_packet_size.

Example C06_example :
  (exists c', @encrypt (toy true) (outbound (session_new km Initiator)) (counting 0 3)
     (zeros 22) Genuine None = Ret (Err (BufferTooSmall 23), c', zeros 22)) /\
  (exists c' b, @encrypt (toy true) (outbound (session_new km Initiator)) (counting 0 3)
     (zeros 23 ++ [x01; x02]) Genuine None = Ret (Ok tt, c', b ++ [x01; x02]) /\ len b = 23).
Proof.
  split; [eexists; vm_compute; reflexivity|].
  eexists _, (_ :: _ :: _ :: _ :: _ :: _ :: _ :: _ :: _ :: _ :: _ :: _ :: _ :: _ :: _ :: _ :: _ ::
              _ :: _ :: _ :: _ :: _ :: _ :: []).
  vm_compute. split; reflexivity.
Qed.

(** ** C07 *)
Theorem C07_oversize_misframed : forall (E : Env) (EL : EnvLaws E) c pt t aad p c',
  2 ^ 24 <= len pt ->
  encrypt_to_vec c pt t aad = Ret (p, c') ->
  exists n c1, decrypt_packet_len c (take 3 p) = Ret (n, c1) /\
    n = len pt mod 2 ^ 24 + 17 /\ n < len (drop 3 p).
Proof. exact @oversize_misframed. Qed.
Print Assumptions C07_oversize_misframed.

Theorem C07_oversize_unreadable :
  forall (E : Env) (EL : EnvLaws E) c pt t aad p c' aad' rest r c1 rest',
  2 ^ 24 <= len pt ->
  encrypt_to_vec c pt t aad = Ret (p, c') ->
  recv_one c aad' (p ++ rest) = Ret (r, c1, rest') ->
  forall t', r <> Some (t', pt).
Proof. exact @oversize_unreadable. Qed.
Print Assumptions C07_oversize_unreadable.

(** encrypt does accept such contents, so "what encrypt accepts the peer can read" is false. *)
Theorem C07_accepted_is_readable_refuted :
  exists (E : Env) (EL : EnvLaws E) m r pt p c',
    encrypt_to_vec (outbound (session_new m r)) pt Genuine None = Ret (p, c') /\
    forall res c1 rest,
      recv_one (inbound (session_new m (opp r))) None p = Ret (res, c1, rest) ->
      res <> Some (Genuine, pt).
Proof.
  exists (toy true), (toy_laws true), km, Initiator, (zeros (2 ^ 24)).
  destruct (@encrypt_vec_ret (toy true) (toy_laws true) 0 (outbound (session_new km Initiator))
    (zeros (2 ^ 24)) Genuine None) as (p & c' & H & _).
  - apply session_counted.
  - intros _. reflexivity.
  - exists p, c'. split; [exact H|]. intros res c1 rest Hr.
    rewrite <- (app_nil_r p) in Hr.
    change (inbound (session_new km (opp Initiator))) with (outbound (session_new km Initiator)) in Hr.
    eapply (@oversize_unreadable (toy true) (toy_laws true)); [|exact H|exact Hr].
    rewrite BaseFacts.len_zeros. apply N.le_refl.
Qed.
Print Assumptions C07_accepted_is_readable_refuted.

(** ** C08 *)
Theorem C08_packet_len_range : forall (E : Env) c lb n c',
  len lb = 3 -> decrypt_packet_len c lb = Ret (n, c') ->
  17 <= n < 2 ^ 24 + 17 /\ packet_cipher c' = packet_cipher c.
Proof. exact @packet_len_range. Qed.
Print Assumptions C08_packet_len_range.

Theorem C08_packet_len_exact : forall (E : Env) (EL : EnvLaws E) c pt t aad p c',
  len pt < 2 ^ 24 -> encrypt_to_vec c pt t aad = Ret (p, c') ->
  exists c1, decrypt_packet_len c (take 3 p) = Ret (len (drop 3 p), c1) /\
    length_cipher c1 = length_cipher c' /\ packet_cipher c1 = packet_cipher c.
Proof. exact @packet_len_exact. Qed.
Print Assumptions C08_packet_len_exact.

Theorem C08_packet_len_injective : forall (E : Env) c lb1 lb2 n c1 c2,
  len lb1 = 3 -> len lb2 = 3 ->
  decrypt_packet_len c lb1 = Ret (n, c1) -> decrypt_packet_len c lb2 = Ret (n, c2) -> lb1 = lb2.
Proof. exact @packet_len_inj. Qed.
Print Assumptions C08_packet_len_injective.

Example C08_example :
  match @decrypt_packet_len (toy true) (inbound (session_new km Initiator)) [xff; xfe; xfd] with
  | Ret (n, _) => n = 2 ^ 24 - 1 + 17
  | _ => False
  end.
Proof. vm_compute. reflexivity. Qed.

(** ** C09 *)
Theorem C09_accept_iff : forall (E : Env) c ct aad,
  (overflow_checks = true -> fp_ctr (packet_cipher c) + 1 < 2 ^ 64) ->
  17 <= len ct ->
  let n := len ct - 16 in
  let key := fp_key (packet_cipher c) in let nonce := fp_nonce (packet_cipher c) in
  (exists t pt c' b, decrypt_in_place c ct aad = Ret (Ok (t, pt), c', b)) <->
  drop n ct = mac key nonce (aad_or_default aad) (take n ct).
Proof. exact @accept_iff. Qed.
Print Assumptions C09_accept_iff.

Theorem C09_accepted_is_encryption : forall (E : Env) c ct aad t pt c' b,
  decrypt_in_place c ct aad = Ret (Ok (t, pt), c', b) ->
  let key := fp_key (packet_cipher c) in let nonce := fp_nonce (packet_cipher c) in
  rfc_aead key nonce (aad_or_default aad) pt = ct /\
  (exists h contents, pt = h :: contents /\ t = from_byte h) /\ len ct = len pt + 16 /\
  b = pt ++ drop (len pt) ct /\
  length_cipher c' = length_cipher c /\
  fp_rekey (packet_cipher c) (aad_or_default aad) = Ret (packet_cipher c').
Proof. exact @accepted_is_encryption. Qed.
Print Assumptions C09_accepted_is_encryption.

Theorem C09_accepted_matches_sender :
  forall (E : Env) (EL : EnvLaws E) c s ct aad h contents t c' b p s' t',
  packet_cipher s = packet_cipher c ->
  decrypt_in_place c ct aad = Ret (Ok (t, h :: contents), c', b) ->
  h = to_byte t' ->
  encrypt_to_vec s contents t' aad = Ret (p, s') ->
  t = t' /\ drop 3 p = ct /\ packet_cipher s' = packet_cipher c'.
Proof. exact @accepted_matches_sender. Qed.
Print Assumptions C09_accepted_matches_sender.

Theorem C09_tampered_tag_rejected : forall (E : Env) c m tg tg' aad t pt c' b,
  len tg = 16 -> len tg' = 16 -> tg' <> tg ->
  decrypt_in_place c (m ++ tg) aad = Ret (Ok (t, pt), c', b) ->
  decrypt_in_place c (m ++ tg') aad = Ret (Err Decryption, c, m ++ tg').
Proof. exact @tamper_tag_rejected. Qed.
Print Assumptions C09_tampered_tag_rejected.

Example C09_example :
  match @encrypt_to_vec (toy true) (outbound (session_new km Initiator)) (counting 65 4) Decoy
          (Some [x01]) with
  | Ret (p, _) =>
      (exists c', @decrypt_in_place (toy true) (inbound (session_new km Responder)) (drop 3 p)
         (Some [x01]) = Ret (Ok (Decoy, x80 :: counting 65 4), c', x80 :: counting 65 4 ++ drop 8 p)) /\
      (exists c', @decrypt_in_place (toy true) (inbound (session_new km Responder)) (drop 3 p)
         None = Ret (Err Decryption, c', drop 3 p))
  | _ => False
  end.
Proof. vm_compute. split; eexists; reflexivity. Qed.

(** ** C10 *)
Theorem C10_failed_in_place : forall (E : Env) c ct aad e c' b,
  decrypt_in_place c ct aad = Ret (Err e, c', b) -> c' = c /\ b = ct.
Proof. exact @failed_in_place. Qed.
Print Assumptions C10_failed_in_place.

Theorem C10_failed_decrypt : forall (E : Env) c ct buf aad e c' b,
  decrypt c ct buf aad = Ret (Err e, c', b) ->
  c' = c /\ (b = buf \/ b = take (len ct - 16) ct ++ drop (len ct - 16) buf).
Proof. exact @failed_decrypt. Qed.
Print Assumptions C10_failed_decrypt.

Theorem C10_failed_vec : forall (E : Env) c ct aad e c',
  decrypt_to_vec c ct aad = Ret (Err e, c') -> c' = c.
Proof. exact @failed_vec. Qed.
Print Assumptions C10_failed_vec.

Example C10_example :
  let c := inbound (session_new km Responder) in
  @decrypt (toy true) c (counting 0 20) (zeros 9) None =
  Ret (Err Decryption, c, counting 0 4 ++ zeros 5).
Proof. vm_compute. reflexivity. Qed.

(** ** C11 *)
Theorem C11_decrypt_agree : forall (E : Env) c ct buf aad,
  16 <= len ct -> len ct - 16 <= len buf ->
  match decrypt_in_place c ct aad with
  | Ret (Ok (t, pt), c', _) =>
      decrypt c ct buf aad = Ret (Ok t, c', pt ++ drop (len pt) buf) /\
      decrypt_to_vec c ct aad =
        (if len ct - 16 <=? 4000014 then Ret (Ok (t, pt), c') else Ret (Err PacketTooBig, c))
  | Ret (Err e, c', _) =>
      (exists b, decrypt c ct buf aad = Ret (Err e, c', b)) /\
      decrypt_to_vec c ct aad =
        (if len ct - 16 <=? 4000014 then Ret (Err e, c') else Ret (Err PacketTooBig, c))
  | Panic => decrypt c ct buf aad = Panic
  | NoFuel => False
  end.
Proof. exact @decrypt_agree. Qed.
Print Assumptions C11_decrypt_agree.

Example C11_example :
  match @encrypt_to_vec (toy true) (outbound (session_new km Initiator)) (counting 65 4) Decoy None with
  | Ret (p, _) =>
      match @decrypt_to_vec (toy true) (inbound (session_new km Responder)) (drop 3 p) None with
      | Ret (Ok (t, pt), _) => t = Decoy /\ pt = x80 :: counting 65 4
      | _ => False
      end
  | _ => False
  end.
Proof. vm_compute. split; reflexivity. Qed.

(** ** C12 *)
Theorem C12_in_place_too_small_iff : forall (E : Env) c ct aad c' b r,
  decrypt_in_place c ct aad = Ret (r, c', b) -> (r = Err CiphertextTooSmall <-> len ct < 17).
Proof. exact @in_place_too_small_iff. Qed.
Print Assumptions C12_in_place_too_small_iff.

Theorem C12_decrypt_size_errors : forall (E : Env) c ct buf aad r c' b,
  decrypt c ct buf aad = Ret (r, c', b) ->
  (r = Err CiphertextTooSmall <-> len ct < 17) /\
  (forall n, r = Err (BufferTooSmall n) <-> 17 <= len ct /\ len buf < len ct - 16 /\ n = len ct - 16).
Proof. exact @decrypt_size_errors. Qed.
Print Assumptions C12_decrypt_size_errors.

Theorem C12_vec_size_errors : forall (E : Env) c ct aad r c',
  16 <= len ct -> decrypt_to_vec c ct aad = Ret (r, c') ->
  (r = Err PacketTooBig <-> 4000014 < len ct - 16) /\
  (r = Err CiphertextTooSmall <-> len ct = 16).
Proof. exact @vec_too_big_iff. Qed.
Print Assumptions C12_vec_size_errors.

Theorem C12_vec_short : forall (E : Env) c ct aad,
  len ct < 16 ->
  decrypt_to_vec c ct aad = if overflow_checks then Panic else Ret (Err PacketTooBig, c).
Proof. exact @decrypt_to_vec_short. Qed.
Print Assumptions C12_vec_short.

(** The documentation of decrypt_to_vec promises CiphertextTooSmall for anything shorter than a packet. *)
Theorem C12_documented_error_refuted : forall chk, exists (E : Env) (EL : EnvLaws E) c ct,
  overflow_checks = chk /\ len ct < 17 /\
  forall c', decrypt_to_vec c ct None <> Ret (Err CiphertextTooSmall, c').
Proof.
  intros chk. exists (toy chk), (toy_laws chk), (inbound (session_new km Initiator)), [x00].
  split; [reflexivity|]. split; [reflexivity|]. intros c'.
  rewrite decrypt_to_vec_short by reflexivity. cbn [overflow_checks toy].
  destruct chk; discriminate.
Qed.
Print Assumptions C12_documented_error_refuted.

(** ** C13 *)
Theorem C13_replay_needs_collision :
  forall (E : Env) (EL : EnvLaws E) kP i j c d aad aad' contents t pt c' b,
  i < 2 ^ 64 -> j < 2 ^ 64 -> i <> j ->
  packet_cipher c = fp_at kP j ->
  let body := bip_body kP i d aad contents in
  decrypt_in_place c body aad' = Ret (Ok (t, pt), c', b) ->
  let ct := take (len body - 16) body in
  mac (bip_packet_key kP (N.to_nat (j / 224))) (bip_packet_nonce j) (aad_or_default aad') ct =
  mac (bip_packet_key kP (N.to_nat (i / 224))) (bip_packet_nonce i) aad ct /\
  bip_packet_nonce i <> bip_packet_nonce j /\
  (j + 1 < 2 ^ 64 -> packet_cipher c' = fp_at kP (j + 1)).
Proof. exact @replay_needs_collision. Qed.
Print Assumptions C13_replay_needs_collision.

(** In the toy environment (whose MAC is weak) a replay two positions apart is refused. *)
Example C13_example :
  match @send_all (toy true) (outbound (session_new km Initiator)) three with
  | Ret (p0 :: p1 :: _, _) =>
      match @recv_all (toy true) (inbound (session_new km Responder)) [Some (counting 9 5); None; None]
              (p0 ++ p1 ++ p1) with
      | Ret (r, _, _) => r = None
      | _ => False
      end
  | _ => False
  end.
Proof. vm_compute. reflexivity. Qed.

(** ** C14 *)
Theorem C14_no_panic : forall (E : Env) (EL : EnvLaws E) m r os,
  Forall op_ok os -> (overflow_checks = true -> len os < 2 ^ 32) ->
  exists rs s', steps (session_new m r) os = Ret (rs, s').
Proof. exact @session_no_panic. Qed.
Print Assumptions C14_no_panic.

Definition some_ops : list op :=
  [OEncrypt (counting 0 3) (zeros 10) Genuine None; ODecryptLen [x00; x01; x02];
   ODecrypt (counting 1 50) (zeros 2) None; ODecryptInPlace [] None; OEncryptVec [x61] Decoy None;
   ODecryptVec (zeros 16) (Some [x00])].
Example C14_example :
  Forall op_ok some_ops /\
  match @steps (toy true) (session_new km Initiator) some_ops with
  | Ret (rs, _) => length rs = 6%nat
  | _ => False
  end.
Proof. split; [repeat constructor; discriminate|vm_compute; reflexivity]. Qed.

(** ** C15 *)
Theorem C15_mirror : forall m r,
  outbound (session_new m r) = inbound (session_new m (opp r)) /\
  inbound (session_new m r) = outbound (session_new m (opp r)) /\
  id (session_new m r) = id (session_new m (opp r)).
Proof. exact mirror. Qed.
Print Assumptions C15_mirror.

Theorem C15_directions_independent : forall (E : Env) os s rs s',
  steps s os = Ret (rs, s') ->
  id s' = id s /\
  (forall s1, outbound s1 = outbound s -> exists s1',
     steps s1 (filter is_outbound os) = Ret (select is_outbound os rs, s1') /\
     outbound s1' = outbound s' /\ inbound s1' = inbound s1) /\
  (forall s1, inbound s1 = inbound s -> exists s1',
     steps s1 (filter (fun o => negb (is_outbound o)) os) =
       Ret (select (fun o => negb (is_outbound o)) os rs, s1') /\
     inbound s1' = inbound s' /\ outbound s1' = outbound s1).
Proof. exact @directions_independent. Qed.
Print Assumptions C15_directions_independent.

Example C15_example :
  match @steps (toy true) (session_new km Initiator) some_ops,
        @steps (toy true) (session_new km Initiator) (filter is_outbound some_ops) with
  | Ret (rs, s), Ret (rs', s') => length rs = 6%nat /\ length rs' = 2%nat /\ outbound s = outbound s'
                                  /\ inbound s <> inbound s'
  | _, _ => False
  end.
Proof. vm_compute. repeat split. discriminate. Qed.

(** ** C16 *)
Theorem C16_header_bytes : forall t, from_byte (to_byte t) = t /\
  Byte.to_N (to_byte t) = (match t with Genuine => 0 | Decoy => 128 end).
Proof. exact header_bytes. Qed.
Print Assumptions C16_header_bytes.

Theorem C16_from_byte_decoy_iff : forall h, from_byte h = Decoy <-> Byte.to_N h = 128.
Proof. exact from_byte_decoy_iff. Qed.
Print Assumptions C16_from_byte_decoy_iff.

(** BIP-324: bit 7 of the header is the ignore flag, other bits are to be ignored. *)
Theorem C16_bip_flag_refuted : forall h,
  N.testbit (Byte.to_N h) 7 = true -> Byte.to_N h <> 128 -> from_byte h = Genuine.
Proof. exact from_byte_bit7. Qed.
Print Assumptions C16_bip_flag_refuted.
Example C16_example : N.testbit (Byte.to_N x81) 7 = true /\ from_byte x81 = Genuine.
Proof. split; reflexivity. Qed.

(** ** C50 *)
Theorem C50_filter_genuine : forall (E : Env) (EL : EnvLaws E) m r ms rest,
  Forall (fun x => len (m_contents x) < 2 ^ 24) ms ->
  (overflow_checks = true -> len ms < 2 ^ 32) ->
  exists pkts out' got,
    send_all (outbound (session_new m r)) ms = Ret (pkts, out') /\
    recv_all (inbound (session_new m (opp r))) (map m_aad ms) (concat pkts ++ rest) =
      Ret (Some got, out', rest) /\
    map snd (filter (fun p => negb (is_decoy (fst p))) got) =
    map m_contents (filter (fun x => negb (is_decoy (m_type x))) ms).
Proof. exact @filter_genuine. Qed.
Print Assumptions C50_filter_genuine.
Example C50_example :
  map m_contents (filter (fun x => negb (is_decoy (m_type x))) three) = [counting 10 7; []].
Proof. reflexivity. Qed.
