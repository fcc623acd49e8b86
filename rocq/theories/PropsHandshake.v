(** * Properties C17-C26: the handshake without I/O (handshake.rs) *)
From Coq Require Import String List NArith Bool Lia ZArith.
From Coq.Strings Require Import Byte.
From Verif Require Import Base BaseFacts Env FsChacha Spec Cipher Histories CipherProofs Handshake
  SpecHandshake HsDriver HandshakeProofs HsRunProofs Toy.
Import ListNotations.
Local Open Scope N_scope.

(** Sample data. *)
Definition mainnet : bytes := [xf9; xbe; xb4; xd9].
Definition ska : bytes := counting 3 32.
Definition skb : bytes := counting 77 32.
Definition sample_km : key_material :=
  KeyMaterial (counting 1 32) (counting 2 32) (counting 3 32) (counting 4 32) (counting 5 32)
              (counting 60 16) (counting 170 16).
Definition sample_sent : handshake sent_version :=
  Handshake mainnet Initiator (SentVersion (session_new sample_km Initiator) (counting 170 16)).

(** ** C17 *)
Theorem C17_send_key : forall h garbage out,
  let g := garbage_bytes garbage in
  let e := elligator_swift (in_point (hs_state h)) in
  len e = 64 ->
  (4095 < len g -> send_key h garbage out = Ret (Err TooMuchGarbage, out)) /\
  (len g <= 4095 -> len out < 64 + len g ->
     send_key h garbage out = Ret (Err (BufferTooSmall (64 + len g)), out)) /\
  (len g <= 4095 -> 64 + len g <= len out ->
     send_key h garbage out =
     Ret (Ok (Handshake (hs_magic h) (hs_role h) (SentKey (in_point (hs_state h)) garbage)),
          e ++ g ++ drop (64 + len g) out)) /\
  send_key_len garbage = 64 + len g.
Proof. exact send_key_contract. Qed.
Print Assumptions C17_send_key.

Example C17_example :
  let h := Handshake mainnet Responder (Initialized (EcdhPoint ska (counting 9 64))) in
  send_key h (Some (zeros 4096)) (zeros 5000) = Ret (Err TooMuchGarbage, zeros 5000) /\
  send_key h (Some (zeros 4095)) (zeros 4158) = Ret (Err (BufferTooSmall 4159), zeros 4158) /\
  send_key h (Some [x01; x02]) (repeat xff 67) =
    Ret (Ok (Handshake mainnet Responder (SentKey (EcdhPoint ska (counting 9 64)) (Some [x01; x02]))),
         counting 9 64 ++ [x01; x02; xff]).
Proof. vm_compute. repeat split. Qed.

(** ** C18 *)
Theorem C18_v1_detection : forall (E : Env) (EL : EnvLaws E) h their,
  len their = 64 -> len (hs_magic h) = 4 ->
  (receive_key h their = Ret (Err V1Protocol) <-> take 4 their = hs_magic h) /\
  (take 4 their <> hs_magic h ->
   exists m, receive_key h their =
             Ret (Ok (Handshake (hs_magic h) (hs_role h)
                        (ReceivedKey m (sk_local_garbage (hs_state h))))) /\
     let own := sk_point (hs_state h) in
     let '(ei, er) := in_order (hs_role h) (elligator_swift own) their in
     keys_from (bip_prk (hs_magic h)
                  (bip_secret ei er (secret_key own) (party_of (hs_role h)))) m).
Proof. exact @receive_key_v1. Qed.
Print Assumptions C18_v1_detection.

Example C18_example :
  let h := Handshake mainnet Initiator (SentKey (EcdhPoint ska (counting 9 64)) None) in
  @receive_key (toy true) h (mainnet ++ zeros 60) = Ret (Err V1Protocol) /\
  (exists h', @receive_key (toy true) h ([xf9; xbe; xb4; xd8] ++ zeros 60) = Ret (Ok h')) /\
  (exists h', @receive_key (toy true) h (x00 :: mainnet ++ zeros 59) = Ret (Ok h')).
Proof. split; [|split]; [reflexivity|eexists; vm_compute; reflexivity..]. Qed.

(** An honest V2 peer is taken for a V1 peer when its key starts with the magic. *)
Theorem C18_honest_v2_peer_never_v1_refuted :
  ~ forall (E : Env) (EL : EnvLaws E) magic r own peer g,
      len magic = 4 -> sk_valid own = true -> sk_valid peer = true ->
      receive_key (Handshake magic r (SentKey (EcdhPoint own (ellswift_of own)) g)) (ellswift_of peer)
      <> Ret (Err V1Protocol).
Proof.
  intros H. refine (H (toy true) (toy_laws true) mainnet Initiator ska (mainnet ++ zeros 28) None _ _ _ _);
    reflexivity.
Qed.
Print Assumptions C18_honest_v2_peer_never_v1_refuted.

(** ** C19 *)
Theorem C19_derivation : forall (E : Env) (EL : EnvLaws E) a b sk p magic,
  len magic = 4 ->
  exists m, from_ecdh a b sk p magic = Ret (Ok m) /\
            keys_from (bip_prk magic (bip_secret a b sk p)) m.
Proof. exact @derivation. Qed.
Print Assumptions C19_derivation.

Theorem C19_derivation_unique : forall (E : Env) prk m1 m2,
  keys_from prk m1 -> keys_from prk m2 -> m1 = m2.
Proof. exact @keys_from_unique. Qed.
Print Assumptions C19_derivation_unique.

Example C19_labels_distinct :
  NoDup ["session_id"; "initiator_L"; "initiator_P"; "responder_L"; "responder_P";
         "garbage_terminators"]%string.
Proof. repeat constructor; cbn; intuition discriminate. Qed.

Example C19_example :
  match @from_ecdh (toy true) (counting 0 64) (counting 1 64) ska PartyA mainnet with
  | Ret (Ok m) =>
      session_id m <> initiator_length_key m /\
      len (session_id m) = 32 /\ len (responder_garbage_terminator m) = 16 /\
      initiator_garbage_terminator m <> responder_garbage_terminator m
  | _ => False
  end.
Proof. vm_compute. repeat split; discriminate. Qed.

(** ** C20 *)
Theorem C20_same_session : forall (E : Env) (EL : EnvLaws E) magic ska skb ga gb,
  EcdhAgrees E -> len magic = 4 -> sk_valid ska = true -> sk_valid skb = true ->
  take 4 (ellswift_of ska) <> magic -> take 4 (ellswift_of skb) <> magic ->
  let ha := Handshake magic Initiator (SentKey (EcdhPoint ska (ellswift_of ska)) ga) in
  let hb := Handshake magic Responder (SentKey (EcdhPoint skb (ellswift_of skb)) gb) in
  exists m,
    receive_key ha (ellswift_of skb) = Ret (Ok (Handshake magic Initiator (ReceivedKey m ga))) /\
    receive_key hb (ellswift_of ska) = Ret (Ok (Handshake magic Responder (ReceivedKey m gb))).
Proof. exact @same_keys. Qed.
Print Assumptions C20_same_session.

Example C20_example :
  sk_valid (Env := toy true) ska = true /\ take 4 (ellswift_of (Env := toy true) ska) <> mainnet /\
  match @receive_key (toy true) (Handshake mainnet Initiator
           (SentKey (EcdhPoint ska (ellswift_of (Env := toy true) ska)) None))
           (ellswift_of (Env := toy true) skb),
        @receive_key (toy true) (Handshake mainnet Responder
           (SentKey (EcdhPoint skb (ellswift_of (Env := toy true) skb)) None))
           (ellswift_of (Env := toy true) ska) with
  | Ret (Ok h1), Ret (Ok h2) => session_keys (hs_state h1) = session_keys (hs_state h2)
  | _, _ => False
  end.
Proof. vm_compute. repeat split; discriminate. Qed.

(** ** C21 *)
Theorem C21_send_version : forall (E : Env) (EL : EnvLaws E) h out decoys,
  let m := session_keys (hs_state h) in
  let r := hs_role h in
  let ds := decoy_list decoys in
  let need := 36 + decoys_len ds in
  len (terminator m r) = 16 -> len ds + 1 < 2 ^ 32 -> need <= len out ->
  exists oc,
    send_all (outbound (session_new m r)) (version_msgs (rk_local_garbage (hs_state h)) ds) =
      Ret (bip_stream (send_length_key m r) (send_packet_key m r) 0
             (bip_version_packets (garbage_bytes (rk_local_garbage (hs_state h))) ds), oc) /\
    send_version h out decoys =
    Ret (Ok (Handshake (hs_magic h) r
               (SentVersion (CipherSession (session_id m) (inbound (session_new m r)) oc)
                  (terminator m (opp r)))),
         bip_second_flight (terminator m r) (send_length_key m r) (send_packet_key m r)
           (garbage_bytes (rk_local_garbage (hs_state h))) ds ++ drop need out) /\
    len (bip_second_flight (terminator m r) (send_length_key m r) (send_packet_key m r)
           (garbage_bytes (rk_local_garbage (hs_state h))) ds) = need.
Proof. exact @send_version_contract. Qed.
Print Assumptions C21_send_version.

Theorem C21_send_version_small : forall (E : Env) h out decoys,
  len out < 36 + decoys_len (decoy_list decoys) ->
  send_version h out decoys =
  Ret (Err (BufferTooSmall (36 + decoys_len (decoy_list decoys))), out).
Proof. exact @send_version_small. Qed.
Print Assumptions C21_send_version_small.

Theorem C21_send_version_len : forall d, send_version_len d = 36 + decoys_len (decoy_list d).
Proof. exact send_version_len_eq. Qed.
Print Assumptions C21_send_version_len.

Example C21_example :
  let h := Handshake mainnet Responder (ReceivedKey sample_km (Some [x0a; x0b])) in
  let ds := Some [[x01]; []; [x02; x03; x04]] in
  send_version_len ds = 100 /\
  match @send_version (toy true) h (repeat xee 103) ds with
  | Ret (Ok h', out) =>
      take 16 out = counting 170 16 /\ remote_garbage_terminator (hs_state h') = counting 60 16 /\
      drop 100 out = [xee; xee; xee] /\
      match @recv_all (toy true) (inbound (session_new sample_km Initiator))
              [Some [x0a; x0b]; None; None; None] (drop 16 out) with
      | Ret (Some got, _, rest) =>
          got = [(Decoy, [x01]); (Decoy, []); (Decoy, [x02; x03; x04]); (Genuine, [])] /\
          rest = [xee; xee; xee]
      | _ => False
      end
  | _ => False
  end.
Proof. vm_compute. repeat split. Qed.

(** ** C22 *)
Theorem C22_garbage_exact : forall h buf r,
  let t := remote_garbage_terminator (hs_state h) in
  len t = 16 -> receive_garbage h buf = Ret r ->
  (forall h' n, r = Ok (FoundGarbage h' n) <->
     exists i, i <= 4095 /\ first_at t buf i /\ n = i + 16 /\
       h' = Handshake (hs_magic h) (hs_role h)
              (ReceivedGarbage (sv_cipher (hs_state h))
                 (if i =? 0 then None else Some (take i buf)))) /\
  (r = Err NoGarbageTerminator <-> (forall i, i <= 4095 -> ~ occurs_at t buf i) /\ 4111 <= len buf) /\
  (r = Ok (NeedMoreData h) <-> (forall i, i <= 4095 -> ~ occurs_at t buf i) /\ len buf < 4111).
Proof. exact garbage_exact. Qed.
Print Assumptions C22_garbage_exact.

Theorem C22_garbage_total : forall h buf,
  len (remote_garbage_terminator (hs_state h)) = 16 ->
  exists r, receive_garbage h buf = Ret r /\
    match r with
    | Ok _ => True
    | Err e => e = NoGarbageTerminator
    end.
Proof. exact garbage_total. Qed.
Print Assumptions C22_garbage_total.

Example C22_example :
  let t := counting 170 16 in
  (exists h, receive_garbage sample_sent (zeros 4095 ++ t ++ t) = Ret (Ok (FoundGarbage h 4111))) /\
  receive_garbage sample_sent (zeros 4096 ++ t) = Ret (Err NoGarbageTerminator) /\
  receive_garbage sample_sent (zeros 4095 ++ take 15 t) = Ret (Ok (NeedMoreData sample_sent)) /\
  receive_garbage sample_sent [] = Ret (Ok (NeedMoreData sample_sent)) /\
  (exists h, receive_garbage sample_sent (t ++ t) = Ret (Ok (FoundGarbage h 16))).
Proof.
  split; [eexists; vm_compute; reflexivity|]. split; [vm_compute; reflexivity|].
  split; [vm_compute; reflexivity|]. split; [vm_compute; reflexivity|].
  eexists; vm_compute; reflexivity.
Qed.

(** ** C23 *)
Theorem C23_garbage_chunks : forall h chunks acc,
  len (remote_garbage_terminator (hs_state h)) = 16 ->
  feed_garbage h acc chunks = receive_garbage h (acc ++ List.concat chunks).
Proof. exact garbage_chunks. Qed.
Print Assumptions C23_garbage_chunks.

Theorem C23_garbage_stable : forall h buf more r,
  len (remote_garbage_terminator (hs_state h)) = 16 ->
  receive_garbage h buf = Ret r -> r <> Ok (NeedMoreData h) ->
  receive_garbage h (buf ++ more) = Ret r.
Proof. exact garbage_stable. Qed.
Print Assumptions C23_garbage_stable.

Example C23_example :
  let t := counting 170 16 in
  let s := [x01; x02; x03] ++ t ++ [x04] in
  feed_garbage sample_sent [] [take 1 s; []; take 9 (drop 1 s); drop 10 s] =
  receive_garbage sample_sent s /\
  (exists h, receive_garbage sample_sent s = Ret (Ok (FoundGarbage h 19))).
Proof. split; [vm_compute; reflexivity|eexists; vm_compute; reflexivity]. Qed.

(** ** C24 *)
Theorem C24_version_accepts : forall (E : Env) (EL : EnvLaws E) h ct,
  let c := inbound (rg_cipher (hs_state h)) in
  let key := fp_key (packet_cipher c) in let nonce := fp_nonce (packet_cipher c) in
  let aad := garbage_bytes (remote_garbage (hs_state h)) in
  (overflow_checks = true -> fp_ctr (packet_cipher c) + 1 < 2 ^ 64) ->
  (exists v b, receive_version h ct = Ret (Ok v, b)) <->
  (exists hd contents, ct = rfc_aead key nonce aad (hd :: contents)).
Proof. exact @receive_version_accepts. Qed.
Print Assumptions C24_version_accepts.

Theorem C24_version_outcome : forall (E : Env) h ct v b,
  let c := inbound (rg_cipher (hs_state h)) in
  let key := fp_key (packet_cipher c) in let nonce := fp_nonce (packet_cipher c) in
  let aad := garbage_bytes (remote_garbage (hs_state h)) in
  receive_version h ct = Ret (Ok v, b) ->
  exists hd contents ic,
    ct = rfc_aead key nonce aad (hd :: contents) /\
    fp_rekey (packet_cipher c) aad = Ret (packet_cipher ic) /\
    length_cipher ic = length_cipher c /\
    let s := CipherSession (id (rg_cipher (hs_state h))) ic (outbound (rg_cipher (hs_state h))) in
    v = if byte_eqb hd x80
        then DecoyPacket (Handshake (hs_magic h) (hs_role h) (ReceivedGarbage s None))
        else Complete s.
Proof. exact @receive_version_outcome. Qed.
Print Assumptions C24_version_outcome.

Theorem C24_version_error : forall (E : Env) h ct e b,
  receive_version h ct = Ret (Err e, b) ->
  (e = CiphertextTooSmall /\ len ct < 17) \/ (e = Decryption /\ 17 <= len ct).
Proof. exact @receive_version_error. Qed.
Print Assumptions C24_version_error.

(** The whole phase: decoys, then one genuine packet; garbage as associated data of the first only. *)
Theorem C24_version_phase : forall (E : Env) fuel h wire s rest,
  (length wire < fuel)%nat ->
  party_versions fuel h wire = Ret (Ok s, rest) <->
  exists ds x ic,
    Forall is_decoy_packet ds /\
    recv_all (inbound (rg_cipher (hs_state h)))
      (remote_garbage (hs_state h) :: repeat None (length ds)) wire =
      Ret (Some (ds ++ [(Genuine, x)]), ic, rest) /\
    s = CipherSession (id (rg_cipher (hs_state h))) ic (outbound (rg_cipher (hs_state h))).
Proof. exact @versions_iff. Qed.
Print Assumptions C24_version_phase.

Theorem C24_garbage_authenticated : forall (E : Env) h wire s rest,
  let c := inbound (sv_cipher (hs_state h)) in
  len (remote_garbage_terminator (hs_state h)) = 16 ->
  party_finish h wire = Ret (Ok s, rest) ->
  exists i n ic hd contents,
    i <= 4095 /\ first_at (remote_garbage_terminator (hs_state h)) wire i /\
    decrypt_packet_len c (take 3 (drop (i + 16) wire)) = Ret (n, ic) /\
    take n (drop (i + 19) wire) =
    rfc_aead (fp_key (packet_cipher c)) (fp_nonce (packet_cipher c)) (take i wire) (hd :: contents).
Proof. exact @garbage_authenticated. Qed.
Print Assumptions C24_garbage_authenticated.

(** Right garbage completes after two decoys; one changed garbage byte is refused. *)
Example C24_example :
  match @send_version (toy true) (Handshake mainnet Responder (ReceivedKey sample_km (Some [x0a; x0b])))
          (zeros 78) (Some [[x01]; [x02]]) with
  | Ret (Ok _, out) =>
      (exists s, @party_finish (toy true) sample_sent ([x0a; x0b] ++ out ++ [xcc]) = Ret (Ok s, [xcc])) /\
      (exists rest, @party_finish (toy true) sample_sent ([x0a; x0c] ++ out ++ [xcc]) =
                    Ret (Err (StopError Decryption), rest))
  | _ => False
  end.
Proof. vm_compute. split; eexists; reflexivity. Qed.

(** ** C25 *)
Theorem C25_honest_handshake : forall (E : Env) (EL : EnvLaws E) magic ska skb ga gb da db resta restb,
  EcdhAgrees E -> len magic = 4 ->
  sk_valid ska = true -> sk_valid skb = true ->
  (debug_assertions = true -> ska <> zeros 32 /\ skb <> zeros 32) ->
  len (garbage_bytes ga) <= 4095 -> len (garbage_bytes gb) <= 4095 ->
  Forall (fun d => len d < 2 ^ 24) (decoy_list da) ->
  Forall (fun d => len d < 2 ^ 24) (decoy_list db) ->
  (overflow_checks = true -> len (decoy_list da) + 1 < 2 ^ 32 /\ len (decoy_list db) + 1 < 2 ^ 32) ->
  take 4 (ellswift_of ska) <> magic -> take 4 (ellswift_of skb) <> magic ->
  exists ha fa hb fb ha' wa hb' wb m,
    party_start magic Initiator ska ga = Ret (Ok (ha, fa)) /\
    party_start magic Responder skb gb = Ret (Ok (hb, fb)) /\
    party_key ha (take 64 fb) da = Ret (Ok (ha', wa)) /\
    party_key hb (take 64 fa) db = Ret (Ok (hb', wb)) /\
    keys_from (bip_prk magic (bip_secret (ellswift_of ska) (ellswift_of skb) ska PartyA)) m /\
    (first_at (initiator_garbage_terminator m)
       (garbage_bytes ga ++ initiator_garbage_terminator m) (len (garbage_bytes ga)) ->
     first_at (responder_garbage_terminator m)
       (garbage_bytes gb ++ responder_garbage_terminator m) (len (garbage_bytes gb)) ->
     exists ca cb,
       party_finish ha' (drop 64 fb ++ wb ++ resta) = Ret (Ok ca, resta) /\
       party_finish hb' (drop 64 fa ++ wa ++ restb) = Ret (Ok cb, restb) /\
       id ca = session_id m /\ id cb = session_id m /\
       outbound ca = inbound cb /\ outbound cb = inbound ca).
Proof. exact @honest_handshake. Qed.
Print Assumptions C25_honest_handshake.

Theorem C25_after_handshake : forall (E : Env) (EL : EnvLaws E) (ca cb : cipher_session) ms pkts c' rest,
  outbound ca = inbound cb ->
  Forall (fun m => len (m_contents m) < 2 ^ 24) ms ->
  send_all (outbound ca) ms = Ret (pkts, c') ->
  recv_all (inbound cb) (map m_aad ms) (List.concat pkts ++ rest) =
  Ret (Some (map (fun m => (m_type m, m_contents m)) ms), c', rest).
Proof. exact @after_handshake. Qed.
Print Assumptions C25_after_handshake.

(** Run both parties; [None] unless both complete. *)
Definition both (E : Env) (ga gb : option bytes) (da db : option (list bytes))
  : option (cipher_session * cipher_session) :=
  match party_start mainnet Initiator ska ga, party_start mainnet Responder skb gb with
  | Ret (Ok (ha, fa)), Ret (Ok (hb, fb)) =>
    match party_key ha (take 64 fb) da, party_key hb (take 64 fa) db with
    | Ret (Ok (ha', wa)), Ret (Ok (hb', wb)) =>
      match party_finish ha' (drop 64 fb ++ wb), party_finish hb' (drop 64 fa ++ wa) with
      | Ret (Ok ca, []), Ret (Ok cb, []) => Some (ca, cb)
      | _, _ => None
      end
    | _, _ => None
    end
  | _, _ => None
  end.

Example C25_example :
  match both (toy true) (Some (repeat x2a 300)) (Some []) (Some [[x01]; zeros 70]) None with
  | Some (ca, cb) => id ca = id cb /\ outbound ca = inbound cb /\ outbound cb = inbound ca
  | None => False
  end.
Proof. vm_compute. repeat split. Qed.

(** Garbage that contains the sender's own terminator makes an honest handshake fail. *)
Definition toy_terminator : bytes :=
  match @from_ecdh (toy true) (ellswift_of (Env := toy true) ska) (ellswift_of (Env := toy true) skb)
          ska PartyA mainnet with
  | Ret (Ok m) => initiator_garbage_terminator m
  | _ => []
  end.

Theorem C25_any_garbage_completes_refuted :
  ~ forall (E : Env) (EL : EnvLaws E) ga gb,
      EcdhAgrees E -> len ga <= 4095 -> len gb <= 4095 ->
      sk_valid ska = true -> sk_valid skb = true ->
      take 4 (ellswift_of ska) <> mainnet -> take 4 (ellswift_of skb) <> mainnet ->
      both E (Some ga) (Some gb) None None <> None.
Proof.
  intros H. refine (H (toy true) (toy_laws true) (x01 :: toy_terminator ++ [x02]) [] (toy_ecdh true) _ _ _ _ _ _ _);
    vm_compute; congruence.
Qed.
Print Assumptions C25_any_garbage_completes_refuted.

(** ** C26 *)
Theorem C26_no_panic_remote : forall (E : Env) (EL : EnvLaws E) magic r pt g d their wire,
  let h := Handshake magic r (SentKey pt g) in
  len magic = 4 -> len their = 64 ->
  (overflow_checks = true -> len (decoy_list d) + 1 < 2 ^ 32 /\ len wire < 2 ^ 35) ->
  exists x, party_key h their d = Ret x /\
    forall h' w, x = Ok (h', w) -> exists y rest, party_finish h' wire = Ret (y, rest).
Proof. exact @no_panic_remote. Qed.
Print Assumptions C26_no_panic_remote.

Theorem C26_no_panic_calls : forall (E : Env) (EL : EnvLaws E),
  (forall h their, len their = 64 -> len (hs_magic h) = 4 -> exists x, receive_key h their = Ret x) /\
  (forall h buf, len (remote_garbage_terminator (hs_state h)) = 16 ->
     exists x, receive_garbage h buf = Ret x) /\
  (forall h lb k, len lb = 3 -> counted k (inbound (rg_cipher (hs_state h))) -> room k ->
     exists x, hs_decrypt_packet_len h lb = Ret x) /\
  (forall h ct k, counted k (inbound (rg_cipher (hs_state h))) -> room k ->
     exists x, receive_version h ct = Ret x).
Proof. exact @no_panic_calls. Qed.
Print Assumptions C26_no_panic_calls.

(** Hostile input: no terminator at all, and noise after the terminator. *)
Example C26_example :
  @party_finish (toy true) sample_sent (zeros 5000) = Ret (Err (StopError NoGarbageTerminator), zeros 5000) /\
  exists e rest, @party_finish (toy true) sample_sent (counting 170 16 ++ counting 0 200) = Ret (Err e, rest).
Proof. split; [vm_compute; reflexivity|]. eexists _, _. vm_compute. reflexivity. Qed.

(** ** C55 *)
Theorem C55_new : forall (E : Env) magic r rnd,
  (debug_assertions = false \/ rnd <> zeros 32 ->
   hs_new magic r rnd =
   Ret (if sk_valid rnd
        then Ok (Handshake magic r (Initialized (EcdhPoint rnd (ellswift_of rnd))))
        else Err (SecretGeneration MaterialsGeneration))) /\
  (debug_assertions = true -> hs_new magic r (zeros 32) = Panic).
Proof.
  intros E magic r rnd. unfold hs_new. split.
  - intros H. replace (debug_assertions && bytes_eqb rnd (zeros 32))%bool with false.
    + destruct (sk_valid rnd); reflexivity.
    + destruct H as [->|H]; [reflexivity|]. destruct (bytes_eqb rnd (zeros 32)) eqn:Q; [|now rewrite andb_false_r].
      apply bytes_eqb_spec in Q. contradiction.
  - intros ->. assert (bytes_eqb (zeros 32) (zeros 32) = true) as -> by apply bytes_eqb_refl. reflexivity.
Qed.
Print Assumptions C55_new.

(** The first 64 bytes sent encode the public key of exactly this secret, whatever the garbage. *)
Theorem C55_key_sent : forall (E : Env) (EL : EnvLaws E) magic r rnd g h out,
  party_start magic r rnd g = Ret (Ok (h, out)) ->
  sk_valid rnd = true /\ take 64 out = ellswift_of rnd /\ drop 64 out = garbage_bytes g /\ len out <= 64 + 4095.
Proof.
  intros E EL magic r rnd g h out H.
  assert (sk_valid rnd = true /\ (debug_assertions = true -> rnd <> zeros 32) /\ len (garbage_bytes g) <= 4095) as (V & Z & L).
  { unfold party_start, hs_new in H.
    destruct (debug_assertions && bytes_eqb rnd (zeros 32))%bool eqn:D; [discriminate|].
    destruct (sk_valid rnd); [|discriminate]. cbn [bind] in H. split; [reflexivity|]. split.
    - intros Q ->. rewrite Q in D. cbn [andb] in D.
      assert (bytes_eqb (zeros 32) (zeros 32) = true) by apply bytes_eqb_refl. congruence.
    - destruct (N.leb_spec (len (garbage_bytes g)) 4095) as [?|Q]; [assumption|exfalso].
      destruct g as [g|]; cbn [garbage_bytes] in Q; [|cbn in Q; lia].
      unfold send_key in H. change MAX_NUM_GARBAGE_BYTES with 4095 in H.
      rewrite (proj2 (N.ltb_lt _ _)) in H by assumption. discriminate. }
  rewrite start_ok in H by assumption. injection H as <- <-. unfold bip_first_flight.
  assert (len (ellswift_of rnd) = 64) as L64 by apply ellswift_len.
  split; [assumption|]. split; [now apply take_app_exact|]. split; [now apply drop_app_exact|].
  rewrite len_app. lia.
Qed.
Print Assumptions C55_key_sent.

Example C55_example :
  @hs_new (toy true) mainnet Initiator (zeros 32) = Panic /\
  @hs_new (toy true) mainnet Initiator (zeros 31) = Ret (Err (SecretGeneration MaterialsGeneration)) /\
  match @party_start (toy false) mainnet Initiator (zeros 32) (Some [x01; x02]) with
  | Ret (Ok (_, out)) => len out = 66
  | _ => False
  end.
Proof. vm_compute. repeat split. Qed.
