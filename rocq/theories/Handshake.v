(** * Handshake: model of protocol/src/handshake.rs *)
From Coq Require Import List NArith Bool.
From Coq.Strings Require Import Byte.
From Verif Require Import Base Env FsChacha Cipher.
Import ListNotations.
Local Open Scope N_scope.

(** handshake.rs:23 *)
Definition MAX_NUM_GARBAGE_BYTES : N := 4095.

(** [EcdhPoint], handshake.rs:26-30 (the encoding as its 64 bytes). *)
Record ecdh_point := EcdhPoint { secret_key : bytes; elligator_swift : bytes }.

(** [Initialized], 33-35. *)
Record initialized := Initialized { in_point : ecdh_point }.
(** [SentKey], 38-41. *)
Record sent_key := SentKey { sk_point : ecdh_point; sk_local_garbage : option bytes }.
(** [ReceivedKey], 45-48. *)
Record received_key := ReceivedKey { session_keys : key_material; rk_local_garbage : option bytes }.
(** [SentVersion], 51-54. *)
Record sent_version := SentVersion {
  sv_cipher : cipher_session; remote_garbage_terminator : bytes }.
(** [ReceivedGarbage], 57-60. *)
Record received_garbage := ReceivedGarbage {
  rg_cipher : cipher_session; remote_garbage : option bytes }.

(** [Handshake<State>], 90-97; [magic()] and [role()] (100-110) are the first two fields. *)
Record handshake (St : Type) := Handshake { hs_magic : bytes; hs_role : role; hs_state : St }.
Arguments Handshake {St}.
Arguments hs_magic {St}.
Arguments hs_role {St}.
Arguments hs_state {St}.

(** [GarbageResult], 63-71. *)
Inductive garbage_result :=
| FoundGarbage (h : handshake received_garbage) (consumed_bytes : N)
| NeedMoreData (h : handshake sent_version).

(** [VersionResult], 74-79. *)
Inductive version_result :=
| Complete (cipher : cipher_session)
| DecoyPacket (h : handshake received_garbage).

Section WithEnv.
Context {E : Env}.

(** [Handshake::new_with_rng], 122-145; [rnd] are the 32 bytes the RNG fills in.
    [Handshake::new] (115-119) is the same with the thread's RNG. *)
Definition hs_new (magic : bytes) (r : role) (rnd : bytes)
  : run (result error (handshake initialized)) :=
  if debug_assertions && bytes_eqb rnd (zeros 32) then Panic else
  if sk_valid rnd then
    Ret (Ok (Handshake magic r (Initialized (EcdhPoint rnd (ellswift_of rnd)))))
  else Ret (Err (SecretGeneration MaterialsGeneration)).

(** [Handshake::send_key_len], 148-150. *)
Definition send_key_len (garbage : option bytes) : N :=
  NUM_ELLIGATOR_SWIFT_BYTES + match garbage with Some g => len g | None => 0 end.

(** [Handshake::send_key], 168-205: result and output buffer. *)
Definition send_key (h : handshake initialized) (garbage : option bytes) (out : bytes)
  : run (result error (handshake sent_key) * bytes) :=
  let too_much := match garbage with Some g => MAX_NUM_GARBAGE_BYTES <? len g | None => false end in
  if too_much then Ret (Err TooMuchGarbage, out) else
  let required_len := send_key_len garbage in
  if len out <? required_len then Ret (Err (BufferTooSmall required_len), out) else
  let! out := splice out 0 NUM_ELLIGATOR_SWIFT_BYTES (elligator_swift (in_point (hs_state h))) in
  let! out := match garbage with
              | Some g => splice out NUM_ELLIGATOR_SWIFT_BYTES (NUM_ELLIGATOR_SWIFT_BYTES + len g) g
              | None => Ret out
              end in
  Ret (Ok (Handshake (hs_magic h) (hs_role h) (SentKey (in_point (hs_state h)) garbage)), out).

(** [Handshake::receive_key], 228-275. *)
Definition receive_key (h : handshake sent_key) (their_key : bytes)
  : run (result error (handshake received_key)) :=
  let! their_magic := slice their_key 0 4 in
  if bytes_eqb (hs_magic h) their_magic then Ret (Err V1Protocol) else
  let own := sk_point (hs_state h) in
  let '(ei, er, p) :=
    match hs_role h with
    | Initiator => (elligator_swift own, their_key, PartyA)
    | Responder => (their_key, elligator_swift own, PartyB)
    end in
  let! r := from_ecdh ei er (secret_key own) p (hs_magic h) in
  match r with
  | Err e => Ret (Err e)
  | Ok ks => Ret (Ok (Handshake (hs_magic h) (hs_role h)
                        (ReceivedKey ks (sk_local_garbage (hs_state h)))))
  end.

(** [Handshake::send_version_len], 280-292. *)
Definition send_version_len (decoys : option (list bytes)) : N :=
  let base := NUM_GARBAGE_TERMINTOR_BYTES + encryption_buffer_len (len VERSION_CONTENT) in
  match decoys with
  | Some ds => fold_left (fun n d => n + encryption_buffer_len (len d)) ds base
  | None => base
  end.

(** [cipher.outbound().encrypt(pt, &mut out[a..a+n], t, aad)]: encrypt into a subslice.  handshake.rs:315-378. *)
Definition encrypt_into (c : cipher_session) (out : bytes) (a n : N) (pt : bytes)
    (t : packet_type) (aad : option bytes)
  : run (result error unit * cipher_session * bytes) :=
  let! sub := slice out a (a + n) in
  let! (r, oc, sub') := encrypt (outbound c) pt sub t aad in
  let! out' := splice out a (a + n) sub' in
  Ret (r, CipherSession (id c) (inbound c) oc, out').

(** The loop over the decoys, 347-359. *)
Fixpoint send_decoys (ds : list bytes) (c : cipher_session) (out : bytes) (written : N)
    (aad : option bytes)
  : run (result error unit * cipher_session * bytes * N * option bytes) :=
  match ds with
  | [] => Ret (Ok tt, c, out, written, aad)
  | d :: ds' =>
    let packet_len := encryption_buffer_len (len d) in
    let! (r, c', out') := encrypt_into c out written packet_len d Decoy aad in
    match r with
    | Err e => Ret (Err e, c', out', written, aad)
    | Ok _ => send_decoys ds' c' out' (written + packet_len) None
    end
  end.

(** [Handshake::send_version], 315-378: result and output buffer. *)
Definition send_version (h : handshake received_key) (out : bytes) (decoys : option (list bytes))
  : run (result error (handshake sent_version) * bytes) :=
  let required_len := send_version_len decoys in
  if len out <? required_len then Ret (Err (BufferTooSmall required_len), out) else
  let ks := session_keys (hs_state h) in
  let c := session_new ks (hs_role h) in
  let '(local_term, remote_term) :=
    match hs_role h with
    | Initiator => (initiator_garbage_terminator ks, responder_garbage_terminator ks)
    | Responder => (responder_garbage_terminator ks, initiator_garbage_terminator ks)
    end in
  let! out := splice out 0 NUM_GARBAGE_TERMINTOR_BYTES local_term in
  let aad := rk_local_garbage (hs_state h) in
  let ds := match decoys with Some ds => ds | None => [] end in
  let! (r, c, out, written, aad) := send_decoys ds c out NUM_GARBAGE_TERMINTOR_BYTES aad in
  match r with
  | Err e => Ret (Err e, out)
  | Ok _ =>
    let version_packet_len := encryption_buffer_len (len VERSION_CONTENT) in
    let! (r, c, out) := encrypt_into c out written version_packet_len VERSION_CONTENT Genuine aad in
    match r with
    | Err e => Ret (Err e, out)
    | Ok _ => Ret (Ok (Handshake (hs_magic h) (hs_role h) (SentVersion c remote_term)), out)
    end
  end.

(** [buffer.windows(t.len()).position(|w| w == t)], 472-477; [t] is never empty. *)
Fixpoint window_position (t l : bytes) : option N :=
  if bytes_eqb (take (len t) l) t then Some 0
  else match l with
       | [] => None
       | _ :: l' => option_map N.succ (window_position t l')
       end.

(** [Handshake::split_garbage], 466-486: the garbage and what follows the terminator. *)
Definition split_garbage (h : handshake sent_version) (buffer : bytes)
  : run (result error (bytes * bytes)) :=
  let t := remote_garbage_terminator (hs_state h) in
  let! search := slice buffer 0
        (N.min (len buffer) (MAX_NUM_GARBAGE_BYTES + NUM_GARBAGE_TERMINTOR_BYTES)) in
  match window_position t search with
  | Some index =>
    let! (garbage, rest) := split_at buffer index in
    let! ciphertext := slice rest (len t) (len rest) in
    Ret (Ok (garbage, ciphertext))
  | None =>
    if MAX_NUM_GARBAGE_BYTES + NUM_GARBAGE_TERMINTOR_BYTES <=? len buffer
    then Ret (Err NoGarbageTerminator)
    else Ret (Err CiphertextTooSmall)
  end.

(** [Handshake::receive_garbage], 438-463. *)
Definition receive_garbage (h : handshake sent_version) (input : bytes)
  : run (result error garbage_result) :=
  let! r := split_garbage h input in
  match r with
  | Ok (garbage, _) =>
    let consumed := len garbage + NUM_GARBAGE_TERMINTOR_BYTES in
    let rg := match garbage with [] => None | _ :: _ => Some garbage end in
    Ret (Ok (FoundGarbage
               (Handshake (hs_magic h) (hs_role h) (ReceivedGarbage (sv_cipher (hs_state h)) rg))
               consumed))
  | Err CiphertextTooSmall => Ret (Ok (NeedMoreData h))
  | Err e => Ret (Err e)
  end.

(** [Handshake<ReceivedGarbage>::decrypt_packet_len], 491-493 (always [Ok]). *)
Definition hs_decrypt_packet_len (h : handshake received_garbage) (length_bytes : bytes)
  : run (N * handshake received_garbage) :=
  let c := rg_cipher (hs_state h) in
  let! (n, ic) := decrypt_packet_len (inbound c) length_bytes in
  Ret (n, Handshake (hs_magic h) (hs_role h)
            (ReceivedGarbage (CipherSession (id c) ic (outbound c)) (remote_garbage (hs_state h)))).

(** [Handshake::receive_version], 565-581: result and input buffer afterwards. *)
Definition receive_version (h : handshake received_garbage) (input : bytes)
  : run (result error version_result * bytes) :=
  let aad := remote_garbage (hs_state h) in
  let c := rg_cipher (hs_state h) in
  let! (r, ic, buf) := decrypt_in_place (inbound c) input aad in
  let c' := CipherSession (id c) ic (outbound c) in
  match r with
  | Err e => Ret (Err e, buf)
  | Ok (Genuine, _) => Ret (Ok (Complete c'), buf)
  | Ok (Decoy, _) =>
    Ret (Ok (DecoyPacket (Handshake (hs_magic h) (hs_role h) (ReceivedGarbage c' None))), buf)
  end.

End WithEnv.
