(** * Cipher: model of protocol/src/lib.rs *)
From Coq Require Import List NArith Bool String.
From Coq.Strings Require Import Byte.
From Verif Require Import Base Env FsChacha.
Import ListNotations.
Local Open Scope N_scope.

(** lib.rs:152. *)
Definition DECOY_BYTE : byte := x80.
(** lib.rs:154. *)
Definition NUM_HEADER_BYTES : N := 1.
(** lib.rs:156. *)
Definition NUM_LENGTH_BYTES : N := 3.
(** lib.rs:159. *)
Definition NUM_ELLIGATOR_SWIFT_BYTES : N := 64.
(** lib.rs:161. *)
Definition NUM_GARBAGE_TERMINTOR_BYTES : N := 16.
(** lib.rs:163. *)
Definition NUM_TAG_BYTES : N := 16.
(** lib.rs:165. *)
Definition NUM_PACKET_OVERHEAD_BYTES : N := NUM_LENGTH_BYTES + NUM_HEADER_BYTES + NUM_TAG_BYTES.
(** lib.rs:170. *)
Definition MAX_PACKET_SIZE_FOR_ALLOCATION : N := 4000014.
(** lib.rs:172. *)
Definition VERSION_CONTENT : bytes := [].

(** [SecretGenerationError], lib.rs:253-258 (payloads of the variants dropped). *)
Inductive secret_error := MaterialsGeneration | Expansion.

(** [Error], lib.rs:176-196 (the payload of [Decryption] is dropped: it has a single value). *)
Inductive error :=
| CiphertextTooSmall
| BufferTooSmall (required_bytes : N)
| PacketTooBig
| TooMuchGarbage
| NoGarbageTerminator
| V1Protocol
| SecretGeneration (e : secret_error)
| Decryption.

(** [Role], lib.rs:378-383. *)
Inductive role := Initiator | Responder.

(** [PacketType], lib.rs:389-394. *)
Inductive packet_type := Genuine | Decoy.

(** [PacketType::from_byte], lib.rs:398-404. *)
Definition from_byte (header : byte) : packet_type :=
  if byte_eqb header DECOY_BYTE then Decoy else Genuine.

(** [PacketType::to_byte], lib.rs:407-412. *)
Definition to_byte (t : packet_type) : byte :=
  match t with Genuine => x00 | Decoy => DECOY_BYTE end.

(** [InboundCipher] (lib.rs:417-420) and [OutboundCipher] (lib.rs:591-594) have the
    same two fields; one record serves for both, so that "in step" is equality. *)
Record cipher := Cipher { length_cipher : fschacha; packet_cipher : fspoly }.

(** [aad.unwrap_or_default()].  lib.rs:494, 539, 640. *)
Definition aad_or_default (aad : option bytes) : bytes :=
  match aad with Some a => a | None => [] end.

Section WithEnv.
Context {E : Env}.

(** ** Inbound *)

(** [InboundCipher::decrypt_packet_len], lib.rs:435-441. [len_bytes] has 3 bytes. *)
Definition decrypt_packet_len (c : cipher) (len_bytes : bytes) : run (N * cipher) :=
  let! (lb, lc) := fc_crypt (length_cipher c) len_bytes in
  let! b0 := index lb 0 in
  let! b1 := index lb 1 in
  let! b2 := index lb 2 in
  Ret (le_val [b0; b1; b2; x00] + NUM_HEADER_BYTES + NUM_TAG_BYTES,
       Cipher lc (packet_cipher c)).

(** [InboundCipher::decryption_buffer_len], lib.rs:444-446: an unchecked [usize] subtraction. *)
Definition decryption_buffer_len (packet_len : N) : run N :=
  sub_w overflow_checks 64 packet_len NUM_TAG_BYTES.

(** [InboundCipher::validate_ciphertext_size], lib.rs:457-462. *)
Definition validate_ciphertext_size (ciphertext_len : N) : result error unit :=
  if ciphertext_len <? NUM_TAG_BYTES + NUM_HEADER_BYTES
  then Err CiphertextTooSmall else Ok tt.

(** [InboundCipher::decrypt_in_place], lib.rs:485-500.  Returns the result (type and the
    decrypted part of the buffer), the cipher and the whole buffer afterwards. *)
Definition decrypt_in_place (c : cipher) (ciphertext : bytes) (aad : option bytes)
  : run (result error (packet_type * bytes) * cipher * bytes) :=
  match validate_ciphertext_size (len ciphertext) with
  | Err e => Ret (Err e, c, ciphertext)
  | Ok _ =>
    let! n := sub_w overflow_checks 64 (len ciphertext) NUM_TAG_BYTES in
    let! (msg, tag) := split_at ciphertext n in
    let! (r, pc) := fp_decrypt (packet_cipher c) (aad_or_default aad) msg tag in
    match r with
    | None => Ret (Err Decryption, Cipher (length_cipher c) pc, msg ++ tag)
    | Some pt =>
      let! h := index pt 0 in
      Ret (Ok (from_byte h, pt), Cipher (length_cipher c) pc, pt ++ tag)
    end
  end.

(** [InboundCipher::decrypt], lib.rs:523-545. Returns the result, the cipher and the
    plaintext buffer afterwards. *)
Definition decrypt (c : cipher) (ciphertext plaintext_buffer : bytes) (aad : option bytes)
  : run (result error packet_type * cipher * bytes) :=
  match validate_ciphertext_size (len ciphertext) with
  | Err e => Ret (Err e, c, plaintext_buffer)
  | Ok _ =>
    let! n := sub_w overflow_checks 64 (len ciphertext) NUM_TAG_BYTES in
    let! (msg, tag) := split_at ciphertext n in
    if len plaintext_buffer <? len msg
    then Ret (Err (BufferTooSmall (len msg)), c, plaintext_buffer)
    else
      let! buf := splice plaintext_buffer 0 (len msg) msg in
      let! content := slice buf 0 (len msg) in
      let! (r, pc) := fp_decrypt (packet_cipher c) (aad_or_default aad) content tag in
      match r with
      | None => Ret (Err Decryption, Cipher (length_cipher c) pc, buf)
      | Some pt =>
        let! buf' := splice buf 0 (len msg) pt in
        let! h := index buf' 0 in
        Ret (Ok (from_byte h), Cipher (length_cipher c) pc, buf')
      end
  end.

(** [InboundCipher::decrypt_to_vec], lib.rs:570-586. *)
Definition decrypt_to_vec (c : cipher) (ciphertext : bytes) (aad : option bytes)
  : run (result error (packet_type * bytes) * cipher) :=
  let! plaintext_len := decryption_buffer_len (len ciphertext) in
  if MAX_PACKET_SIZE_FOR_ALLOCATION <? plaintext_len then Ret (Err PacketTooBig, c)
  else
    let! (r, c', buf) := decrypt c ciphertext (zeros plaintext_len) aad in
    match r with
    | Err e => Ret (Err e, c')
    | Ok t => Ret (Ok (t, buf), c')
    end.

(** ** Outbound *)

(** [OutboundCipher::encryption_buffer_len], lib.rs:598-600. (Slice lengths are at most
    [isize::MAX], so the addition cannot overflow.) *)
Definition encryption_buffer_len (plaintext_len : N) : N :=
  plaintext_len + NUM_PACKET_OVERHEAD_BYTES.

(** [OutboundCipher::encrypt], lib.rs:616-657. Returns result, cipher and buffer. *)
Definition encrypt (c : cipher) (plaintext ciphertext_buffer : bytes)
    (t : packet_type) (aad : option bytes)
  : run (result error unit * cipher * bytes) :=
  if len ciphertext_buffer <? encryption_buffer_len (len plaintext)
  then Ret (Err (BufferTooSmall (encryption_buffer_len (len plaintext))), c, ciphertext_buffer)
  else
    let plaintext_length := len plaintext in
    let header_index := NUM_LENGTH_BYTES + NUM_HEADER_BYTES - 1 in
    let plaintext_start_index := header_index + 1 in
    let plaintext_end_index := plaintext_start_index + plaintext_length in
    (* lines 637-638 *)
    let! buf := set_index ciphertext_buffer header_index (to_byte t) in
    let! buf := splice buf plaintext_start_index plaintext_end_index plaintext in
    (* lines 641-645 *)
    let! content := slice buf header_index plaintext_end_index in
    let! (ct, tag, pc) := fp_encrypt (packet_cipher c) (aad_or_default aad) content in
    let! buf := splice buf header_index plaintext_end_index ct in
    (* lines 648-650 *)
    let! content_len := slice (le_bytes 4 (as_u32 plaintext_length)) 0 NUM_LENGTH_BYTES in
    let! (content_len, lc) := fc_crypt (length_cipher c) content_len in
    (* lines 653-655 *)
    let! buf := splice buf 0 NUM_LENGTH_BYTES content_len in
    let! buf := splice buf plaintext_end_index (plaintext_end_index + NUM_TAG_BYTES) tag in
    Ret (Ok tt, Cipher lc pc, buf).

(** [OutboundCipher::encrypt_to_vec], lib.rs:674-688; [expect] panics on [Err]. *)
Definition encrypt_to_vec (c : cipher) (plaintext : bytes) (t : packet_type) (aad : option bytes)
  : run (bytes * cipher) :=
  let packet_len := encryption_buffer_len (len plaintext) in
  let! (r, c', buf) := encrypt c plaintext (zeros packet_len) t aad in
  match r with
  | Ok _ => Ret (buf, c')
  | Err _ => Panic
  end.

(** ** Key material *)

(** [SessionKeyMaterial], lib.rs:295-304. *)
Record key_material := KeyMaterial {
  session_id : bytes;
  initiator_length_key : bytes;
  initiator_packet_key : bytes;
  responder_length_key : bytes;
  responder_packet_key : bytes;
  initiator_garbage_terminator : bytes;
  responder_garbage_terminator : bytes
}.

(** An ASCII literal such as ["session_id".as_bytes()].  lib.rs:331, 341-356. *)
Definition ascii (s : string) : bytes := list_byte_of_string s.

(** [hk.expand(info, &mut [0u8; 32])?] of lib.rs:340-361. *)
Definition expand32 {A} (prk : bytes) (info : string) (k : bytes -> run (result error A))
  : run (result error A) :=
  match hkdf_expand prk (ascii info) 32 with
  | Some okm => k okm
  | None => Ret (Err (SecretGeneration Expansion))
  end.

(** [SessionKeyMaterial::from_ecdh], lib.rs:324-373. *)
Definition from_ecdh (a b secret : bytes) (p : party) (magic : bytes)
  : run (result error key_material) :=
  let data := ascii "bip324_ellswift_xonly_ecdh" in
  let ecdh_sk := ecdh_xonly a b secret p data in
  let ikm_salt := ascii "bitcoin_v2_shared_secret" in
  let! salt := splice (zeros 28) 0 24 ikm_salt in
  let! salt := splice salt 24 28 magic in
  let hk := hkdf_extract salt ecdh_sk in
  expand32 hk "session_id" (fun session_id =>
  expand32 hk "initiator_L" (fun initiator_length_key =>
  expand32 hk "initiator_P" (fun initiator_packet_key =>
  expand32 hk "responder_L" (fun responder_length_key =>
  expand32 hk "responder_P" (fun responder_packet_key =>
  expand32 hk "garbage_terminators" (fun garbage =>
  let! first := slice garbage 0 16 in
  let! last := slice garbage 16 32 in
  Ret (Ok (KeyMaterial session_id initiator_length_key initiator_packet_key
             responder_length_key responder_packet_key first last)))))))).

(** ** Session *)

(** [CipherSession], lib.rs:693-700. *)
Record cipher_session := CipherSession { id : bytes; inbound : cipher; outbound : cipher }.

(** [CipherSession::new], lib.rs:703-744. *)
Definition session_new (m : key_material) (r : role) : cipher_session :=
  match r with
  | Initiator =>
    CipherSession (session_id m)
      (Cipher (fc_new (responder_length_key m)) (fp_new (responder_packet_key m)))
      (Cipher (fc_new (initiator_length_key m)) (fp_new (initiator_packet_key m)))
  | Responder =>
    CipherSession (session_id m)
      (Cipher (fc_new (initiator_length_key m)) (fp_new (initiator_packet_key m)))
      (Cipher (fc_new (responder_length_key m)) (fp_new (responder_packet_key m)))
  end.

(** [CipherSession::into_split], lib.rs:762-764. *)
Definition into_split (s : cipher_session) : cipher * cipher := (inbound s, outbound s).

End WithEnv.
