(** * Env: the primitives the crate imports, as parameters.

    chacha20-poly1305, secp256k1 and bitcoin_hashes are dependencies whose
    source is not part of /repo; theorems quantify over every [Env] satisfying
    [EnvLaws].  Rfc.v provides a concrete one. *)
From Coq Require Import List NArith Bool.
From Coq.Strings Require Import Byte.
From Verif Require Import Base.
Import ListNotations.
Local Open Scope N_scope.

(** [ElligatorSwiftParty] of secp256k1, used at protocol/src/handshake.rs:244-257. *)
Inductive party := PartyA | PartyB.

Class Env := {
  (** Build profile: arithmetic overflow panics (true) or wraps (false). *)
  overflow_checks : bool;
  (** Build profile: [debug_assert!] is compiled in. *)
  debug_assertions : bool;
  (** [keystream key nonce off n]: [n] bytes of the ChaCha20 key stream starting at
      byte [off] (block counter starting at 0). Used through [ChaCha20::{new,seek,apply_keystream}],
      protocol/src/fschacha20poly1305.rs:164-171, and inside the AEAD. *)
  keystream : bytes -> bytes -> N -> N -> bytes;
  (** [mac key nonce aad ct]: the RFC 8439 AEAD tag: Poly1305, keyed with the first
      32 key stream bytes, over aad and ciphertext with padding and lengths. *)
  mac : bytes -> bytes -> bytes -> bytes -> bytes;
  (** [SecretKey::from_slice] accepts these 32 bytes (handshake.rs:131). *)
  sk_valid : bytes -> bool;
  (** 64-byte ElligatorSwift encoding of the public key of a secret key
      ([ElligatorSwift::from_pubkey], handshake.rs:133). One of the many
      encodings of the point; which one is up to the primitive. *)
  ellswift_of : bytes -> bytes;
  (** [ElligatorSwift::shared_secret(a, b, secret, party, Some(data))] (lib.rs:331-332):
      initiator's encoding, responder's encoding, own secret, party, data. *)
  ecdh_xonly : bytes -> bytes -> bytes -> party -> bytes -> bytes;
  (** HKDF-SHA256 extract and expand (lib.rs:339-361); [hkdf_expand prk info n]
      is [None] when [n] exceeds the maximum output size. *)
  hkdf_extract : bytes -> bytes -> bytes;
  hkdf_expand : bytes -> bytes -> N -> option bytes
}.

(** What is assumed of the primitives: sizes only. *)
Class EnvLaws (E : Env) := {
  keystream_len : forall k n off c, len (keystream k n off c) = c;
  mac_len : forall k n aad ct, len (mac k n aad ct) = 16;
  ellswift_len : forall sk, len (ellswift_of sk) = 64;
  hkdf_expand_32 : forall prk info, exists okm,
      hkdf_expand prk info 32 = Some okm /\ len okm = 32
}.

(** The agreement property of the x-only ECDH, a hypothesis of the theorems
    that talk about two honest parties. *)
Definition EcdhAgrees (E : Env) : Prop :=
  forall ska skb, sk_valid ska = true -> sk_valid skb = true ->
    forall data,
    ecdh_xonly (ellswift_of ska) (ellswift_of skb) ska PartyA data =
    ecdh_xonly (ellswift_of ska) (ellswift_of skb) skb PartyB data.

(** The key stream does not depend on how it is asked for: a longer request
    extends a shorter one.  Used only where stated. *)
Definition KeystreamStable (E : Env) : Prop :=
  forall k n off c c', c <= c' -> take c (keystream k n off c') = keystream k n off c.
