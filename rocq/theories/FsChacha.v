(** * FsChacha: model of protocol/src/fschacha20poly1305.rs *)
From Coq Require Import List NArith Bool.
From Coq.Strings Require Import Byte.
From Verif Require Import Base Env.
Import ListNotations.
Local Open Scope N_scope.

(** fschacha20poly1305.rs:22 *)
Definition LENGTH_BYTES : N := 3.
(** fschacha20poly1305.rs:24 *)
Definition REKEY_INTERVAL : N := 224.
(** fschacha20poly1305.rs:26 *)
Definition REKEY_INITIAL_NONCE : bytes := [xff; xff; xff; xff].

Section WithEnv.
Context {E : Env}.

(** [ChaCha20Poly1305::encrypt] (crate chacha20-poly1305, called at
    fschacha20poly1305.rs:91 and 111): ciphertext in place, and the tag. *)
Definition aead_encrypt (key nonce aad content : bytes) : bytes * bytes :=
  let ct := xor_with (keystream key nonce 64 (len content)) content in
  (ct, mac key nonce aad ct).

(** [ChaCha20Poly1305::decrypt] (called at fschacha20poly1305.rs:128-130): compares the
    tag first and leaves the content alone on mismatch. *)
Definition aead_decrypt (key nonce aad content tag : bytes) : option bytes :=
  if bytes_eqb tag (mac key nonce aad content)
  then Some (xor_with (keystream key nonce 64 (len content)) content)
  else None.

(** [FSChaCha20Poly1305], fschacha20poly1305.rs:56-59. *)
Record fspoly := FsPoly { fp_key : bytes; fp_ctr : N }.

(** [FSChaCha20Poly1305::new], 62-67. *)
Definition fp_new (key : bytes) : fspoly := FsPoly key 0.

(** [FSChaCha20Poly1305::nonce], 70-80. *)
Definition fp_nonce (s : fspoly) : bytes :=
  le_bytes 4 (as_u32 (fp_ctr s mod REKEY_INTERVAL)) ++ le_bytes 8 (fp_ctr s / REKEY_INTERVAL).

(** [FSChaCha20Poly1305::rekey], 83-96. *)
Definition fp_rekey (s : fspoly) (aad : bytes) : run fspoly :=
  let! next := add_w overflow_checks 64 (fp_ctr s) 1 in
  let key' :=
    if next mod REKEY_INTERVAL =? 0 then
      fst (aead_encrypt (fp_key s) (REKEY_INITIAL_NONCE ++ drop 4 (fp_nonce s)) aad (zeros 32))
    else fp_key s in
  let! ctr' := add_w overflow_checks 64 (fp_ctr s) 1 in
  Ret (FsPoly key' ctr').

(** [FSChaCha20Poly1305::encrypt], 108-116: new content, tag, new state. *)
Definition fp_encrypt (s : fspoly) (aad content : bytes) : run (bytes * bytes * fspoly) :=
  let '(ct, tag) := aead_encrypt (fp_key s) (fp_nonce s) aad content in
  let! s' := fp_rekey s aad in
  Ret (ct, tag, s').

(** [FSChaCha20Poly1305::decrypt], 125-135: [None] is [Err(Error::Decryption(_))];
    returned with the content and state left behind. *)
Definition fp_decrypt (s : fspoly) (aad content tag : bytes)
  : run (option bytes * fspoly) :=
  match aead_decrypt (fp_key s) (fp_nonce s) aad content tag with
  | None => Ret (None, s)
  | Some pt => let! s' := fp_rekey s aad in Ret (Some pt, s')
  end.

(** [FSChaCha20], fschacha20poly1305.rs:144-148. *)
Record fschacha := FsChaCha { fc_key : bytes; fc_block : N; fc_chunk : N }.

(** [FSChaCha20::new], 151-157. *)
Definition fc_new (key : bytes) : fschacha := FsChaCha key 0 0.

(** The nonce built at 161-163. *)
Definition fc_nonce (s : fschacha) : bytes :=
  zeros 4 ++ le_bytes 4 (fc_chunk s / REKEY_INTERVAL) ++ zeros 4.

(** [FSChaCha20::crypt], 160-176. *)
Definition fc_crypt (s : fschacha) (chunk : bytes) : run (bytes * fschacha) :=
  let nonce := fc_nonce s in
  let out := xor_with (keystream (fc_key s) nonce (fc_block s) (len chunk)) chunk in
  let! block' := add_w overflow_checks 32 (fc_block s) LENGTH_BYTES in
  let! next := add_w overflow_checks 32 (fc_chunk s) 1 in
  let '(key', block'') :=
    if next mod REKEY_INTERVAL =? 0
    then (xor_with (keystream (fc_key s) nonce block' 32) (zeros 32), 0)
    else (fc_key s, block') in
  let! chunk' := add_w overflow_checks 32 (fc_chunk s) 1 in
  Ret (out, FsChaCha key' block'' chunk').

End WithEnv.
