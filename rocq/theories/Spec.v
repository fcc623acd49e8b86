(** * Spec: BIP-324 packet encryption, written from the BIP and independent of the model.

    Only the primitives of [Env] are used.  The "index" of a packet is the
    number of packets sent before it in the same direction. *)
From Coq Require Import List NArith Bool.
From Coq.Strings Require Import Byte.
From Verif Require Import Base Env.
Import ListNotations.
Local Open Scope N_scope.

Section WithEnv.
Context {E : Env}.

(** RFC 8439 AEAD_CHACHA20_POLY1305: ciphertext followed by tag. *)
Definition rfc_aead (key nonce aad plaintext : bytes) : bytes :=
  let ct := xor_with (keystream key nonce 64 (len plaintext)) plaintext in
  ct ++ mac key nonce aad ct.

(** ** FSChaCha20Poly1305 (packet contents) *)

(** "nonce = LE32(packet_counter mod 224) || LE64(packet_counter / 224)" *)
Definition bip_packet_nonce (n : N) : bytes := le_bytes 4 (n mod 224) ++ le_bytes 8 (n / 224).

(** "rekey nonce = 0xFFFFFFFF || nonce[4:]" for re-key epoch [e]. *)
Definition bip_rekey_nonce (e : N) : bytes := [xff; xff; xff; xff] ++ le_bytes 8 e.

(** Key of epoch [e]: first 32 bytes of encrypting 32 zero bytes with empty aad. *)
Fixpoint bip_packet_key (k : bytes) (e : nat) : bytes :=
  match e with
  | O => k
  | S e' => take 32 (rfc_aead (bip_packet_key k e') (bip_rekey_nonce (N.of_nat e')) [] (zeros 32))
  end.

(** ** FSChaCha20 (length prefix) *)

(** "nonce = LE32(0) || LE64(chunk_counter / 224)" *)
Definition bip_length_nonce (e : N) : bytes := le_bytes 4 0 ++ le_bytes 8 e.

(** Key of epoch [e]: 32 key stream bytes after the 224 three-byte chunks. *)
Fixpoint bip_length_key (k : bytes) (e : nat) : bytes :=
  match e with
  | O => k
  | S e' => keystream (bip_length_key k e') (bip_length_nonce (N.of_nat e')) (224 * 3) 32
  end.

Definition bip_length_prefix (kL : bytes) (n : N) (contents_len : N) : bytes :=
  let e := n / 224 in
  xor_with (keystream (bip_length_key kL (N.to_nat e)) (bip_length_nonce e) (3 * (n mod 224)) 3)
           (le_bytes 3 contents_len).

(** ** Packets *)

(** Header byte: bit 7 is the ignore (decoy) flag. *)
Definition bip_header (decoy : bool) : byte := if decoy then x80 else x00.

(** Body (header, contents, tag) of the packet with index [n]. *)
Definition bip_body (kP : bytes) (n : N) (decoy : bool) (aad contents : bytes) : bytes :=
  rfc_aead (bip_packet_key kP (N.to_nat (n / 224))) (bip_packet_nonce n) aad
           (bip_header decoy :: contents).

Definition bip_packet (kL kP : bytes) (n : N) (decoy : bool) (aad contents : bytes) : bytes :=
  bip_length_prefix kL n (len contents) ++ bip_body kP n decoy aad contents.

(** The packets of a whole direction, starting at index [n]. *)
Fixpoint bip_stream (kL kP : bytes) (n : N) (ps : list (bool * bytes * bytes)) : list bytes :=
  match ps with
  | [] => []
  | (decoy, aad, contents) :: ps' =>
      bip_packet kL kP n decoy aad contents :: bip_stream kL kP (n + 1) ps'
  end.

End WithEnv.
