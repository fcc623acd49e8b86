(** * SpecHandshake: BIP-324 handshake, written from the BIP and independent of the model. *)
From Coq Require Import List NArith Bool String.
From Coq.Strings Require Import Byte.
From Verif Require Import Base Env Spec.
Import ListNotations.
Local Open Scope N_scope.

(** ** Searching *)

(** [t] occurs in [l] at offset [i]. *)
Definition occurs_at (t l : bytes) (i : N) : Prop :=
  i + len t <= len l /\ take (len t) (drop i l) = t.

(** The first occurrence. *)
Definition first_at (t l : bytes) (i : N) : Prop :=
  occurs_at t l i /\ forall j, j < i -> ~ occurs_at t l j.

Section WithEnv.
Context {E : Env}.

(** ** Key derivation *)

(** HKDF-Extract with salt "bitcoin_v2_shared_secret" || magic. *)
Definition bip_prk (magic secret : bytes) : bytes :=
  hkdf_extract (list_byte_of_string "bitcoin_v2_shared_secret" ++ magic) secret.

(** [k] is the 32-byte expansion under the label. *)
Definition bip_derived (prk : bytes) (label : string) (k : bytes) : Prop :=
  hkdf_expand prk (list_byte_of_string label) 32 = Some k.

(** The shared secret of the initiator's and the responder's encodings. *)
Definition bip_secret (ei er sk : bytes) (p : party) : bytes :=
  ecdh_xonly ei er sk p (list_byte_of_string "bip324_ellswift_xonly_ecdh").

(** ** What a party sends *)

(** Public key, then garbage. *)
Definition bip_first_flight (sk : bytes) (garbage : bytes) : bytes := ellswift_of sk ++ garbage.

(** Decoys and version packet: only the first one carries the garbage as associated data. *)
Definition bip_version_packets (garbage : bytes) (decoys : list bytes) : list (bool * bytes * bytes) :=
  match map (fun d => (true, [], d)) decoys ++ [(false, [], [])] with
  | [] => []
  | (f, _, c) :: ps => (f, garbage, c) :: ps
  end.

(** Garbage terminator, decoys, version packet. *)
Definition bip_second_flight (terminator kL kP garbage : bytes) (decoys : list bytes) : bytes :=
  terminator ++ List.concat (bip_stream kL kP 0 (bip_version_packets garbage decoys)).

End WithEnv.
