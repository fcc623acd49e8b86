(** * Errors: what the errors print, and what they say they come from

    The errors of other crates (secp256k1, hkdf, chacha20_poly1305, std::io) print what they like: [Foreign]. *)
From Coq Require Import String List NArith.
From Coq Require Import DecimalString.
From Verif Require Import Base Cipher Transport Io.
Local Open Scope string_scope.

(** [Display] and derived [Debug] of the errors of other crates.  Printed in lib.rs:198-258, io.rs:227-253. *)
Record foreign := Foreign {
  secp_text : string; secp_debug : string;
  hkdf_text : string; hkdf_debug : string;
  aead_text : string; aead_debug : string }.

(** [usize] printed by [write!].  lib.rs:207-210. *)
Definition decimal (n : N) : string := NilEmpty.string_of_uint (N.to_uint n).

(** Derived [Debug] of [SecretGenerationError], lib.rs:252-258. *)
Definition debug_secret (f : foreign) (e : secret_error) : string :=
  match e with
  | MaterialsGeneration => "MaterialsGeneration(" ++ secp_debug f ++ ")"
  | Expansion => "Expansion(" ++ hkdf_debug f ++ ")"
  end.

(** [Display] of [SecretGenerationError], lib.rs:260-269. *)
Definition show_secret (f : foreign) (e : secret_error) : string :=
  match e with
  | MaterialsGeneration => "Cannot generate materials: " ++ secp_text f ++ "."
  | Expansion => "Cannot expand key: " ++ hkdf_text f ++ "."
  end.

(** Derived [Debug] and [Display] of the cipher's [Error], fschacha20poly1305.rs:29-32, 34-40. *)
Definition debug_cipher (f : foreign) : string := "Decryption(" ++ aead_debug f ++ ")".
(** [Display] of [fschacha20poly1305::Error], fschacha20poly1305.rs:34-40. *)
Definition show_cipher (f : foreign) : string := "Unable to dycrypt: " ++ aead_text f ++ ".".

(** [Display] of [Error], lib.rs:198-227. *)
Definition show_error (f : foreign) (e : error) : string :=
  match e with
  | CiphertextTooSmall => "Ciphertext does not contain enough information, should be further extended."
  | BufferTooSmall required_bytes => "Buffer memory allocation too small, need at least " ++ decimal required_bytes ++ " bytes."
  | PacketTooBig => "Packet size exceeds maximum 4MiB size for automatic allocation."
  | NoGarbageTerminator => "More than 4095 bytes of garbage received in the handshake before a terminator was sent."
  | SecretGeneration e => "Cannot generate secrets: " ++ debug_secret f e ++ "."
  | Decryption => "Decryption error: " ++ debug_cipher f ++ "."
  | V1Protocol => "The remote peer is communicating on the V1 protocol."
  | TooMuchGarbage => "Tried to send more than 4095 bytes of garbage in handshake."
  end.

(** [Display] of [ProtocolError], io.rs:236-253.  [io]: what the [std::io::Error] inside prints. *)
Definition show_protocol (f : foreign) (io : string) (p : perror) : string :=
  match p with
  | Io _ s =>
    "IO error: " ++ io ++ ". Suggestion: " ++
    match s with RetryV1 => "Retry with V1 protocol" | Abort => "Abort, do not retry" end ++ "."
  | Internal e => "Internal error: " ++ show_error f e ++ "."
  end.

(** Everything that can stand in a chain of sources.  [source] of lib.rs, io.rs and fschacha20poly1305.rs ranges over these. *)
Inductive any_error :=
| AnyProtocol (p : perror) | AnyError (e : error) | AnySecret (e : secret_error) | AnyCipher
| AnyIo (k : io_kind) | AnySecp | AnyHkdf | AnyAead.

(** [source]: io.rs:227-234, lib.rs:230-243, lib.rs:272-279, fschacha20poly1305.rs:43-49.  Those of other crates have none here. *)
Definition source (e : any_error) : option any_error :=
  match e with
  | AnyProtocol (Io k _) => Some (AnyIo k)
  | AnyProtocol (Internal e) => Some (AnyError e)
  | AnyError (SecretGeneration e) => Some (AnySecret e)
  | AnyError Decryption => Some AnyCipher
  | AnyError _ => None
  | AnySecret MaterialsGeneration => Some AnySecp
  | AnySecret Expansion => Some AnyHkdf
  | AnyCipher => Some AnyAead
  | AnyIo _ | AnySecp | AnyHkdf | AnyAead => None
  end.

(** Following [source] at most [n] times.  No counterpart in the repo: what a caller of [source] does. *)
Fixpoint sources (n : nat) (e : any_error) : list any_error :=
  match n with
  | O => nil
  | S n => match source e with Some e' => cons e' (sources n e') | None => nil end
  end.

(** [Display] of everything in a chain.  lib.rs:198-270, io.rs:227-253. *)
Definition show_any (f : foreign) (io : string) (e : any_error) : string :=
  match e with
  | AnyProtocol p => show_protocol f io p
  | AnyError e => show_error f e
  | AnySecret e => show_secret f e
  | AnyCipher => show_cipher f
  | AnyIo _ => io
  | AnySecp => secp_text f
  | AnyHkdf => hkdf_text f
  | AnyAead => aead_text f
  end.
