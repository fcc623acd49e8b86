(** * SpecV1Peer: what a peer that speaks V1 sends *)
From Coq Require Import List NArith.
From Verif Require Import Base.
Import ListNotations.
Local Open Scope N_scope.

(** A message of the V1 protocol: twelve bytes of command, four of checksum and the payload.  Not code of the repo, which
    only looks at the magic, handshake.rs:234-241. *)
Record v1_message := V1Message { v1_command : bytes; v1_checksum : bytes; v1_payload : bytes }.

(** The sizes of the fields; as above. *)
Definition v1_sized (m : v1_message) : Prop :=
  len (v1_command m) = 12 /\ len (v1_checksum m) = 4 /\ len (v1_payload m) < 2 ^ 32.

(** Its bytes: magic, command, length of the payload, checksum and payload; as above. *)
Definition v1_bytes (magic : bytes) (m : v1_message) : bytes :=
  magic ++ v1_command m ++ le_bytes 4 (len (v1_payload m)) ++ v1_checksum m ++ v1_payload m.

(** The bytes of all the messages a peer sends; as above. *)
Definition v1_stream (magic : bytes) (ms : list v1_message) : bytes := concat (map (v1_bytes magic) ms).
