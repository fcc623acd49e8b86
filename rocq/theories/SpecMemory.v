(** * SpecMemory: the bytes an endpoint keeps because of its peer *)
From Coq Require Import List NArith Bool.
From Coq.Strings Require Import Byte.
From Verif Require Import Base Env FsChacha Cipher Handshake Transport Io HsSteps Futures.
Import ListNotations.
Local Open Scope N_scope.

(** The leftover of a session reader: the tokio one keeps the whole vector.  So does the blocking one, whose model keeps the unread rest;
    its size when the reader is built is the size of the vector. *)
Definition kept (sr : session) : N :=
  match sr with ChainReader cur _ _ => len cur | TokioReader l _ _ => len l end.

(** The buffer of the asynchronous reader. *)
Definition in_state (s : decrypt_state) : N :=
  match s with Futures.ReadingLength b _ => len b | ReadingPayload b _ => len b end.

Section WithEnv.
Context {E : Env}.

(** The garbage kept as associated data. *)
Definition kept_garbage (h : handshake received_garbage) : N :=
  match remote_garbage (hs_state h) with Some g => len g | None => 0 end.

(** Buffers for what the peer sends, with the size they are allocated with: 64 bytes for its key, 16 for the terminator, the garbage
    buffer, three for a length, the size of the packet. *)
Definition buffered (p : place) : N :=
  match p with
  | ReadingKey _ _ => 64
  | ReadingTerminator _ _ => 16
  | ReadingGarbage garbage_buffer _ => len garbage_buffer
  | HsSteps.ReadingLength sr _ h => kept sr + kept_garbage h + 3
  | ReadingPacket sr packet_len _ h => kept sr + kept_garbage h + packet_len
  | Over (Ok (_, _, sr)) => kept sr
  | _ => 0
  end.

End WithEnv.
