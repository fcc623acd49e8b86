(** * FuzzTargets: model of fuzz/fuzz_targets/receive_key.rs and receive_garbage.rs *)
From Coq Require Import List NArith Bool.
From Coq.Strings Require Import Byte.
From Verif Require Import Base Env FsChacha Cipher Handshake.
Import ListNotations.
Local Open Scope N_scope.

(** [MAGIC], receive_key.rs:12, receive_garbage.rs:10. *)
Definition FUZZ_MAGIC : bytes := [xf9; xbe; xb4; xd9].

(** [Result::unwrap].  receive_key.rs:29-31, receive_garbage.rs:27-58. *)
Definition unwrap {A} (x : result error A) : run A :=
  match x with Ok a => Ret a | Err _ => Panic end.

Section WithEnv.
Context {E : Env}.

(** receive_key.rs:27-31 and receive_garbage.rs:25-35: a handshake in the state [SentKey], and the bytes it sends.
    [rnd]: what the seeded RNG fills in. *)
Definition fuzz_sent_key (r : role) (rnd : bytes) : run (handshake sent_key * bytes) :=
  let! x := hs_new FUZZ_MAGIC r rnd in
  let! h := unwrap x in
  let! (x, key) := send_key h None (zeros (send_key_len None)) in
  let! h := unwrap x in
  Ret (h, key).

(** receive_key.rs:14-54; [None]: data of another size (17-19); otherwise what [receive_key] returned. *)
Definition fuzz_receive_key (rnd data : bytes) : run (option (result error (handshake received_key))) :=
  if negb (len data =? 64) then Ret None else
  let! (h, _) := fuzz_sent_key Initiator rnd in
  let! x := receive_key h data in
  Ret (Some x).

(** receive_garbage.rs:37-49, 54-58: the other side's key, then the version packet. *)
Definition fuzz_sent_version (h : handshake sent_key) (their_key : bytes) : run (handshake sent_version * bytes) :=
  let! key := slice their_key 0 64 in
  let! x := receive_key h key in
  let! h := unwrap x in
  let! (x, version) := send_version h (zeros (send_version_len None)) None in
  let! h := unwrap x in
  Ret (h, version).

(** receive_garbage.rs:12-66; [None]: too much data (16-18); otherwise what [receive_garbage] returned. *)
Definition fuzz_receive_garbage (rnd rnd2 data : bytes) : run (option (result error garbage_result)) :=
  if 5000 <? len data then Ret None else
  let! (initiator, initiator_key) := fuzz_sent_key Initiator rnd in
  let! (responder, responder_key) := fuzz_sent_key Responder rnd2 in
  let! (_, responder_version) := fuzz_sent_version responder initiator_key in
  let! responder_terminator := slice responder_version 0 16 in
  let! (initiator, _) := fuzz_sent_version initiator responder_key in
  let! x := receive_garbage initiator (data ++ responder_terminator) in
  Ret (Some x).

End WithEnv.
