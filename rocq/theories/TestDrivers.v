(** * TestDrivers: how the project's own tests and benches drive the library without its I/O layer

    protocol/tests/round_trips.rs [hello_world_happy_path] and [regtest_handshake] (up to the first message), and
    protocol/benches/cipher_session.rs.  A failed [unwrap], a failed assertion and [panic!] are all [Panic].  The tests that
    use [Protocol] or [ShapedProtocol] are sessions of Io.v and Futures.v and are not repeated here. *)
From Coq Require Import List NArith Bool.
From Coq.Strings Require Import Byte.
From Verif Require Import Base Env FsChacha Cipher Handshake FuzzTargets.
Import ListNotations.
Local Open Scope N_scope.

Section WithEnv.
Context {E : Env}.

(** round_trips.rs:15-27, 339-345; cipher_session.rs:15-25: a new handshake, its key in a buffer of [send_key_len(None)].
    [rnd]: the bytes of the random secret key. *)
Definition test_start (magic : bytes) (r : role) (rnd : bytes) : run (handshake sent_key * bytes) :=
  let! x := hs_new magic r rnd in
  let! h := unwrap x in
  let! (x, key) := send_key h None (zeros (send_key_len None)) in
  let! h := unwrap x in
  Ret (h, key).

(** round_trips.rs:29-49, 355-364; cipher_session.rs:27-47: the first 64 bytes of the peer, then the version packet in a buffer
    of [send_version_len(None)]. *)
Definition test_key (h : handshake sent_key) (their_key : bytes) : run (handshake sent_version * bytes) :=
  let! key := slice their_key 0 64 in
  let! x := receive_key h key in
  let! h := unwrap x in
  let! (x, version) := send_version h (zeros (send_version_len None)) None in
  let! h := unwrap x in
  Ret (h, version).

(** round_trips.rs:51-72 and 74-95; cipher_session.rs:49-72 and 74-97: the garbage and exactly one packet. *)
Definition test_finish (h : handshake sent_version) (buffer : bytes) : run cipher_session :=
  let! x := receive_garbage h buffer in
  let! g := unwrap x in
  match g with
  | NeedMoreData _ => Panic
  | FoundGarbage h consumed =>
    let! remaining := slice buffer consumed (len buffer) in
    let! prefix := slice remaining 0 NUM_LENGTH_BYTES in
    let! (packet_len, h) := hs_decrypt_packet_len h prefix in
    let! packet := slice remaining NUM_LENGTH_BYTES (NUM_LENGTH_BYTES + packet_len) in
    let! (x, _) := receive_version h packet in
    let! v := unwrap x in
    match v with
    | Complete c => Ret c
    | DecoyPacket _ => Panic
    end
  end.

(** [create_cipher_session_pair], cipher_session.rs:14-100; the first part of [hello_world_happy_path], round_trips.rs:15-95. *)
Definition session_pair (magic rnd_a rnd_b : bytes) : run (cipher_session * cipher_session) :=
  let! (a, key_a) := test_start magic Initiator rnd_a in
  let! (b, key_b) := test_start magic Responder rnd_b in
  let! (a, version_a) := test_key a key_b in
  let! (b, version_b) := test_key b key_a in
  let! alice := test_finish a version_b in
  let! bob := test_finish b version_a in
  Ret (alice, bob).

(** One message, round_trips.rs:98-125 and 127-154 ([whole]: everything behind the length is decrypted) and
    cipher_session.rs:108-134, 147-173 (only as much as the length says).  Returns the message without its header byte. *)
Definition exchange (whole : bool) (from to : cipher) (message : bytes) : run (bytes * cipher * cipher) :=
  let! (x, from, packet) := encrypt from message (zeros (encryption_buffer_len (len message))) Genuine None in
  let! _ := unwrap x in
  let! prefix := slice packet 0 NUM_LENGTH_BYTES in
  let! (message_len, to) := decrypt_packet_len to prefix in
  let! size := decryption_buffer_len message_len in
  let! body := slice packet NUM_LENGTH_BYTES (if whole then len packet else NUM_LENGTH_BYTES + message_len) in
  let! (x, to, decrypted) := decrypt to body (zeros size) None in
  let! _ := unwrap x in
  let! contents := slice decrypted 1 (len decrypted) in
  Ret (contents, from, to).

(** [hello_world_happy_path], round_trips.rs:9-155, with any two messages: first from Bob to Alice, then back. *)
Definition hello_world (magic rnd_a rnd_b hello goodbye : bytes) : run unit :=
  let! (alice, bob) := session_pair magic rnd_a rnd_b in
  let! (got, _, _) := exchange true (outbound bob) (inbound alice) hello in
  if negb (bytes_eqb hello got) then Panic else
  let! (got, _, _) := exchange true (outbound alice) (inbound bob) goodbye in
  if negb (bytes_eqb goodbye got) then Panic else
  Ret tt.

(** [b.iter], cipher_session.rs:107-138 and 146-177: the same again and again; here with any messages, Alice to Bob. *)
Fixpoint bench_iter (from to : cipher) (messages : list bytes) : run (list bytes) :=
  match messages with
  | [] => Ret []
  | m :: messages =>
    let! (got, from, to) := exchange false from to m in
    let! rest := bench_iter from to messages in
    Ret (got :: rest)
  end.

(** The loop of [regtest_handshake], round_trips.rs:388-418. *)
Fixpoint client_versions (fuel : nat) (h : handshake received_garbage) (remaining : bytes) : run cipher_session :=
  match fuel with
  | O => NoFuel
  | S fuel =>
    if len remaining <? NUM_LENGTH_BYTES then Panic else
    let! prefix := slice remaining 0 NUM_LENGTH_BYTES in
    let! (packet_len, h) := hs_decrypt_packet_len h prefix in
    if len remaining <? NUM_LENGTH_BYTES + packet_len then Panic else
    let! packet := slice remaining NUM_LENGTH_BYTES (NUM_LENGTH_BYTES + packet_len) in
    let! (x, _) := receive_version h packet in
    let! v := unwrap x in
    match v with
    | Complete c => Ret c
    | DecoyPacket h => client_versions fuel h (drop (NUM_LENGTH_BYTES + packet_len) remaining)
    end
  end.

(** [regtest_handshake], round_trips.rs:368-418, behind the peer's key: one [read] into 4096 bytes gave [response]. *)
Definition client_finish (h : handshake sent_version) (response : bytes) : run cipher_session :=
  let! x := receive_garbage h response in
  let! g := unwrap x in
  match g with
  | NeedMoreData _ => Panic
  | FoundGarbage h consumed => client_versions (S (length response)) h (drop consumed response)
  end.

End WithEnv.
