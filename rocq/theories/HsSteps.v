(** * HsSteps: the handshake, one operation on the transport at a time

    Io.v runs the handshake to its end in one go.  Here it stops at every [write], [flush] and [read] call, which is
    where a blocking thread can block and an async task can be suspended. *)
From Coq Require Import List NArith Bool.
From Coq.Strings Require Import Byte.
From Verif Require Import Base Env FsChacha Cipher Handshake Transport Io.
Import ListNotations.
Local Open Scope N_scope.

(** One [write] call inside of [write_all(rest)].  std and tokio, called in io.rs:344, 356, futures.rs:178, 190. *)
Inductive wrote_once := AllWritten | MoreToWrite (rest : bytes) | WriteFailed (k : io_kind).

(** std's [write_all] and [read_exact] retry on [Interrupted], tokio's do not.  Called in io.rs:344-403, futures.rs:178-237. *)
Definition retries (fl : flavor) (k : io_kind) : bool := match fl with Sync => is_interrupted k | Tokio => false end.

(** One call of [write] inside of [write_all], called in io.rs:344, 356, futures.rs:178, 190. *)
Definition write_once (fl : flavor) (w : writer) (rest : bytes) : wrote_once * writer :=
  match w_script w with
  | [] => (AllWritten, Writer [] (flushes w) (written w ++ rest))
  | WPending :: s => (MoreToWrite rest, Writer s (flushes w) (written w))
  | WFail k :: s =>
    (if retries fl k then MoreToWrite rest else WriteFailed k, Writer s (flushes w) (written w))
  | Accept n :: s =>
    if n =? 0 then (WriteFailed WriteZero, Writer s (flushes w) (written w)) else
    if len rest <=? n then (AllWritten, Writer s (flushes w) (written w ++ rest))
    else (MoreToWrite (drop n rest), Writer s (flushes w) (written w ++ take n rest))
  end.

(** The transport of a session reader, taken out and put back.  [ProtocolSessionReader], io.rs:65-87, futures.rs:76-95. *)
Definition inner (sr : session) : script :=
  match sr with ChainReader _ _ s => s | TokioReader _ _ s => s end.
(** [ProtocolSessionReader], io.rs:65-87, futures.rs:76-95. *)
Definition set_inner (sr : session) (s : script) : session :=
  match sr with ChainReader c d _ => ChainReader c d s | TokioReader l p _ => TokioReader l p s end.

Section WithEnv.
Context {E : Env}.

(** Where [handshake_with_initialized] stands (io.rs:320-415; futures.rs:175-249): inside of [write_all] (344, 356) with
    this much left, before [flush] (345, 357), inside of [read_exact] with these bytes so far (349, 361, 395, 403), before
    [read] (377), or at its end.  A session reader is kept without its transport. *)
Inductive place :=
| SendingKey (rest : bytes) (h : handshake sent_key)
| FlushingKey (h : handshake sent_key)
| ReadingKey (got : bytes) (h : handshake sent_key)
| SendingVersion (rest : bytes) (h : handshake sent_version)
| FlushingVersion (h : handshake sent_version)
| ReadingTerminator (got : bytes) (h : handshake sent_version)
| ReadingGarbage (garbage_buffer : bytes) (h : handshake sent_version)
| ReadingLength (sr : session) (got : bytes) (h : handshake received_garbage)
| ReadingPacket (sr : session) (packet_len : N) (got : bytes) (h : handshake received_garbage)
| Over (x : result perror (cipher * cipher * session)).

(** [?] of io.rs:341-413. *)
Definition failed (e : perror) : run place := Ret (Over (Err e)).

(** 341-343. *)
Definition begin (h : handshake initialized) (garbage : option bytes) : run place :=
  let! (x, key_buffer) := send_key h garbage (zeros (send_key_len garbage)) in
  match x with
  | Err e => failed (Internal e)
  | Ok h => Ret (SendingKey key_buffer h)
  end.

(** 350-355. *)
Definition key_read (decoys : option (list bytes)) (h : handshake sent_key) (remote_ellswift : bytes) : run place :=
  let! x := receive_key h remote_ellswift in
  match x with Err e => failed (Internal e) | Ok h =>
  let! (x, version_buffer) := send_version h (zeros (send_version_len decoys)) decoys in
  match x with Err e => failed (Internal e) | Ok h => Ret (SendingVersion version_buffer h) end end.

(** 364-387, up to the next read; 390-392. *)
Definition scan_garbage (fl : flavor) (h : handshake sent_version) (garbage_buffer : bytes) : run place :=
  let! x := receive_garbage h garbage_buffer in
  match x with
  | Ok (FoundGarbage h consumed) =>
    let! leftover := slice garbage_buffer consumed (len garbage_buffer) in
    Ret (ReadingLength (session_reader fl leftover []) [] h)
  | Ok (NeedMoreData h) => Ret (ReadingGarbage garbage_buffer h)
  | Err e => failed (Internal e)
  end.

(** 404-413. *)
Definition packet_read (sr : session) (h : handshake received_garbage) (packet_bytes : bytes) : run place :=
  let! (x, _) := receive_version h packet_bytes in
  match x with
  | Ok (Complete c) => let '(i, o) := into_split c in Ret (Over (Ok (i, o, sr)))
  | Ok (DecoyPacket h) => Ret (ReadingLength sr [] h)
  | Err e => failed (Internal e)
  end.

(** 396-402. *)
Definition length_read (sr : session) (h : handshake received_garbage) (length_bytes : bytes) : run place :=
  let! (packet_len, h) := hs_decrypt_packet_len h length_bytes in
  if MAX_PACKET_SIZE_FOR_ALLOCATION <? packet_len then failed (Internal PacketTooBig) else
  if packet_len =? 0 then packet_read sr h [] else Ret (ReadingPacket sr packet_len [] h).

(** A [read] call inside of [read_exact] for [n] bytes.  io.rs:349, 361, 395, 403. *)
Definition reading (fl : flavor) (n : N) (got : bytes) (r : read_result) (again : bytes -> place) (done : bytes -> run place)
  : run place :=
  match r with
  | Data [] => failed (from_io UnexpectedEof)
  | Data bs => let got := got ++ bs in if n <=? len got then done got else Ret (again got)
  | ReadErr k => if retries fl k then Ret (again got) else failed (from_io k)
  end.

(** One operation.  io.rs:341-414, futures.rs:175-248. *)
Definition hs_step (fl : flavor) (decoys : option (list bytes)) (p : place) (s : script) (w : writer)
  : run (place * script * writer) :=
  match p with
  | SendingKey rest h =>
    let '(x, w) := write_once fl w rest in
    Ret (match x with
         | AllWritten => FlushingKey h
         | MoreToWrite rest => SendingKey rest h
         | WriteFailed k => Over (Err (from_io k))
         end, s, w)
  | FlushingKey h =>
    let '(x, w) := flush w in
    Ret (match x with Ok _ => ReadingKey [] h | Err k => Over (Err (from_io k)) end, s, w)
  | ReadingKey got h =>
    let '(r, s) := read s (NUM_ELLIGATOR_SWIFT_BYTES - len got) in
    let! p := reading fl NUM_ELLIGATOR_SWIFT_BYTES got r (fun got => ReadingKey got h) (key_read decoys h) in
    Ret (p, s, w)
  | SendingVersion rest h =>
    let '(x, w) := write_once fl w rest in
    Ret (match x with
         | AllWritten => FlushingVersion h
         | MoreToWrite rest => SendingVersion rest h
         | WriteFailed k => Over (Err (from_io k))
         end, s, w)
  | FlushingVersion h =>
    let '(x, w) := flush w in
    Ret (match x with Ok _ => ReadingTerminator [] h | Err k => Over (Err (from_io k)) end, s, w)
  | ReadingTerminator got h =>
    let '(r, s) := read s (NUM_GARBAGE_TERMINTOR_BYTES - len got) in
    let! p := reading fl NUM_GARBAGE_TERMINTOR_BYTES got r (fun got => ReadingTerminator got h) (scan_garbage fl h) in
    Ret (p, s, w)
  | ReadingGarbage garbage_buffer h =>
    let '(r, s) := read s 256 in
    let! p := match r with
              | Data [] => failed eof
              | Data bs => scan_garbage fl h (garbage_buffer ++ bs)
              | ReadErr k => failed (from_io k)
              end in
    Ret (p, s, w)
  | ReadingLength sr got h =>
    let '(r, sr) := session_read (set_inner sr s) (NUM_LENGTH_BYTES - len got) in
    let sr0 := set_inner sr [] in
    let! p := reading fl NUM_LENGTH_BYTES got r (fun got => ReadingLength sr0 got h) (length_read sr0 h) in
    Ret (p, inner sr, w)
  | ReadingPacket sr packet_len got h =>
    let '(r, sr) := session_read (set_inner sr s) (packet_len - len got) in
    let sr0 := set_inner sr [] in
    let! p := reading fl packet_len got r (fun got => ReadingPacket sr0 packet_len got h) (packet_read sr0 h) in
    Ret (p, inner sr, w)
  | Over x => Ret (p, s, w)
  end.

(** [handshake], io.rs:280-294; futures.rs:151-173, up to the first operation. *)
Definition hs_begin (magic : bytes) (r : role) (rnd : bytes) (garbage : option bytes) : run place :=
  let! x := hs_new magic r rnd in
  match x with Err e => failed (Internal e) | Ok h => begin h garbage end.

(** io.rs:341-414, futures.rs:175-248: a number of operations. *)
Fixpoint hs_steps (n : nat) (fl : flavor) (decoys : option (list bytes)) (p : place) (s : script) (w : writer)
  : run (place * script * writer) :=
  match n with
  | O => Ret (p, s, w)
  | S n => let! (p, s, w) := hs_step fl decoys p s w in hs_steps n fl decoys p s w
  end.

End WithEnv.
