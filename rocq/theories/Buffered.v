(** * Buffered: the crate over any implementation of [Read] or [AsyncRead], and [BufReader]

    Elsewhere a reader is a script.  Here it is any state that answers requests; scripts and [BufReader]s over scripts are two of
    them.  The documentation of the crate asks for a [BufReader] (lib.rs:24, 62, 89-98; io.rs:11, 432; futures.rs:11, 268). *)
From Coq Require Import List NArith Bool.
From Coq.Strings Require Import Byte.
From Verif Require Import Base Env FsChacha Cipher Handshake Transport Io SpecIo HsSteps Futures Sessions.
Import ListNotations.
Local Open Scope N_scope.

(** ** [BufReader] *)

(** std's and tokio's [BufReader]: the bytes of its buffer not yet read, the reader inside, and how many calls of [read] that
    one got (for the statements only).  A user of the crate passes it as [R], as in protocol/examples/bufreader.rs:181. *)
Record buf_reader := BufReader { br_capacity : N; br_buffer : bytes; br_inner : script; br_calls : N }.

(** [BufReader::with_capacity]; [BufReader::new] has a capacity of 8192. *)
Definition buf_new (capacity : N) (s : script) : buf_reader := BufReader capacity [] s 0.

(** One call of [read] (a poll of it) for [n] bytes: with an empty buffer a request of at least the capacity goes through to the
    reader inside, any other one fills the buffer first.  [None]: not ready.  The [R] of io.rs:349-403. *)
Definition buf_read (b : buf_reader) (n : N) : option read_result * buf_reader :=
  match br_buffer b with
  | [] =>
    if br_capacity b <=? n then
      let '(r, s) := poll_script (br_inner b) n in (r, BufReader (br_capacity b) [] s (br_calls b + 1))
    else
      match poll_script (br_inner b) (br_capacity b) with
      | (Some (Data bs), s) => (Some (Data (take n bs)), BufReader (br_capacity b) (drop n bs) s (br_calls b + 1))
      | (r, s) => (r, BufReader (br_capacity b) [] s (br_calls b + 1))
      end
  | buffer => (Some (Data (take n buffer)), BufReader (br_capacity b) (drop n buffer) (br_inner b) (br_calls b))
  end.

(** ** The crate over any reader *)

(** A script that gives one answer.  No counterpart in the repo: it feeds one answer to [hs_step]. *)
Definition answer_script (r : read_result) : script := match r with Data bs => [Chunk bs] | ReadErr k => [Fail k] end.

Section WithReader.
Context {E : Env}.
Variables (St : Type) (rd : St -> N -> option read_result * St).

(** How many bytes the operation at this place asks the transport for; [None]: it does not read, or the leftover answers.
    io.rs:349, 361, 377, 395, 403. *)
Definition request (p : place) : option N :=
  match p with
  | ReadingKey got _ => Some (NUM_ELLIGATOR_SWIFT_BYTES - len got)
  | ReadingTerminator got _ => Some (NUM_GARBAGE_TERMINTOR_BYTES - len got)
  | ReadingGarbage _ _ => Some 256
  | HsSteps.ReadingLength sr got _ => match session_leftover sr with [] => Some (NUM_LENGTH_BYTES - len got) | _ => None end
  | ReadingPacket sr packet_len got _ => match session_leftover sr with [] => Some (packet_len - len got) | _ => None end
  | _ => None
  end.

(** One operation of the handshake, [hs_step], over any reader; one that is not ready leaves it where it is.
    io.rs:341-414, futures.rs:175-248. *)
Definition any_step (fl : flavor) (decoys : option (list bytes)) (p : place) (st : St) (w : writer) : run (place * St * writer) :=
  match request p with
  | None => let! (p, _, w) := hs_step fl decoys p [] w in Ret (p, st, w)
  | Some n =>
    match rd st n with
    | (None, st) => Ret (p, st, w)
    | (Some r, st) => let! (p, _, w) := hs_step fl decoys p (answer_script r) w in Ret (p, st, w)
    end
  end.

(** io.rs:341-414, futures.rs:175-248: a number of operations. *)
Fixpoint any_steps (n : nat) (fl : flavor) (decoys : option (list bytes)) (p : place) (st : St) (w : writer)
  : run (place * St * writer) :=
  match n with
  | O => Ret (p, st, w)
  | S n => let! (p, st, w) := any_step fl decoys p st w in any_steps n fl decoys p st w
  end.

(** A poll of a read of the session reader, which is kept without its transport: the leftover first, io.rs:65-85, futures.rs:97-121. *)
Definition any_session_read (sr : session) (st : St) (n : N) : option read_result * session * St :=
  match session_leftover sr with
  | [] =>
    match rd st n with
    | (None, st) => (None, sr, st)
    | (Some r, st) => let '(r, sr) := session_read (set_inner sr (answer_script r)) n in (Some r, set_inner sr [], st)
    end
  | _ => let '(r, sr) := session_read sr n in (Some r, sr, st)
  end.

(** [read_exact] around it; a blocking reader that is not ready is waited for.  Called in io.rs:528, 533. *)
Fixpoint any_read_exact (fuel : nat) (fl : flavor) (sr : session) (st : St) (n : N)
  : run (result io_kind bytes * session * St) :=
  match fuel with
  | O => NoFuel
  | S fuel =>
    if n =? 0 then Ret (Ok [], sr, st) else
    match any_session_read sr st n with
    | (None, sr, st) => any_read_exact fuel fl sr st n
    | (Some (Data []), sr, st) => Ret (Err UnexpectedEof, sr, st)
    | (Some (Data bs), sr, st) =>
      let! (x, sr, st) := any_read_exact fuel fl sr st (n - len bs) in
      Ret (match x with Ok more => Ok (bs ++ more) | Err k => Err k end, sr, st)
    | (Some (ReadErr k), sr, st) =>
      if retries fl k then any_read_exact fuel fl sr st n else Ret (Err k, sr, st)
    end
  end.

(** [ProtocolReader::read], io.rs:525-537. *)
Definition any_sync_read (fuel : nat) (c : cipher) (sr : session) (st : St)
  : run (result perror payload * cipher * session * St * option N) :=
  let! (x, sr, st) := any_read_exact fuel Sync sr st NUM_LENGTH_BYTES in
  match x with
  | Err k => Ret (Err (from_io k), c, sr, st, None)
  | Ok length_bytes =>
    let! (packet_len, c) := decrypt_packet_len c length_bytes in
    let! (x, sr, st) := any_read_exact fuel Sync sr st packet_len in
    match x with
    | Err k => Ret (Err (from_io k), c, sr, st, Some packet_len)
    | Ok packet_bytes =>
      let! (x, c) := decrypt_to_vec c packet_bytes None in
      match x with
      | Err e => Ret (Err (Internal e), c, sr, st, Some packet_len)
      | Ok (_, plaintext_buffer) =>
        let! p := payload_decrypted plaintext_buffer in
        Ret (Ok p, c, sr, st, Some packet_len)
      end
    end
  end.

(** One poll of one of the loops of the asynchronous [read], [fill] in Futures.v.  futures.rs:408-418, 427-437. *)
Fixpoint any_fill (fuel : nat) (sr : session) (st : St) (buf : bytes) (bytes_read : N)
  : run (fill_result * session * St * bytes * N) :=
  match fuel with
  | O => NoFuel
  | S fuel =>
    if bytes_read <? len buf then
      match any_session_read sr st (len buf - bytes_read) with
      | (None, sr, st) => Ret (Waiting, sr, st, buf, bytes_read)
      | (Some (ReadErr k), sr, st) => Ret (FillErr (from_io k), sr, st, buf, bytes_read)
      | (Some (Data []), sr, st) => Ret (FillErr (from_io ConnectionAborted), sr, st, buf, bytes_read)
      | (Some (Data bs), sr, st) =>
        let! buf := splice buf bytes_read (bytes_read + len bs) bs in
        any_fill fuel sr st buf (bytes_read + len bs)
      end
    else Ret (Filled, sr, st, buf, bytes_read)
  end.

(** The two arms, futures.rs:404-445; the reader of [tokio_reader] is kept without its transport. *)
Definition any_payload (fuel : nat) (c : cipher) (sr : session) (st : St) (packet_bytes : bytes) (bytes_read : N)
  : run (poll (result perror payload) * tokio_reader * St * read_future) :=
  let! (x, sr, st, packet_bytes, bytes_read) := any_fill fuel sr st packet_bytes bytes_read in
  let state := ReadingPayload packet_bytes bytes_read in
  match x with
  | Waiting => Ret (NotReady, TReader c sr state, st, AtPayload)
  | FillErr e => Ret (Ready (Err e), TReader c sr state, st, FreshFuture)
  | Filled =>
    let! plaintext_len := decryption_buffer_len (len packet_bytes) in
    let! (r, c, plaintext_buffer) := decrypt c packet_bytes (zeros plaintext_len) None in
    match r with
    | Err e => Ret (Ready (Err (Internal e)), TReader c sr state, st, FreshFuture)
    | Ok _ =>
      let! p := payload_decrypted plaintext_buffer in
      Ret (Ready (Ok p), TReader c sr init_reading_length, st, FreshFuture)
    end
  end.

(** The [ReadingLength] arm, futures.rs:404-422. *)
Definition any_length (fuel : nat) (c : cipher) (sr : session) (st : St) (length_bytes : bytes) (bytes_read : N)
  : run (poll (result perror payload) * tokio_reader * St * read_future) :=
  let! (x, sr, st, length_bytes, bytes_read) := any_fill fuel sr st length_bytes bytes_read in
  let state := Futures.ReadingLength length_bytes bytes_read in
  match x with
  | Waiting => Ret (NotReady, TReader c sr state, st, AtLength)
  | FillErr e => Ret (Ready (Err e), TReader c sr state, st, FreshFuture)
  | Filled =>
    let! (packet_bytes_len, c) := decrypt_packet_len c length_bytes in
    any_payload fuel c sr st (zeros packet_bytes_len) 0
  end.

(** One poll of [read], futures.rs:400-448. *)
Definition any_poll_read (fuel : nat) (f : read_future) (r : tokio_reader) (st : St)
  : run (poll (result perror payload) * tokio_reader * St * read_future) :=
  match f, tr_state r with
  | (FreshFuture | AtLength), Futures.ReadingLength lb n => any_length fuel (tr_cipher r) (tr_reader r) st lb n
  | (FreshFuture | AtPayload), ReadingPayload pb n => any_payload fuel (tr_cipher r) (tr_reader r) st pb n
  | _, _ => Panic
  end.

(** A schedule of polls and cancellations.  futures.rs:400-448, as the application drives it. *)
Fixpoint any_schedule (fuel : nat) (acts : list action) (f : read_future) (r : tokio_reader) (st : St)
  : run (list (result perror payload) * tokio_reader * St * read_future) :=
  match acts with
  | [] => Ret ([], r, st, f)
  | DoCancel :: acts => any_schedule fuel acts FreshFuture r st
  | DoPoll :: acts =>
    let! (x, r, st, f) := any_poll_read fuel f r st in
    let! (xs, r, st, f) := any_schedule fuel acts f r st in
    Ret (match x with Ready a => a :: xs | NotReady => xs end, r, st, f)
  end.

End WithReader.
