(** * Sessions: sequences of reads and writes (vocabulary of the property statements) *)
From Coq Require Import List NArith Bool.
From Coq.Strings Require Import Byte.
From Verif Require Import Base Env FsChacha Cipher Histories Handshake SpecHandshake HsDriver
  Transport Io SpecIo Futures.
Import ListNotations.
Local Open Scope N_scope.

(** A reader of either kind.  io.rs:509-512, futures.rs:381-385. *)
Inductive any_reader := RSync (r : sync_reader) | RTokio (r : tokio_reader).

(** What a reader still delivers.  No counterpart in the repo: for statements. *)
Definition reader_stream (r : any_reader) : bytes * ending :=
  match r with
  | RSync r => session_stream Sync (sr_reader r)
  | RTokio r => session_stream Tokio (tr_reader r)
  end.

(** The payload for a packet type and contents.  [Payload::genuine], [Payload::decoy], io.rs:109-128. *)
Definition payload_of (p : packet_type * bytes) : payload :=
  match p with
  | (Genuine, contents) => genuine contents
  | (Decoy, contents) => decoy contents
  end.

(** The same as a message of the packet layer: no associated data after the handshake.
    No counterpart in the repo: for statements. *)
Definition as_msg (p : packet_type * bytes) : msg := Msg (fst p) None (snd p).

(** Contents a reader of this kind accepts.  lib.rs:170 and io.rs:525-537; futures.rs:400-448. *)
Definition readable (fl : flavor) (p : packet_type * bytes) : Prop :=
  match fl with
  | Sync => len (snd p) + 1 <= 4000014
  | Tokio => len (snd p) < 2 ^ 24
  end.

(** A writer without scripted failures.  No counterpart in the repo: for statements. *)
Definition healthy (w : writer) : Prop :=
  Forall (fun ev => match ev with Accept n => n <> 0 | WFail _ => False | WPending => True end) (w_script w) /\
  Forall (fun f => match f with FlushFail _ => False | FlushOk | FlushPending => True end) (flushes w).

(** How many polls a writer can hold up at most.  No counterpart in the repo: for statements. *)
Definition hold_ups (w : writer) : nat := length (w_script w) + length (flushes w).

(** A writer that is never interrupted.  No counterpart in the repo: for statements. *)
Definition uninterrupted (w : writer) : Prop := Forall (fun ev => ev <> WFail Interrupted) (w_script w).

(** No counterpart in the repo: for statements. *)
Definition run_map {A B} (f : A -> B) (m : run A) : run B := let! a := m in Ret (f a).

(** The error with which the end of a stream is reported.  io.rs:185-203. *)
Definition end_error (e : ending) : perror := from_io (end_kind e).

(** The kind with which [read] reports the end of the stream: tokio's [read] returns 0 at a close,
    which the loops turn into [ConnectionAborted]. *)
Definition tokio_end (e : ending) : io_kind :=
  match e with Closed => ConnectionAborted | Broken k => k end.

Section WithEnv.
Context {E : Env}.

(** ** Handshakes *)

(** Replace the session reader by what it delivers.  No counterpart in the repo: for statements. *)
Definition stream_view (fl : flavor) (x : result perror (cipher * cipher * session))
  : result perror (cipher * cipher * (bytes * ending)) :=
  match x with
  | Ok (i, o, sr) => Ok (i, o, session_stream fl sr)
  | Err e => Err e
  end.

(** What a caller sees of a handshake; the session reader through what it delivers.  No counterpart in the repo: for statements. *)
Definition hs_view (fl : flavor) (o : hs_outcome)
  : result perror (cipher * cipher * (bytes * ending)) * writer * list N :=
  (stream_view fl (ho_result o), ho_writer o, ho_allocs o).

(** Packets the handshake accepts.  io.rs:397. *)
Definition fits (p : packet_type * bytes) : Prop := len (snd p) + 17 <= MAX_PACKET_SIZE_FOR_ALLOCATION.

(** Associated data of the first [n] packets.  handshake.rs:565-581. *)
Definition first_aads (g : option bytes) (n : nat) : list (option bytes) :=
  match n with O => [] | S n => g :: repeat None n end.

(** The remote's stream [c] completes the handshake whose state after sending the version is [h']:
    [rest] follows the version packet.  No counterpart in the repo: for statements, about io.rs:364-414. *)
Definition completes (h' : handshake sent_version) (c : bytes) (ic : cipher) (rest : bytes) : Prop :=
  exists garbage packets ds x,
    c = garbage ++ remote_garbage_terminator (hs_state h') ++ packets ++ rest /\
    len garbage <= 4095 /\
    first_at (remote_garbage_terminator (hs_state h')) c (len garbage) /\
    recv_all (inbound (sv_cipher (hs_state h')))
      (some_nonempty garbage :: repeat None (length ds)) packets =
      Ret (Some (ds ++ [(Genuine, x)]), ic, []) /\
    Forall is_decoy_packet ds /\ Forall fits (ds ++ [(Genuine, x)]).

(** ** Reads and writes *)

(** The stream ends inside the packet that begins it.  No counterpart in the repo: for statements, about io.rs:525-537. *)
Definition cut_short (c : cipher) (wire : bytes) : Prop :=
  len wire < 3 \/
  exists n c1, decrypt_packet_len c (take 3 wire) = Ret (n, c1) /\ len (drop 3 wire) < n.


(** The reader made from the result of a handshake, as [Protocol::new] does.  io.rs:464-473, futures.rs:300-310. *)
Definition established (fl : flavor) (c : cipher) (sr : session) : any_reader :=
  match fl with
  | Sync => RSync (SyncReader c sr)
  | Tokio => RTokio (TReader c sr init_reading_length)
  end.

(** [Protocol::new(..)] then [into_split()], for either driver.  io.rs:453-479, futures.rs:289-316. *)
Definition connect (fl : flavor) (magic : bytes) (r : role) (rnd : bytes) (garbage : option bytes)
    (decoys : option (list bytes)) (s : script) (w : writer) : run (result perror (any_reader * pwriter)) :=
  match fl with
  | Sync =>
    let! x := protocol_new magic r rnd garbage decoys s w in
    Ret match x with
        | Ok p => let '(rd, wr) := protocol_split p in Ok (RSync rd, wr)
        | Err e => Err e
        end
  | Tokio =>
    let! x := tokio_protocol_new magic r rnd garbage decoys s w in
    Ret match x with
        | Ok p => Ok (RTokio (t_reader p), t_writer p)
        | Err e => Err e
        end
  end.

(** [ProtocolReader::read], io.rs:525-537, futures.rs:400-448. *)
Definition read_any (r : any_reader) : run (result perror payload * any_reader) :=
  match r with
  | RSync r => let! (x, r, _) := sync_read r in Ret (x, RSync r)
  | RTokio r => let! (x, r) := tokio_read r in Ret (x, RTokio r)
  end.

(** [ProtocolWriter::write], io.rs:566-573, futures.rs:477-491. *)
Definition write_any (fl : flavor) (p : pwriter) (pl : payload) : run (result perror unit * pwriter) :=
  match fl with Sync => sync_write p pl | Tokio => tokio_write p pl end.

(** No counterpart in the repo: so many calls of [read]. *)
Fixpoint read_many (n : nat) (r : any_reader) : run (list (result perror payload) * any_reader) :=
  match n with
  | O => Ret ([], r)
  | S n =>
    let! (x, r) := read_any r in
    let! (xs, r) := read_many n r in
    Ret (x :: xs, r)
  end.

(** No counterpart in the repo: a call of [write] for each payload. *)
Fixpoint write_many (fl : flavor) (p : pwriter) (pls : list payload)
  : run (list (result perror unit) * pwriter) :=
  match pls with
  | [] => Ret ([], p)
  | pl :: pls =>
    let! (x, p) := write_any fl p pl in
    let! (xs, p) := write_many fl p pls in
    Ret (x :: xs, p)
  end.

(** What the caller sees of a payload.  io.rs:151-164. *)
Definition payload_view (p : payload) : run (packet_type * bytes) :=
  let! t := payload_type p in
  let! contents := payload_contents p in
  Ret (t, contents).

(** ** Polls and cancellations *)

(** What the application does with its read future: poll it, or drop it.  No counterpart in the repo: the application. *)
Inductive action := DoPoll | DoCancel.

(** Polls and cancellations; the results of the completed calls in order.
    No counterpart in the repo: the application, over futures.rs:400-448. *)
Fixpoint run_schedule (acts : list action) (f : read_future) (r : tokio_reader)
  : run (list (result perror payload) * tokio_reader * read_future) :=
  match acts with
  | [] => Ret ([], r, f)
  | DoCancel :: acts' => run_schedule acts' FreshFuture r
  | DoPoll :: acts' =>
    let! (x, r, f) := poll_read f r in
    let! (xs, r', f') := run_schedule acts' f r in
    Ret (match x with Ready a => a :: xs | NotReady => xs end, r', f')
  end.

(** The payloads among the results.  No counterpart in the repo: for statements. *)
Definition payloads_of (xs : list (result perror payload)) : list payload :=
  flat_map (fun x => match x with Ok p => [p] | Err _ => [] end) xs.

(** What [recv_all] gives for a payload: type and contents.  io.rs:140-164. *)
Definition seen (p : payload) : packet_type * bytes :=
  match p with
  | Decrypted (hd :: contents) => (from_byte hd, contents)
  | Decrypted [] => (Genuine, [])
  | Parts hd contents => (from_byte hd, contents)
  end.

(** No counterpart in the repo: how many polls there are in a schedule. *)
Definition polls (acts : list action) : nat :=
  length (filter (fun a => match a with DoPoll => true | DoCancel => false end) acts).

(** Start a write, poll it, and drop it after a number of polls that were not ready.
    No counterpart in the repo: the application, over futures.rs:477-491. *)
Fixpoint polls_write (n : nat) (f : write_future) (p : pwriter) : option (result perror unit) * pwriter :=
  match n with
  | O => (None, p)
  | S n =>
    let '(x, p', f') := poll_write f p in
    match x with
    | Ready a => (Some a, p')
    | NotReady => polls_write n f' p'
    end
  end.

End WithEnv.
