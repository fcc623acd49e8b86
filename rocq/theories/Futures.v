(** * Futures: model of the established tokio session, protocol/src/futures.rs

    (The tokio handshake is in Io.v.)  Futures are modelled by what one poll does. *)
From Coq Require Import List NArith Bool.
From Coq.Strings Require Import Byte.
From Verif Require Import Base Env FsChacha Cipher Handshake Transport Io.
Import ListNotations.
Local Open Scope N_scope.

(** One poll of [reader.read(buf)]: [None] is [Poll::Pending].  [poll_read], called in futures.rs:97-120. *)
Definition poll_script (s : script) (n : N) : option read_result * script :=
  match s with
  | Pending :: s' => (None, s')
  | _ => let '(r, s') := read s n in (Some r, s')
  end.

(** One poll of [session_reader.read(buf)], futures.rs:97-121: the leftover is always ready. *)
Definition poll_session (sr : session) (n : N) : option read_result * session :=
  match sr with
  | TokioReader l pos s =>
    if pos <? len l then
      let remaining := drop pos l in
      let to_copy := N.min (len remaining) n in
      (Some (Data (take to_copy remaining)), TokioReader l (pos + to_copy) s)
    else let '(r, s') := poll_script s n in (r, TokioReader l pos s')
  | ChainReader cur d s =>
    (* not used by futures.rs *)
    let '(r, sr') := session_read sr n in (Some r, sr')
  end.

(** [DecryptState], futures.rs:351-360. *)
Inductive decrypt_state :=
| ReadingLength (length_bytes : bytes) (bytes_read : N)
| ReadingPayload (packet_bytes : bytes) (bytes_read : N).

(** [init_reading_length], 364-369. *)
Definition init_reading_length : decrypt_state := ReadingLength (zeros NUM_LENGTH_BYTES) 0.

(** [ProtocolReader], futures.rs:381-385. *)
Record tokio_reader := TReader { tr_cipher : cipher; tr_reader : session; tr_state : decrypt_state }.

(** How a poll of one of the [while] loops ends.  futures.rs:408-418, 427-437. *)
Inductive fill_result := Filled | Waiting | FillErr (e : perror).

(** How a poll of a future ends.  Of futures.rs:400-448, 477-490. *)
Inductive poll (A : Type) := Ready (a : A) | NotReady.
Arguments Ready {A} a.
Arguments NotReady {A}.

(** A suspended [read()] future stands at the [.await] of one of the two loops.  futures.rs:409, 428. *)
Inductive read_future := FreshFuture | AtLength | AtPayload.

Section WithEnv.
Context {E : Env}.

(** One poll of [while *bytes_read < buf.len() { let len = reader.read(&mut buf[*bytes_read..]).await?;
    if len == 0 { return Err(..) } *bytes_read += len; }], futures.rs:408-417 and 426-435.
    [Filled]: the loop ended.  Returns reader, buffer and [bytes_read]. *)
Fixpoint fill (fuel : nat) (sr : session) (buf : bytes) (bytes_read : N)
  : run (fill_result * session * bytes * N) :=
  match fuel with
  | O => NoFuel
  | S fuel =>
    if bytes_read <? len buf then
      match poll_session sr (len buf - bytes_read) with
      | (None, sr') => Ret (Waiting, sr', buf, bytes_read)
      | (Some (ReadErr k), sr') => Ret (FillErr (from_io k), sr', buf, bytes_read)
      | (Some (Data []), sr') => Ret (FillErr (from_io ConnectionAborted), sr', buf, bytes_read)
      | (Some (Data bs), sr') =>
        let! buf' := splice buf bytes_read (bytes_read + len bs) bs in
        fill fuel sr' buf' (bytes_read + len bs)
      end
    else Ret (Filled, sr, buf, bytes_read)
  end.

(** Enough turns: each one fills the buffer, or uses up the leftover or one event.
    A bound for the loops of futures.rs:408-418, 427-437. *)
Definition fill_fuel (sr : session) : nat :=
  match sr with ChainReader _ _ s | TokioReader _ _ s => S (S (S (length s))) end.

(** The [ReadingPayload] arm, 423-445. *)
Definition phase_payload (c : cipher) (sr : session) (packet_bytes : bytes) (bytes_read : N)
  : run (poll (result perror payload) * tokio_reader * read_future) :=
  let! (x, sr, packet_bytes, bytes_read) := fill (fill_fuel sr) sr packet_bytes bytes_read in
  let st := ReadingPayload packet_bytes bytes_read in
  match x with
  | Waiting => Ret (NotReady, TReader c sr st, AtPayload)
  | FillErr e => Ret (Ready (Err e), TReader c sr st, FreshFuture)
  | Filled =>
    let! plaintext_len := decryption_buffer_len (len packet_bytes) in
    let! (r, c, plaintext_buffer) := decrypt c packet_bytes (zeros plaintext_len) None in
    match r with
    | Err e => Ret (Ready (Err (Internal e)), TReader c sr st, FreshFuture)
    | Ok _ =>
      let! p := payload_decrypted plaintext_buffer in
      Ret (Ready (Ok p), TReader c sr init_reading_length, FreshFuture)
    end
  end.

(** The [ReadingLength] arm, 404-421 (with [init_reading_payload], 372-377), and the next turn of the outer loop. *)
Definition phase_length (c : cipher) (sr : session) (length_bytes : bytes) (bytes_read : N)
  : run (poll (result perror payload) * tokio_reader * read_future) :=
  let! (x, sr, length_bytes, bytes_read) := fill (fill_fuel sr) sr length_bytes bytes_read in
  let st := ReadingLength length_bytes bytes_read in
  match x with
  | Waiting => Ret (NotReady, TReader c sr st, AtLength)
  | FillErr e => Ret (Ready (Err e), TReader c sr st, FreshFuture)
  | Filled =>
    let! (packet_bytes_len, c) := decrypt_packet_len c length_bytes in
    phase_payload c sr (zeros packet_bytes_len) 0
  end.

(** One poll of [ProtocolReader::read], futures.rs:400-448.  A fresh future starts at the head of the
    loop and looks at [self.state]; a suspended one continues where it stands, in the arm it
    borrowed.  Returns the future as well ([FreshFuture]: completed, the next poll is a new call). *)
Definition poll_read (f : read_future) (r : tokio_reader)
  : run (poll (result perror payload) * tokio_reader * read_future) :=
  match f, tr_state r with
  | (FreshFuture | AtLength), ReadingLength lb n => phase_length (tr_cipher r) (tr_reader r) lb n
  | (FreshFuture | AtPayload), ReadingPayload pb n => phase_payload (tr_cipher r) (tr_reader r) pb n
  | AtLength, ReadingPayload _ _ | AtPayload, ReadingLength _ _ => Panic (* excluded: [future_fits] *)
  end.

(** [r.read().await]: poll until ready.  Every poll that is not ready uses up an event.  futures.rs:400-448. *)
Fixpoint await_read (fuel : nat) (f : read_future) (r : tokio_reader)
  : run (result perror payload * tokio_reader) :=
  match fuel with
  | O => NoFuel
  | S fuel =>
    let! (x, r, f) := poll_read f r in
    match x with
    | Ready a => Ret (a, r)
    | NotReady => await_read fuel f r
    end
  end.

(** A bound for [await_read]: the events the transport of futures.rs:76-95 still has. *)
Definition session_events (sr : session) : nat :=
  match sr with ChainReader _ _ s | TokioReader _ _ s => length s end.

(** [ProtocolReader::read], futures.rs:400-448, awaited. *)
Definition tokio_read (r : tokio_reader) : run (result perror payload * tokio_reader) :=
  await_read (S (session_events (tr_reader r))) FreshFuture r.

(** [ProtocolReader::into_inner], 451-453: the state is dropped. *)
Definition tokio_reader_into_inner (r : tokio_reader) : cipher * session := (tr_cipher r, tr_reader r).

(** ** Writing *)

(** A suspended [write()] future owns the encrypted packet: what is left of it, or only the flush.  futures.rs:488, 489. *)
Inductive write_future := Writing (rest : bytes) | Flushing.

(** One poll of [write_all(rest)] then [flush()], futures.rs:488-489. *)
Fixpoint poll_write_script (s : list wev) (rest : bytes) : poll (result io_kind unit) * list wev * bytes * bytes :=
  match rest with
  | [] => (Ready (Ok tt), s, [], [])
  | _ :: _ =>
    match s with
    | [] => (Ready (Ok tt), [], rest, [])
    | WPending :: s' => (NotReady, s', [], rest)
    | WFail k :: s' => (Ready (Err k), s', [], rest)
    | Accept n :: s' =>
      if n =? 0 then (Ready (Err WriteZero), s', [], rest) else
      if len rest <=? n then (Ready (Ok tt), s', rest, []) else
      let '(x, s'', out, rest') := poll_write_script s' (drop n rest) in (x, s'', take n rest ++ out, rest')
    end
  end.

(** [ProtocolWriter::write], futures.rs:477-491, first poll: encrypts before anything is written. *)
Definition start_write (p : pwriter) (pl : payload)
  : run (result error write_future * pwriter) :=
  let! contents := payload_contents pl in
  let! t := payload_type pl in
  let packet_len := encryption_buffer_len (len contents) in
  let! (x, c, packet_buffer) := encrypt (pw_cipher p) contents (zeros packet_len) t None in
  match x with
  | Err e => Ret (Err e, PWriter c (pw_writer p))
  | Ok _ => Ret (Ok (Writing packet_buffer), PWriter c (pw_writer p))
  end.

(** A poll of the rest.  futures.rs:488-489. *)
Definition poll_write (f : write_future) (p : pwriter) : poll (result perror unit) * pwriter * write_future :=
  let w := pw_writer p in
  let finish w :=
    match flushes w with
    | FlushPending :: f => (NotReady, PWriter (pw_cipher p) (Writer (w_script w) f (written w)), Flushing)
    | _ =>
      let '(x, w') := flush w in
      (Ready (match x with Ok _ => Ok tt | Err k => Err (from_io k) end), PWriter (pw_cipher p) w', Flushing)
    end in
  match f with
  | Flushing => finish w
  | Writing rest =>
    let '(x, s, out, rest') := poll_write_script (w_script w) rest in
    let w' := Writer s (flushes w) (written w ++ out) in
    match x with
    | NotReady => (NotReady, PWriter (pw_cipher p) w', Writing rest')
    | Ready (Err k) => (Ready (Err (from_io k)), PWriter (pw_cipher p) w', Writing rest')
    | Ready (Ok _) => finish w'
    end
  end.

(** ** Session *)

(** [Protocol], futures.rs:252-256. *)
Record tokio_protocol := TokioProtocol { t_reader : tokio_reader; t_writer : pwriter }.

(** [Protocol::new], futures.rs:289-311. *)
Definition tokio_protocol_new (magic : bytes) (r : role) (rnd : bytes) (garbage : option bytes)
    (decoys : option (list bytes)) (s : script) (w : writer) : run (result perror tokio_protocol) :=
  let! o := io_handshake Tokio magic r rnd garbage decoys s w in
  match ho_result o with
  | Err e => Ret (Err e)
  | Ok (i, o', sr) =>
    Ret (Ok (TokioProtocol (TReader i sr init_reading_length) (PWriter o' (ho_writer o))))
  end.

(** One poll of [Protocol::read], futures.rs:327-329. *)
Definition protocol_poll_read (f : read_future) (p : tokio_protocol)
  : run (poll (result perror payload) * tokio_protocol * read_future) :=
  let! (x, r, f) := poll_read f (t_reader p) in Ret (x, TokioProtocol r (t_writer p), f).

(** [Protocol::write], futures.rs:342-344: a poll of a suspended one, and the first poll. *)
Definition protocol_poll_write (f : write_future) (p : tokio_protocol)
  : poll (result perror unit) * tokio_protocol * write_future :=
  let '(x, w, f) := poll_write f (t_writer p) in (x, TokioProtocol (t_reader p) w, f).
(** [Protocol::write], futures.rs:342-344: its first poll. *)
Definition protocol_start_write (p : tokio_protocol) (pl : payload)
  : run (poll (result perror unit) * tokio_protocol * write_future) :=
  let! (x, w) := start_write (t_writer p) pl in
  let p := TokioProtocol (t_reader p) w in
  match x with
  | Err e => Ret (Ready (Err (Internal e)), p, Flushing)
  | Ok f => Ret (protocol_poll_write f p)
  end.

(** [Protocol::into_split], 314-316. *)
Definition tokio_protocol_split (p : tokio_protocol) : tokio_reader * pwriter := (t_reader p, t_writer p).

End WithEnv.
