(** * Io: model of protocol/src/io.rs, and of the handshake of protocol/src/futures.rs

    [handshake] and [write] are the same text in both files, up to [.await] and to the std or tokio
    functions called: one model with a [flavor]. *)
From Coq Require Import List NArith Bool.
From Coq.Strings Require Import Byte.
From Verif Require Import Base Env FsChacha Cipher Handshake Transport.
Import ListNotations.
Local Open Scope N_scope.

(** ** Errors *)

(** [ProtocolFailureSuggestion], io.rs:178-183. *)
Inductive suggestion := RetryV1 | Abort.

(** [ProtocolError], io.rs:169-174 (of an [io::Error] only the kind; message texts dropped). *)
Inductive perror := Io (k : io_kind) (s : suggestion) | Internal (e : error).

(** [From<std::io::Error>], io.rs:185-203. *)
Definition from_io (k : io_kind) : perror :=
  Io k match k with
       | ConnectionReset | ConnectionAborted | UnexpectedEof => RetryV1
       | _ => Abort
       end.

(** [ProtocolError::eof], io.rs:216-224. *)
Definition eof : perror := Io UnexpectedEof RetryV1.

(** ** Payload *)

(** [Payload] and [PayloadData], io.rs:89-102. *)
Inductive payload := Decrypted (data : bytes) | Parts (header : byte) (contents : bytes).

(** [Payload::genuine], io.rs:109-116, and [Payload::decoy], 123-130. *)
Definition genuine (contents : bytes) : payload := Parts (to_byte Genuine) contents.
(** [Payload::decoy], io.rs:123-128. *)
Definition decoy (contents : bytes) : payload := Parts (to_byte Decoy) contents.

Section WithEnv.
Context {E : Env}.

(** [Payload::decrypted], io.rs:140-148: a [debug_assert]. *)
Definition payload_decrypted (data : bytes) : run payload :=
  if debug_assertions && match data with [] => true | _ => false end then Panic
  else Ret (Decrypted data).

(** [Payload::contents], io.rs:151-156: [&data[1..]]. *)
Definition payload_contents (p : payload) : run bytes :=
  match p with
  | Decrypted data => slice data 1 (len data)
  | Parts _ contents => Ret contents
  end.

(** [Payload::packet_type], io.rs:159-164: [data[0]]. *)
Definition payload_type (p : payload) : run packet_type :=
  match p with
  | Decrypted data => let! h := index data 0 in Ret (from_byte h)
  | Parts header _ => Ret (from_byte header)
  end.

(** ** The session reader: leftover of the handshake, then the transport *)

(** [ProtocolSessionReader]: io.rs:65-85 is std's [Chain<Cursor<Vec<u8>>, R>] (the part of the
    cursor not yet read, the flag [done_first], the transport); futures.rs:76-122 has its own fields. *)
Inductive session :=
| ChainReader (cursor : bytes) (done_first : bool) (inner : script)
| TokioReader (leftover : bytes) (leftover_pos : N) (inner : script).

(** [ProtocolSessionReader::new], io.rs:71-78 and futures.rs:88-94. *)
Definition session_reader (fl : flavor) (leftover : bytes) (s : script) : session :=
  match fl with
  | Sync => ChainReader leftover false s
  | Tokio => TokioReader leftover 0 s
  end.

(** One completed read into [n] > 0 bytes: std's [Chain::read] (the first reader until it returns 0,
    then the second one); futures.rs:97-121. *)
Definition session_read (sr : session) (n : N) : read_result * session :=
  match sr with
  | ChainReader cur false s =>
    match cur with
    | [] => let '(r, s') := read s n in (r, ChainReader [] true s')
    | _ :: _ => (Data (take n cur), ChainReader (drop n cur) false s)
    end
  | ChainReader cur true s => let '(r, s') := read s n in (r, ChainReader cur true s')
  | TokioReader l pos s =>
    if pos <? len l then
      let remaining := drop pos l in
      let to_copy := N.min (len remaining) n in
      (Data (take to_copy remaining), TokioReader l (pos + to_copy) s)
    else let '(r, s') := read s n in (r, TokioReader l pos s')
  end.

(** [session_reader.read_exact(&mut buf)] for [n] bytes.  The leftover is used up first, the rest
    comes from the transport; [session_read_exact_loop] in TransportProofs.v shows that this is
    the [read_exact] loop around [session_read].  Called in io.rs:395, 403, 528, 533. *)
Definition session_read_exact (fl : flavor) (sr : session) (n : N)
  : result io_kind bytes * session :=
  match sr with
  | ChainReader cur false s =>
    if n <=? len cur then (Ok (take n cur), ChainReader (drop n cur) false s)
    else let '(r, s') := read_exact fl s (n - len cur) cur in (r, ChainReader [] true s')
  | ChainReader cur true s => let '(r, s') := read_exact fl s n [] in (r, ChainReader cur true s')
  | TokioReader l pos s =>
    if n <=? len (drop pos l) then (Ok (take n (drop pos l)), TokioReader l (pos + n) s)
    else let '(r, s') := read_exact fl s (n - len (drop pos l)) (drop pos l) in
         (r, TokioReader l (N.max pos (len l)) s')
  end.

(** ** Handshake *)

(** The garbage loop, io.rs:360-387, futures.rs:194-221.  [fuel] bounds the number of calls of
    [receive_garbage]; the last component counts the reads.
    [garbage_fuel] is enough for every script ([C40]). *)
Fixpoint garbage_loop (fuel : nat) (h : handshake sent_version) (garbage_buffer : bytes) (s : script)
    (reads : N)
  : run (result perror (handshake received_garbage * N * bytes) * script * N) :=
  match fuel with
  | O => NoFuel
  | S fuel =>
    let! x := receive_garbage h garbage_buffer in
    match x with
    | Ok (FoundGarbage h' consumed) => Ret (Ok (h', consumed, garbage_buffer), s, reads)
    | Ok (NeedMoreData h') =>
      match read s 256 with
      | (Data [], s') => Ret (Err eof, s', reads + 1)
      | (Data bs, s') => garbage_loop fuel h' (garbage_buffer ++ bs) s' (reads + 1)
      | (ReadErr k, s') => Ret (Err (from_io k), s', reads + 1)
      end
    | Err e => Ret (Err (Internal e), s, reads)
    end
  end.

(** A bound for the loop of io.rs:364-387: each turn reads at least a byte of at most 4095. *)
Definition garbage_fuel : nat := N.to_nat 4096.

(** The packet loop, io.rs:392-414, futures.rs:226-248.  The list collects the sizes of the
    buffers [vec![0u8; packet_len]] it allocates. *)
Fixpoint version_loop (fuel : nat) (fl : flavor) (h : handshake received_garbage) (sr : session)
    (allocs : list N)
  : run (result perror (cipher * cipher * session) * list N) :=
  match fuel with
  | O => NoFuel
  | S fuel =>
    match session_read_exact fl sr NUM_LENGTH_BYTES with
    | (Err k, _) => Ret (Err (from_io k), allocs)
    | (Ok length_bytes, sr) =>
      let! (packet_len, h) := hs_decrypt_packet_len h length_bytes in
      if MAX_PACKET_SIZE_FOR_ALLOCATION <? packet_len then Ret (Err (Internal PacketTooBig), allocs)
      else
        let allocs := allocs ++ [packet_len] in
        match session_read_exact fl sr packet_len with
        | (Err k, _) => Ret (Err (from_io k), allocs)
        | (Ok packet_bytes, sr) =>
          let! (x, _) := receive_version h packet_bytes in
          match x with
          | Ok (Complete c) => let '(i, o) := into_split c in Ret (Ok (i, o, sr), allocs)
          | Ok (DecoyPacket h) => version_loop fuel fl h sr allocs
          | Err e => Ret (Err (Internal e), allocs)
          end
        end
    end
  end.

(** All bytes a script or session still has; used to bound the packet loop.  For io.rs:392-414. *)
Fixpoint content (s : script) : bytes :=
  match s with
  | [] => []
  | Chunk bs :: s' => bs ++ content s'
  | _ :: s' => content s'
  end.

(** For io.rs:392-414. *)
Definition session_content (sr : session) : bytes :=
  match sr with
  | ChainReader cur false s => cur ++ content s
  | ChainReader _ true s => content s
  | TokioReader l pos s => drop pos l ++ content s
  end.

(** What a handshake leaves behind: its result, the transport writer, the allocations of
    the packet loop and the number of reads of the garbage loop.  io.rs:280-300. *)
Record hs_outcome := HsOutcome {
  ho_result : result perror (cipher * cipher * session);
  ho_writer : writer;
  ho_allocs : list N;
  ho_reads : N
}.

(** [writer.write_all(buf)?; writer.flush()?].  io.rs:344-345, 356-357. *)
Definition write_flush (fl : flavor) (w : writer) (bs : bytes) : result io_kind unit * writer :=
  match write_all fl w bs with
  | (Err k, w) => (Err k, w)
  | (Ok _, w) => flush w
  end.

(** [handshake_with_initialized], io.rs:320-415; futures.rs:175-249. *)
Definition io_handshake_with (fl : flavor) (h : handshake initialized) (garbage : option bytes)
    (decoys : option (list bytes)) (s : script) (w : writer) : run hs_outcome :=
  (* 341-345 *)
  let! (x, key_buffer) := send_key h garbage (zeros (send_key_len garbage)) in
  match x with Err e => Ret (HsOutcome (Err (Internal e)) w [] 0) | Ok h =>
  match write_flush fl w key_buffer with (Err k, w) => Ret (HsOutcome (Err (from_io k)) w [] 0) | (Ok _, w) =>
  (* 348-350 *)
  match read_exact fl s NUM_ELLIGATOR_SWIFT_BYTES [] with
  | (Err k, _) => Ret (HsOutcome (Err (from_io k)) w [] 0) | (Ok remote_ellswift, s) =>
  let! x := receive_key h remote_ellswift in
  match x with Err e => Ret (HsOutcome (Err (Internal e)) w [] 0) | Ok h =>
  (* 353-357 *)
  let! (x, version_buffer) := send_version h (zeros (send_version_len decoys)) decoys in
  match x with Err e => Ret (HsOutcome (Err (Internal e)) w [] 0) | Ok h =>
  match write_flush fl w version_buffer with (Err k, w) => Ret (HsOutcome (Err (from_io k)) w [] 0) | (Ok _, w) =>
  (* 360-387 *)
  match read_exact fl s NUM_GARBAGE_TERMINTOR_BYTES [] with
  | (Err k, _) => Ret (HsOutcome (Err (from_io k)) w [] 0) | (Ok garbage_buffer, s) =>
  let! (x, s, reads) := garbage_loop garbage_fuel h garbage_buffer s 0 in
  match x with Err e => Ret (HsOutcome (Err e) w [] reads) | Ok (h, consumed, garbage_buffer) =>
  (* 390-414 *)
  let! leftover := slice garbage_buffer consumed (len garbage_buffer) in
  let sr := session_reader fl leftover s in
  let! (x, allocs) := version_loop (S (length (session_content sr))) fl h sr [] in
  Ret (HsOutcome x w allocs reads)
  end end end end end end end end.

(** [handshake], io.rs:280-294; futures.rs:151-249. *)
Definition io_handshake (fl : flavor) (magic : bytes) (r : role) (rnd : bytes) (garbage : option bytes)
    (decoys : option (list bytes)) (s : script) (w : writer) : run hs_outcome :=
  let! x := hs_new magic r rnd in
  match x with
  | Err e => Ret (HsOutcome (Err (Internal e)) w [] 0)
  | Ok h => io_handshake_with fl h garbage decoys s w
  end.

(** ** Established sessions *)

(** [ProtocolReader], io.rs:509-512. *)
Record sync_reader := SyncReader { sr_cipher : cipher; sr_reader : session }.

(** [ProtocolReader::read], io.rs:525-537.  Also returns the size of the packet buffer allocated. *)
Definition sync_read (r : sync_reader) : run (result perror payload * sync_reader * option N) :=
  match session_read_exact Sync (sr_reader r) NUM_LENGTH_BYTES with
  | (Err k, sr) => Ret (Err (from_io k), SyncReader (sr_cipher r) sr, None)
  | (Ok length_bytes, sr) =>
    let! (packet_len, c) := decrypt_packet_len (sr_cipher r) length_bytes in
    match session_read_exact Sync sr packet_len with
    | (Err k, sr) => Ret (Err (from_io k), SyncReader c sr, Some packet_len)
    | (Ok packet_bytes, sr) =>
      let! (x, c) := decrypt_to_vec c packet_bytes None in
      match x with
      | Err e => Ret (Err (Internal e), SyncReader c sr, Some packet_len)
      | Ok (_, plaintext_buffer) =>
        let! p := payload_decrypted plaintext_buffer in
        Ret (Ok p, SyncReader c sr, Some packet_len)
      end
    end
  end.

(** [ProtocolWriter], io.rs:546-549, futures.rs:457-460. *)
Record pwriter := PWriter { pw_cipher : cipher; pw_writer : writer }.

(** [ProtocolWriter::write], io.rs:566-573. *)
Definition sync_write (p : pwriter) (pl : payload) : run (result perror unit * pwriter) :=
  let! contents := payload_contents pl in
  let! t := payload_type pl in
  let! (packet_buffer, c) := encrypt_to_vec (pw_cipher p) contents t None in
  let '(x, w) := write_flush Sync (pw_writer p) packet_buffer in
  Ret (match x with Ok _ => Ok tt | Err k => Err (from_io k) end, PWriter c w).

(** [ProtocolWriter::write], futures.rs:477-491, awaited to its end. *)
Definition tokio_write (p : pwriter) (pl : payload) : run (result perror unit * pwriter) :=
  let! contents := payload_contents pl in
  let! t := payload_type pl in
  let packet_len := encryption_buffer_len (len contents) in
  let! (x, c, packet_buffer) := encrypt (pw_cipher p) contents (zeros packet_len) t None in
  match x with
  | Err e => Ret (Err (Internal e), PWriter c (pw_writer p))
  | Ok _ =>
    let '(x, w) := write_flush Tokio (pw_writer p) packet_buffer in
    Ret (match x with Ok _ => Ok tt | Err k => Err (from_io k) end, PWriter c w)
  end.

(** [Protocol], io.rs:418-421. *)
Record protocol := Protocol { p_reader : sync_reader; p_writer : pwriter }.

(** [Protocol::new], io.rs:453-474. *)
Definition protocol_new (magic : bytes) (r : role) (rnd : bytes) (garbage : option bytes)
    (decoys : option (list bytes)) (s : script) (w : writer) : run (result perror protocol) :=
  let! o := io_handshake Sync magic r rnd garbage decoys s w in
  match ho_result o with
  | Err e => Ret (Err e)
  | Ok (i, o', sr) => Ret (Ok (Protocol (SyncReader i sr) (PWriter o' (ho_writer o))))
  end.

(** [Protocol::read] 488-490, [Protocol::write] 503-505, [into_split] 477-479. *)
Definition protocol_read (p : protocol) : run (result perror payload * protocol) :=
  let! (x, r, _) := sync_read (p_reader p) in Ret (x, Protocol r (p_writer p)).
(** [Protocol::write], io.rs:503-505. *)
Definition protocol_write (p : protocol) (pl : payload) : run (result perror unit * protocol) :=
  let! (x, w) := sync_write (p_writer p) pl in Ret (x, Protocol (p_reader p) w).
(** [Protocol::into_split], io.rs:477-479. *)
Definition protocol_split (p : protocol) : sync_reader * pwriter := (p_reader p, p_writer p).

(** [ProtocolReader::into_inner], io.rs:540-542. *)
Definition sync_reader_into_inner (r : sync_reader) : cipher * session := (sr_cipher r, sr_reader r).

(** [ProtocolWriter::into_inner], io.rs:576-578, futures.rs:494-496. *)
Definition writer_into_inner (p : pwriter) : cipher * writer := (pw_cipher p, pw_writer p).

End WithEnv.
