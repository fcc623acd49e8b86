(** * Transport: readers and writers, and what std and tokio do with them.

    The crate is generic in [R: Read] / [AsyncRead] and [W: Write] / [AsyncWrite].  A reader is a
    script of what its successive read calls give, a writer a script of what its successive write
    and flush calls do.  A script is arbitrary, so quantifying over scripts is quantifying over
    transport behaviours. *)
From Coq Require Import List NArith Bool.
From Coq.Strings Require Import Byte.
From Verif Require Import Base.
Import ListNotations.
Local Open Scope N_scope.

(** [std::io::ErrorKind]; the kinds the crate or std look at, and all others.  io.rs:185-203, 216-218. *)
Inductive io_kind :=
| UnexpectedEof | ConnectionReset | ConnectionAborted | Interrupted | WriteZero
| OtherKind (code : N).

(** std retries on this kind, below io.rs:344-403. *)
Definition is_interrupted (k : io_kind) : bool :=
  match k with Interrupted => true | _ => false end.

(** Which of the two drivers: io.rs on top of std, futures.rs on top of tokio.  io.rs:320-415; futures.rs:151-248. *)
Inductive flavor := Sync | Tokio.

(** ** Readers *)

(** One event: bytes become available (at most the caller's buffer is taken, the rest stays; no
    bytes at all means that a read returns 0), a read fails, or nothing is ready yet. *)
Inductive rev := Chunk (bs : bytes) | Fail (k : io_kind) | Pending.

(** After the last event every read returns 0: end of file. *)
Definition script := list rev.

(** What one completed read call gives.  io.rs:377, futures.rs:211. *)
Inductive read_result := Data (bs : bytes) | ReadErr (k : io_kind).

(** [reader.read(&mut buf).await] with a buffer of [n] > 0 bytes; a blocking reader waits as well. *)
Fixpoint read (s : script) (n : N) : read_result * script :=
  match s with
  | [] => (Data [], [])
  | Pending :: s' => read s' n
  | Fail k :: s' => (ReadErr k, s')
  | Chunk bs :: s' =>
    if len bs <=? n then (Data bs, s') else (Data (take n bs), Chunk (drop n bs) :: s')
  end.

(** [read_exact] for [n] more bytes, [acc] read so far.  std's default implementation retries
    [Interrupted], tokio's does not; both report a premature end as [UnexpectedEof].  The bytes
    taken before a failure are gone.  [read_exact_loop] in TransportProofs.v shows that
    this is the loop around [read].  Called in io.rs:349, 361, 395, 403, 528, 533. *)
Fixpoint read_exact (fl : flavor) (s : script) (n : N) (acc : bytes)
  : result io_kind bytes * script :=
  if n =? 0 then (Ok acc, s) else
  match s with
  | [] => (Err UnexpectedEof, [])
  | Pending :: s' => read_exact fl s' n acc
  | Fail k :: s' =>
    match fl, k with
    | Sync, Interrupted => read_exact fl s' n acc
    | _, _ => (Err k, s')
    end
  | Chunk [] :: s' => (Err UnexpectedEof, s')
  | Chunk bs :: s' =>
    if len bs <=? n then read_exact fl s' (n - len bs) (acc ++ bs)
    else (Ok (acc ++ take n bs), Chunk (drop n bs) :: s')
  end.

(** ** Writers *)

(** One write call takes up to [n] bytes (none: it returns 0), fails, or is not ready yet. *)
Inductive wev := Accept (n : N) | WFail (k : io_kind) | WPending.

(** One flush call succeeds, fails, or is not ready yet.  io.rs:345, 357, 571. *)
Inductive fev := FlushOk | FlushFail (k : io_kind) | FlushPending.

(** [written]: the bytes taken so far; [flushes]: outcome of the next flush calls.
    After the last event of a script everything succeeds.  [W] of io.rs:280-300, futures.rs:151-165. *)
Record writer := Writer { w_script : list wev; flushes : list fev; written : bytes }.

(** [write_all]: std's retries [Interrupted], tokio's does not; both turn a
    write of 0 bytes into [WriteZero]. *)
Fixpoint write_script (fl : flavor) (s : list wev) (bs : bytes)
  : result io_kind unit * list wev * bytes :=
  match bs with
  | [] => (Ok tt, s, [])
  | _ :: _ =>
    match s with
    | [] => (Ok tt, [], bs)
    | WPending :: s' => write_script fl s' bs
    | WFail k :: s' =>
      match fl, k with
      | Sync, Interrupted => write_script fl s' bs
      | _, _ => (Err k, s', [])
      end
    | Accept n :: s' =>
      if n =? 0 then (Err WriteZero, s', []) else
      if len bs <=? n then (Ok tt, s', bs) else
      let '(r, s'', out) := write_script fl s' (drop n bs) in (r, s'', take n bs ++ out)
    end
  end.

(** Called in io.rs:344, 356, 570, futures.rs:488. *)
Definition write_all (fl : flavor) (w : writer) (bs : bytes) : result io_kind unit * writer :=
  let '(r, s, out) := write_script fl (w_script w) bs in
  (r, Writer s (flushes w) (written w ++ out)).

(** [writer.flush()].  io.rs:345, 357, 571, futures.rs:489. *)
Fixpoint flush_script (f : list fev) : result io_kind unit * list fev :=
  match f with
  | [] => (Ok tt, [])
  | FlushOk :: f => (Ok tt, f)
  | FlushFail k :: f => (Err k, f)
  | FlushPending :: f => flush_script f
  end.
(** io.rs:345, 357, 571, futures.rs:489. *)
Definition flush (w : writer) : result io_kind unit * writer :=
  let '(r, f) := flush_script (flushes w) in (r, Writer (w_script w) f (written w)).
