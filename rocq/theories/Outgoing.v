(** * Outgoing: the crate over any implementation of [Write] or [AsyncWrite], and [BufWriter]

    Elsewhere a writer is a script and what it took is with the peer.  Here it is any state that answers [write] and [flush]; it may
    hold back what it took. *)
From Coq Require Import List NArith Bool.
From Coq.Strings Require Import Byte.
From Verif Require Import Base Env FsChacha Cipher Handshake Transport Io HsSteps.
Import ListNotations.
Local Open Scope N_scope.

(** ** Writers *)

(** One call of [write], one of [flush], of the scripted writer; [None]: not ready.
    Called in io.rs:344, 356, 570 inside of [write_all]. *)
Definition raw_write (w : writer) (bs : bytes) : option (result io_kind N) * writer :=
  match w_script w with
  | [] => (Some (Ok (len bs)), Writer [] (flushes w) (written w ++ bs))
  | WPending :: s => (None, Writer s (flushes w) (written w))
  | WFail k :: s => (Some (Err k), Writer s (flushes w) (written w))
  | Accept n :: s => (Some (Ok (N.min n (len bs))), Writer s (flushes w) (written w ++ take n bs))
  end.
(** Called in io.rs:345, 357, 571. *)
Definition raw_flush (w : writer) : option (result io_kind unit) * writer :=
  match flushes w with
  | [] => (Some (Ok tt), w)
  | FlushOk :: f => (Some (Ok tt), Writer (w_script w) f (written w))
  | FlushFail k :: f => (Some (Err k), Writer (w_script w) f (written w))
  | FlushPending :: f => (None, Writer (w_script w) f (written w))
  end.

(** std's and tokio's [BufWriter]: capacity, what it holds back, the writer inside.
    A user passes it as [W] of io.rs:280-300, futures.rs:151-165. *)
Record buf_writer := BufWriter { bw_capacity : N; bw_buffer : bytes; bw_inner : writer }.
(** [BufWriter::with_capacity] of std and tokio; the user calls it before io.rs:280-300, futures.rs:151-165. *)
Definition buf_writer_new (capacity : N) (w : writer) : buf_writer := BufWriter capacity [] w.

(** [flush_buf]: what the inner writer does not take stays in the buffer.  std's goes on after [Interrupted].  Each turn
    but the last uses up an event of the inner writer.  std and tokio, below io.rs:344-357, 570-571. *)
Fixpoint drain (fuel : nat) (fl : flavor) (buffer : bytes) (w : writer) : option (result io_kind unit) * bytes * writer :=
  match fuel, buffer with
  | O, _ | _, [] => (Some (Ok tt), buffer, w)
  | S fuel, _ =>
    match raw_write w buffer with
    | (None, w) => (None, buffer, w)
    | (Some (Err k), w) => if retries fl k then drain fuel fl buffer w else (Some (Err k), buffer, w)
    | (Some (Ok n), w) => if n =? 0 then (Some (Err WriteZero), buffer, w) else drain fuel fl (drop n buffer) w
    end
  end.
(** A bound for [drain].  No counterpart in the repo: fuel. *)
Definition drain_fuel (w : writer) : nat := S (S (length (w_script w))).

(** [write]: what does not fit drives out the buffer first; a request of at least the capacity goes through.  (std's [write_all] also
    puts the rest of such a request through; where the bytes wait in between is all that differs.)
    std and tokio, below io.rs:344, 356, 570. *)
Definition buf_write (fl : flavor) (b : buf_writer) (bs : bytes) : option (result io_kind N) * buf_writer :=
  let '(x, buffer, w) :=
    if bw_capacity b <? len (bw_buffer b) + len bs then drain (drain_fuel (bw_inner b)) fl (bw_buffer b) (bw_inner b)
    else (Some (Ok tt), bw_buffer b, bw_inner b) in
  match x with
  | None => (None, BufWriter (bw_capacity b) buffer w)
  | Some (Err k) => (Some (Err k), BufWriter (bw_capacity b) buffer w)
  | Some (Ok _) =>
    if bw_capacity b <=? len bs then let '(r, w) := raw_write w bs in (r, BufWriter (bw_capacity b) buffer w)
    else (Some (Ok (len bs)), BufWriter (bw_capacity b) (buffer ++ bs) w)
  end.

(** [flush]: the buffer, then the writer inside.  std and tokio, below io.rs:345, 357, 571. *)
Definition buf_flush (fl : flavor) (b : buf_writer) : option (result io_kind unit) * buf_writer :=
  match drain (drain_fuel (bw_inner b)) fl (bw_buffer b) (bw_inner b) with
  | (Some (Ok _), buffer, w) => let '(r, w) := raw_flush w in (r, BufWriter (bw_capacity b) buffer w)
  | (r, buffer, w) => (r, BufWriter (bw_capacity b) buffer w)
  end.

(** ** The crate over any writer *)

(** Inside of [ProtocolWriter::write]: in [write_all] with so much left, before [flush], returned.
    io.rs:566-573, futures.rs:477-491. *)
Inductive out_place := Putting (rest : bytes) | Pushing | Finished (x : result perror unit).

Section WithWriter.
Context {E : Env}.
Variables (St : Type) (wr : St -> bytes -> option (result io_kind N) * St) (fsh : St -> option (result io_kind unit) * St).

(** One call of [write] inside of [write_all], [write_once] in HsSteps.v.  io.rs:344, 356, 570, futures.rs:488. *)
Definition any_write_once (fl : flavor) (st : St) (rest : bytes) : wrote_once * St :=
  match wr st rest with
  | (None, st) => (MoreToWrite rest, st)
  | (Some (Err k), st) => (if retries fl k then MoreToWrite rest else WriteFailed k, st)
  | (Some (Ok n), st) =>
    (if n =? 0 then WriteFailed WriteZero else if len rest <=? n then AllWritten else MoreToWrite (drop n rest), st)
  end.

(** One operation of the handshake, [hs_step] in HsSteps.v; io.rs:344-345, 356-357, futures.rs:178-179, 190-191. *)
Definition any_wstep (fl : flavor) (decoys : option (list bytes)) (p : place) (s : script) (st : St) : run (place * script * St) :=
  match p with
  | SendingKey rest h =>
    let '(x, st) := any_write_once fl st rest in
    Ret (match x with
         | AllWritten => FlushingKey h
         | MoreToWrite rest => SendingKey rest h
         | WriteFailed k => Over (Err (from_io k))
         end, s, st)
  | FlushingKey h =>
    let '(x, st) := fsh st in
    Ret (match x with None => p | Some (Ok _) => ReadingKey [] h | Some (Err k) => Over (Err (from_io k)) end, s, st)
  | SendingVersion rest h =>
    let '(x, st) := any_write_once fl st rest in
    Ret (match x with
         | AllWritten => FlushingVersion h
         | MoreToWrite rest => SendingVersion rest h
         | WriteFailed k => Over (Err (from_io k))
         end, s, st)
  | FlushingVersion h =>
    let '(x, st) := fsh st in
    Ret (match x with None => p | Some (Ok _) => ReadingTerminator [] h | Some (Err k) => Over (Err (from_io k)) end, s, st)
  | _ => let! (p, s, _) := hs_step fl decoys p s (Writer [] [] []) in Ret (p, s, st)
  end.

(** io.rs:341-414, futures.rs:175-248: a number of operations. *)
Fixpoint any_wsteps (n : nat) (fl : flavor) (decoys : option (list bytes)) (p : place) (s : script) (st : St)
  : run (place * script * St) :=
  match n with
  | O => Ret (p, s, st)
  | S n => let! (p, s, st) := any_wstep fl decoys p s st in any_wsteps n fl decoys p s st
  end.

(** [ProtocolWriter::write] up to the first operation, io.rs:567-569, futures.rs:478-486. *)
Definition out_begin (fl : flavor) (c : cipher) (pl : payload) : run (out_place * cipher) :=
  let! contents := payload_contents pl in
  let! t := payload_type pl in
  match fl with
  | Sync => let! (packet_buffer, c) := encrypt_to_vec c contents t None in Ret (Putting packet_buffer, c)
  | Tokio =>
    let! (x, c, packet_buffer) := encrypt c contents (zeros (encryption_buffer_len (len contents))) t None in
    Ret (match x with Err e => Finished (Err (Internal e)) | Ok _ => Putting packet_buffer end, c)
  end.

(** One operation, io.rs:570-571, futures.rs:488-489. *)
Definition out_step (fl : flavor) (q : out_place) (st : St) : out_place * St :=
  match q with
  | Putting rest =>
    let '(x, st) := any_write_once fl st rest in
    (match x with AllWritten => Pushing | MoreToWrite rest => Putting rest | WriteFailed k => Finished (Err (from_io k)) end, st)
  | Pushing =>
    let '(x, st) := fsh st in
    (match x with None => Pushing | Some (Ok _) => Finished (Ok tt) | Some (Err k) => Finished (Err (from_io k)) end, st)
  | Finished _ => (q, st)
  end.

(** io.rs:566-573, futures.rs:477-491: a number of operations. *)
Fixpoint out_steps (n : nat) (fl : flavor) (q : out_place) (st : St) : out_place * St :=
  match n with O => (q, st) | S n => let '(q, st) := out_step fl q st in out_steps n fl q st end.

End WithWriter.
