(** * ShapedOut: the shaped writers over any implementation of [Write] or [AsyncWrite], operation by operation

    TrafficIo.v and TrafficFutures.v put a whole packet on a scripted writer at once.  Here the calls of [write] and [flush] are
    visible, and the writer is any state that answers them (Outgoing.v).  Who has the lock (traffic/src/io.rs:185, 224) or which
    branch of the task runs (traffic/src/futures.rs:216-248) comes one after the other. *)
From Coq Require Import List NArith Bool.
From Coq.Strings Require Import Byte.
From Verif Require Import Base Env FsChacha Cipher Handshake Transport Io Traffic Outgoing.
Import ListNotations.
Local Open Scope N_scope.

(** A payload is written, or the decoy timer has run out.  traffic/src/io.rs:184, 221; traffic/src/futures.rs:218, 240. *)
Inductive work := Writes (pl : payload) | Ticks.

Section WithWriter.
Context {E : Env} {G : Type} {R : Rng G}.
Variables (St : Type) (wr : St -> bytes -> option (result io_kind N) * St) (fsh : St -> option (result io_kind unit) * St).

(** The rest of a [ProtocolWriter::write]: its result and the states of the writer after each operation.
    protocol/src/io.rs:570-571, protocol/src/futures.rs:488-489. *)
Fixpoint drive (fuel : nat) (fl : flavor) (q : out_place) (st : St) : run (result perror unit * list St) :=
  match q, fuel with
  | Finished x, _ => Ret (x, [])
  | _, O => NoFuel
  | _, S fuel =>
    let '(q, st) := out_step St wr fsh fl q st in
    let! (x, sts) := drive fuel fl q st in
    Ret (x, st :: sts)
  end.

(** [ProtocolWriter::write], protocol/src/io.rs:566-573, protocol/src/futures.rs:477-491. *)
Definition put (fuel : nat) (fl : flavor) (c : cipher) (pl : payload) (st : St) : run (result perror unit * cipher * list St) :=
  let! (q, c) := out_begin fl c pl in
  let! (x, sts) := drive fuel fl q st in
  Ret (x, c, sts).

(** [ShapedProtocolWriter::write], traffic/src/io.rs:184-193, and the branch of the commands, traffic/src/futures.rs:218-237;
    one turn of the decoy thread, traffic/src/io.rs:229-231, and the branch of the timer, traffic/src/futures.rs:240-245. *)
Definition turn_over (fuel : nat) (fl : flavor) (c : cipher) (sh : shaper G) (st : St) (j : work)
  : run (result perror unit * cipher * shaper G * list St) :=
  match j with
  | Writes pl =>
    let! (d, sh, _) := shaper_pad sh pl in
    let! (x, c, sts) := match d with Some d => put fuel fl c d st | None => Ret (Ok tt, c, []) end in
    match x with
    | Err e => Ret (Err e, c, sh, sts)
    | Ok _ =>
      let! (x, c, more) := put fuel fl c pl (last sts st) in
      Ret (x, c, sh, sts ++ more)
    end
  | Ticks =>
    let '(d, sh, _) := shaper_decoy sh in
    match d with
    | None => Ret (Ok tt, c, sh, [])
    | Some d => let! (_, c, sts) := put fuel fl c d st in Ret (Ok tt, c, sh, sts)
    end
  end.

(** One after the other.  traffic/src/io.rs:184-233, traffic/src/futures.rs:215-250. *)
Fixpoint works (fuel : nat) (fl : flavor) (c : cipher) (sh : shaper G) (st : St) (js : list work)
  : run (list (result perror unit) * cipher * shaper G * list St) :=
  match js with
  | [] => Ret ([], c, sh, [])
  | j :: js =>
    let! (x, c, sh, sts) := turn_over fuel fl c sh st j in
    let! (xs, c, sh, more) := works fuel fl c sh (last sts st) js in
    Ret (x :: xs, c, sh, sts ++ more)
  end.

(** The same with the time of each turn, which its operations take with them.  traffic/src/io.rs:184-233, traffic/src/futures.rs:215-250. *)
Fixpoint works_at (fuel : nat) (fl : flavor) (c : cipher) (sh : shaper G) (st : St) (js : list (N * work))
  : run (cipher * shaper G * list (N * St)) :=
  match js with
  | [] => Ret (c, sh, [])
  | (at_, j) :: js =>
    let! (_, c, sh, sts) := turn_over fuel fl c sh st j in
    let! (c, sh, more) := works_at fuel fl c sh (last sts st) js in
    Ret (c, sh, map (fun st => (at_, st)) sts ++ more)
  end.

End WithWriter.
