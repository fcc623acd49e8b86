(** * SpecUnsplit: sequences of calls on a session that is not split and raw reads
    (vocabulary of C58 and C59) *)
From Coq Require Import List NArith Bool.
From Coq.Strings Require Import Byte.
From Verif Require Import Base Env FsChacha Cipher Handshake Transport Io Futures Sessions.
Import ListNotations.
Local Open Scope N_scope.

(** What a completed call gave. *)
Inductive got := GotRead (x : result perror payload) | GotWrite (x : result perror unit).

Definition got_reads (gs : list got) : list (result perror payload) :=
  flat_map (fun g => match g with GotRead x => [x] | GotWrite _ => [] end) gs.
Definition got_writes (gs : list got) : list (result perror unit) :=
  flat_map (fun g => match g with GotRead _ => [] | GotWrite x => [x] end) gs.

(** ** Blocking *)

Inductive use := UseRead | UseWrite (pl : payload).

Definition use_reads (us : list use) : nat :=
  length (filter (fun u => match u with UseRead => true | UseWrite _ => false end) us).
Definition use_writes (us : list use) : list payload :=
  flat_map (fun u => match u with UseRead => [] | UseWrite pl => [pl] end) us.

(** The result is of the kind of the call. *)
Definition answers_use (u : use) (g : got) : Prop :=
  match u, g with UseRead, GotRead _ | UseWrite _, GotWrite _ => True | _, _ => False end.

(** ** Asynchronous *)

(** The future that borrows the session, if any. *)
Inductive borrow := NotBorrowed | ByRead (f : read_future) | ByWrite (f : write_future).

(** Poll a read (a new one if there is none), make a write and poll it, poll a write again, drop the future. *)
Inductive async_use := PollRead | StartWrite (pl : payload) | PollWrite | DropFuture.

(** The uses that concern the reader, as polls and cancellations of [ProtocolReader::read]. *)
Definition reader_part (us : list async_use) : list action :=
  flat_map (fun u => match u with PollRead => [DoPoll] | DropFuture => [DoCancel] | _ => [] end) us.

Definition read_borrow (b : borrow) : read_future := match b with ByRead f => f | _ => FreshFuture end.

(** The writes begun. *)
Definition begun_writes (us : list async_use) : list payload :=
  flat_map (fun u => match u with StartWrite pl => [pl] | _ => [] end) us.

(** ** Raw reads *)

(** The application reads from the session reader itself, with buffers of the given sizes. *)
Fixpoint raw_reads (sizes : list N) (sr : session) : list read_result * session :=
  match sizes with
  | [] => ([], sr)
  | n :: sizes =>
    let '(x, sr) := session_read sr n in
    let '(xs, sr) := raw_reads sizes sr in (x :: xs, sr)
  end.

(** The same by polls; [None] is [Poll::Pending]. *)
Fixpoint raw_polls (sizes : list N) (sr : session) : list (option read_result) * session :=
  match sizes with
  | [] => ([], sr)
  | n :: sizes =>
    let '(x, sr) := poll_session sr n in
    let '(xs, sr) := raw_polls sizes sr in (x :: xs, sr)
  end.

(** The bytes delivered. *)
Definition delivered (xs : list read_result) : bytes :=
  flat_map (fun x => match x with Data bs => bs | ReadErr _ => [] end) xs.
Definition completed (xs : list (option read_result)) : list read_result :=
  flat_map (fun x => match x with Some x => [x] | None => [] end) xs.

Section WithEnv.
Context {E : Env}.

Fixpoint unsplit (us : list use) (p : protocol) : run (list got * protocol) :=
  match us with
  | [] => Ret ([], p)
  | UseRead :: us =>
    let! (x, p) := protocol_read p in
    let! (gs, p) := unsplit us p in Ret (GotRead x :: gs, p)
  | UseWrite pl :: us =>
    let! (x, p) := protocol_write p pl in
    let! (gs, p) := unsplit us p in Ret (GotWrite x :: gs, p)
  end.

(** One use; [None]: the borrow checker does not let the application do this. *)
Definition async_step (u : async_use) (b : borrow) (p : tokio_protocol)
  : run (option (list got * borrow * tokio_protocol)) :=
  match u, b with
  | PollRead, (NotBorrowed | ByRead _) =>
    let! (x, p, f) := protocol_poll_read (read_borrow b) p in
    Ret (Some match x with Ready a => ([GotRead a], NotBorrowed, p) | NotReady => ([], ByRead f, p) end)
  | StartWrite pl, NotBorrowed =>
    let! (x, p, f) := protocol_start_write p pl in
    Ret (Some match x with Ready a => ([GotWrite a], NotBorrowed, p) | NotReady => ([], ByWrite f, p) end)
  | PollWrite, ByWrite f =>
    let '(x, p, f) := protocol_poll_write f p in
    Ret (Some match x with Ready a => ([GotWrite a], NotBorrowed, p) | NotReady => ([], ByWrite f, p) end)
  | DropFuture, _ => Ret (Some ([], NotBorrowed, p))
  | _, _ => Ret None
  end.

Fixpoint async_unsplit (us : list async_use) (b : borrow) (p : tokio_protocol)
  : run (option (list got * borrow * tokio_protocol)) :=
  match us with
  | [] => Ret (Some ([], b, p))
  | u :: us =>
    let! x := async_step u b p in
    match x with
    | None => Ret None
    | Some (gs, b, p) =>
      let! y := async_unsplit us b p in
      Ret match y with None => None | Some (gs', b, p) => Some (gs ++ gs', b, p) end
    end
  end.

(** No write is dropped before it is done: a [DropFuture] finds no write in progress. *)
Fixpoint writes_kept (us : list async_use) (b : borrow) (p : tokio_protocol) : Prop :=
  match us with
  | [] => True
  | u :: us =>
    (u = DropFuture -> forall f, b <> ByWrite f) /\
    match async_step u b p with Ret (Some (_, b, p)) => writes_kept us b p | _ => True end
  end.

End WithEnv.
