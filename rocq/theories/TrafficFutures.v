(** * TrafficFutures: model of traffic/src/futures.rs *)
From Coq Require Import List NArith Bool.
From Coq.Strings Require Import Byte.
From Verif Require Import Base Env FsChacha Cipher Handshake Transport Io Futures Traffic.
Import ListNotations.
Local Open Scope N_scope.

(** ** tokio::select! *)

(** What one poll of a branch's future gives: nothing yet, a value its pattern matches, or one it does not.  tokio, for 216. *)
Inductive branch_poll := BPending | BMatch | BMismatch.

(** How a poll of the whole [select!] ends: branch [i] is taken, the [else] arm is taken, or it waits.  tokio, for 216-249. *)
Inductive selected := Taken (i : nat) | Else | Wait (disabled : list bool).

(** tokio, for 216: the mask of disabled branches. *)
Fixpoint set_nth (l : list bool) (i : nat) : list bool :=
  match l, i with
  | _ :: l, O => true :: l
  | b :: l, S i => b :: set_nth l i
  | [], _ => []
  end.

(** Branches are polled in some [order]; the first whose value matches is taken.  A branch whose value does not
    match is disabled for the rest of this [select!].  [else] is taken when all branches are disabled.  tokio, for 216-249. *)
Fixpoint select (order : list nat) (disabled : list bool) (polls : list branch_poll) : selected :=
  match order with
  | [] => if forallb (fun b => b) disabled then Else else Wait disabled
  | i :: order =>
    if nth i disabled true then select order disabled polls
    else match nth i polls BPending with
         | BMatch => Taken i
         | BMismatch => select order (set_nth disabled i) polls
         | BPending => select order disabled polls
         end
  end.

(** ** The writer task *)

(** [WriteCommand], 19-24: the payload, and a name for the caller waiting at the other end of [result_tx]. *)
Record command := Command { cmd_id : N; cmd_payload : payload }.

Section WithEnv.
Context {E : Env} {G : Type} {R : Rng G}.

(** The task (203-251) with its channel.  [sel]: the branches of the current [select!] that are disabled.
    [senders]: whether a [write_tx] is left.  [running]: false after [break] or a panic.
    [answers]: the results sent to the callers. *)
Record task := Task {
  tk_writer : pwriter;
  tk_shaper : shaper G;
  queue : list command;
  senders : bool;
  sel : list bool;
  running : bool;
  tk_records : list N;
  answers : list (N * result perror unit)
}.

(** A new [select!], 216. *)
Definition no_branch_disabled : list bool := [false; false].

(** The end of a turn of the loop: a new [select!].  215-216, 237, 245. *)
Definition turn (t : task) (w : pwriter) (sh : shaper G) (q : list command) (recs : list N)
    (ans : list (N * result perror unit)) : task :=
  Task w sh q (senders t) no_branch_disabled true (tk_records t ++ recs) (answers t ++ ans).

(** The task is gone; the queue with its [result_tx] is dropped.  250. *)
Definition stop (t : task) (w : pwriter) : task :=
  Task w (tk_shaper t) [] (senders t) (sel t) false (tk_records t) (answers t).

(** 218-235: a command. *)
Definition handle (t : task) (cmd : command) (q : list command) : task :=
  match shaper_pad (tk_shaper t) (cmd_payload cmd) with
  | Ret (d, sh, recs) =>
    match match d with Some d => tokio_write (tk_writer t) d | None => Ret (Ok tt, tk_writer t) end with
    | Ret (Err e, w) => turn t w sh q recs [(cmd_id cmd, Err e)]
    | Ret (Ok _, w) =>
      match tokio_write w (cmd_payload cmd) with
      | Ret (x, w) => turn t w sh q recs [(cmd_id cmd, x)]
      | _ => stop t w
      end
    | _ => stop t (tk_writer t)
    end
  | _ => stop t (tk_writer t)
  end.

(** 240-244: a tick. *)
Definition tick (t : task) : task :=
  match shaper_decoy (tk_shaper t) with
  | (None, sh, recs) => turn t (tk_writer t) sh (queue t) recs []
  | (Some d, sh, recs) =>
    match tokio_write (tk_writer t) d with
    | Ret (_, w) => turn t w sh (queue t) recs []
    | _ => stop t (tk_writer t)
    end
  end.

(** [write_rx.recv()], polled: [Some] the next command, [None] if there is none and all senders are gone.
    The pattern is [Some(cmd)].  218. *)
Definition poll_recv (t : task) : branch_poll :=
  match queue t with
  | _ :: _ => BMatch
  | [] => if senders t then BPending else BMismatch
  end.

(** [decoy_interval.tick()], polled; the pattern is [_].  240. *)
Definition poll_tick (elapsed : bool) : branch_poll := if elapsed then BMatch else BPending.

(** One poll of the task at its [select!] (216-249), and the branch taken up to the next [select!].
    [order] is the random order of the branches, [elapsed] whether the interval has elapsed.
    The awaits inside the branches are not split here; see TrafficTask.v. *)
Definition poll_task (order : list nat) (elapsed : bool) (t : task) : task :=
  if running t then
    match select order (sel t) [poll_recv t; poll_tick elapsed] with
    | Taken O => match queue t with cmd :: q => handle t cmd q | [] => t end
    | Taken _ => tick t
    | Else => stop t (tk_writer t)
    | Wait d => Task (tk_writer t) (tk_shaper t) (queue t) (senders t) d true (tk_records t) (answers t)
    end
  else t.

(** What happens: a caller sends a command ([write], 172-180: [None] is the error "terminated unexpectedly"),
    the last [write_tx] is dropped, the task is polled, the runtime drops the task at its [select!]. *)
Inductive event := Send (c : command) | DropSenders | Poll (tick_first elapsed : bool) | Kill.

(** tokio, for 216: without [biased] the order is random. *)
Definition order_of (tick_first : bool) : list nat := if tick_first then [1; 0]%nat else [0; 1]%nat.

(** 179-199, 203-250: one event. *)
Definition task_step (t : task) (e : event) : task :=
  match e with
  | Send c =>
    if senders t && running t then
      Task (tk_writer t) (tk_shaper t) (queue t ++ [c]) (senders t) (sel t) (running t) (tk_records t) (answers t)
    else t
  | DropSenders => Task (tk_writer t) (tk_shaper t) (queue t) false (sel t) (running t) (tk_records t) (answers t)
  | Poll tick_first elapsed => poll_task (order_of tick_first) elapsed t
  | Kill => if running t then stop t (tk_writer t) else t
  end.

(** 179-199, 203-250. *)
Definition task_run (t : task) (es : list event) : task := fold_left task_step es t.

(** [writer_task], 203-214, as spawned by [new], 108-139. *)
Definition task_new (w : pwriter) (sh : shaper G) (recs : list N) : task :=
  Task w sh [] true no_branch_disabled true recs [].

(** [ShapedProtocolWriter::write], 172-199: what the caller gets once the task will not answer any more
    or has answered. *)
Definition gone : perror := Io UnexpectedEof Abort.
(** 190-198: what [result_rx.await] gives. *)
Definition answer_to (t : task) (id : N) : option (result perror unit) :=
  match find (fun a => fst a =? id) (answers t) with
  | Some (_, x) => Some x
  | None => if running t then None else Some (Err gone)
  end.

(** [ShapedProtocol::new], 108-139. *)
Definition tokio_shaped_new (magic : bytes) (r : role) (rnd : bytes) (c : config) (g : G) (s : script) (w : writer)
  : run (result perror (tokio_reader * task)) :=
  let '(garbage, decoys, sh, recs) := shaper_handshake (Shaper c g) in
  let! x := tokio_protocol_new magic r rnd garbage decoys s w in
  match x with
  | Err e => Ret (Err e)
  | Ok p => Ret (Ok (t_reader p, task_new (t_writer p) sh recs))
  end.

(** [ShapedProtocolReader::read], 162-167. *)
Definition tokio_shaped_read (r : tokio_reader) : run (result perror payload * tokio_reader * list N) :=
  let! (x, r) := tokio_read r in
  match x with
  | Err e => Ret (Err e, r, [])
  | Ok p => let! contents := payload_contents p in Ret (Ok p, r, [len contents])
  end.

(** One poll of it: the recording follows the only await.  162-167. *)
Definition poll_shaped_read (f : read_future) (r : tokio_reader)
  : run (poll (result perror payload) * tokio_reader * read_future * list N) :=
  let! (x, r, f) := poll_read f r in
  match x with
  | NotReady => Ret (NotReady, r, f, [])
  | Ready (Err e) => Ret (Ready (Err e), r, f, [])
  | Ready (Ok p) => let! contents := payload_contents p in Ret (Ready (Ok p), r, f, [len contents])
  end.

End WithEnv.
