(** * ShapedUnsplit: the sessions of traffic/src/io.rs and traffic/src/futures.rs that are not split *)
From Coq Require Import List NArith Bool.
From Coq.Strings Require Import Byte.
From Verif Require Import Base Env FsChacha Cipher Handshake Transport Io Futures Traffic TrafficIo TrafficFutures TrafficTask.
Import ListNotations.
Local Open Scope N_scope.

Section WithEnv.
Context {E : Env} {G : Type} {R : Rng G}.

(** ** Blocking *)

(** [ShapedProtocol], traffic/src/io.rs:45-52: the reader half and what the writer half shares with its thread.  [ss_reading]: the
    application is in a call of [read]; [ss_reads], [ss_recorded]: what the calls of [read] returned and recorded. *)
Record shaped_session := ShapedSession {
  ss_reader : sync_reader;
  ss_shared : @shared G;
  ss_reading : bool;
  ss_reads : list (result perror payload);
  ss_recorded : list N
}.

(** The application calls [write], goes on in it, drops the session, calls [read], returns from [read]; the decoy thread moves.
    traffic/src/io.rs:152-159, 200-206. *)
Inductive session_move := SWrite (pl : payload) | SApp | SDrop | SThread | SRead | SReadReturn.

(** Record update of [ShapedProtocol], traffic/src/io.rs:45-52. *)
Definition on_shared (s : shaped_session) (x : option (@shared G)) : option shaped_session :=
  match x with
  | Some sh => Some (ShapedSession (ss_reader s) sh (ss_reading s) (ss_reads s) (ss_recorded s))
  | None => None
  end.

(** [read] (152-154) and [write] (157-159) borrow the session, so that the application is in one of them at a time; a drop drops the
    reader, which does nothing, and the writer (200-206).  A read that panics is not continued. *)
Definition session_step (s : shaped_session) (m : session_move) : run (option shaped_session) :=
  match m with
  | SWrite pl => Ret (if ss_reading s then None else on_shared s (do_move (ss_shared s) (CallWrite pl)))
  | SApp => Ret (if ss_reading s then None else on_shared s (do_move (ss_shared s) App))
  | SDrop => Ret (if ss_reading s then None else on_shared s (do_move (ss_shared s) CallDrop))
  | SThread => Ret (on_shared s (do_move (ss_shared s) Thread))
  | SRead =>
    Ret match ss_reading s, app_at (ss_shared s) with
        | false, AppOut => Some (ShapedSession (ss_reader s) (ss_shared s) true (ss_reads s) (ss_recorded s))
        | _, _ => None
        end
  | SReadReturn =>
    if ss_reading s then
      let! (x, r, recs) := shaped_read (ss_reader s) in
      Ret (Some (ShapedSession r (ss_shared s) false (ss_reads s ++ [x]) (ss_recorded s ++ recs)))
    else Ret None
  end.

(** A sequence of moves; [None]: one of them is not possible where it stands.  traffic/src/io.rs:152-233. *)
Fixpoint session_run (s : shaped_session) (ms : list session_move) : run (option shaped_session) :=
  match ms with
  | [] => Ret (Some s)
  | m :: ms =>
    let! x := session_step s m in
    match x with Some s => session_run s ms | None => Ret None end
  end.

(** [into_split], 162-164. *)
Definition session_split (s : shaped_session) : sync_reader * @shared G := (ss_reader s, ss_shared s).

(** ** Asynchronous *)

(** The future that borrows the session; [Dropped]: the session is gone.  traffic/src/futures.rs:142-149. *)
Inductive session_borrow := Unborrowed | Reading (f : read_future) | Awaiting (id : N) | Dropped.

(** [ShapedProtocol], traffic/src/futures.rs:41-47, with the task behind its channel. *)
Record shaped_async := ShapedAsync {
  sa_reader : tokio_reader;
  sa_task : @split_task G;
  sa_borrow : session_borrow;
  sa_reads : list (result perror payload);
  sa_recorded : list N;
  sa_writes : list (N * result perror unit)
}.

(** Poll a read (a new one if there is none); begin a write with its first poll; poll the write; drop the future; drop the session; the
    runtime polls or drops the task.  traffic/src/futures.rs:142-149. *)
Inductive shaped_use :=
| APollRead | AWrite (c : command) | APollWrite | ADropFuture | ADropSession | ATask (tick_first elapsed : bool) | AKill.

(** Record update of [ShapedProtocol], traffic/src/futures.rs:41-47. *)
Definition with_task (s : shaped_async) (e : event) (b : session_borrow) : shaped_async :=
  ShapedAsync (sa_reader s) (split_step (sa_task s) (Ev e)) b (sa_reads s) (sa_recorded s) (sa_writes s).
(** traffic/src/futures.rs:147-149: the result of 190-198 reaches the caller. *)
Definition write_done (s : shaped_async) (id : N) (x : result perror unit) : shaped_async :=
  ShapedAsync (sa_reader s) (sa_task s) Unborrowed (sa_reads s) (sa_recorded s) (sa_writes s ++ [(id, x)]).
(** traffic/src/futures.rs:142-144, 162-167: one poll. *)
Definition shaped_poll (s : shaped_async) (f : read_future) : run (option shaped_async) :=
  let! (x, r, f, recs) := poll_shaped_read f (sa_reader s) in
  Ret (Some match x with
    | Ready a => ShapedAsync r (sa_task s) Unborrowed (sa_reads s ++ [a]) (sa_recorded s ++ recs) (sa_writes s)
    | NotReady => ShapedAsync r (sa_task s) (Reading f) (sa_reads s) (sa_recorded s ++ recs) (sa_writes s)
    end).

(** [read] (142-144), [write] (147-149 and 172-199; the channel is closed when the task is gone).  [None]: the borrow checker does not
    let the application do this. *)
Definition shaped_step (s : shaped_async) (u : shaped_use) : run (option shaped_async) :=
  match u, sa_borrow s with
  | APollRead, Unborrowed => shaped_poll s FreshFuture
  | APollRead, Reading f => shaped_poll s f
  | AWrite c, Unborrowed =>
    Ret (Some (if running (sp_task (sa_task s)) then with_task s (Send c) (Awaiting (cmd_id c))
               else write_done s (cmd_id c) (Err gone)))
  | APollWrite, Awaiting id =>
    Ret (Some match answer_to (sp_task (sa_task s)) id with Some x => write_done s id x | None => s end)
  | ADropFuture, (Unborrowed | Reading _ | Awaiting _) =>
    Ret (Some (ShapedAsync (sa_reader s) (sa_task s) Unborrowed (sa_reads s) (sa_recorded s) (sa_writes s)))
  | ADropSession, Unborrowed => Ret (Some (with_task s DropSenders Dropped))
  | ATask tick_first elapsed, b => Ret (Some (with_task s (Poll tick_first elapsed) b))
  | AKill, b => Ret (Some (with_task s Kill b))
  | _, _ => Ret None
  end.

(** traffic/src/futures.rs:142-250. *)
Fixpoint shaped_run (s : shaped_async) (us : list shaped_use) : run (option shaped_async) :=
  match us with
  | [] => Ret (Some s)
  | u :: us =>
    let! x := shaped_step s u in
    match x with Some s => shaped_run s us | None => Ret None end
  end.

(** [into_split], 152-154. *)
Definition async_split (s : shaped_async) : tokio_reader * @split_task G := (sa_reader s, sa_task s).

End WithEnv.
