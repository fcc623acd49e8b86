(** * TrafficIo: model of traffic/src/io.rs

    The application thread and the decoy thread as a transition system.  A schedule names the thread
    that moves next; one move is the program text between two points at which the other thread
    could see or influence something (the mutex, the shutdown flag, the end of the thread).
    Simplifications: a test of the flag sees the last store (the code uses [Relaxed]; Relaxed.v adds the tests that do
    not); the statistics do not panic (a clock before 1970 would; see Clocked.v). *)
From Coq Require Import List NArith Bool.
From Coq.Strings Require Import Byte.
From Verif Require Import Base Env FsChacha Cipher Handshake Transport Io Traffic.
Import ListNotations.
Local Open Scope N_scope.

(** Who holds the mutex.  [Mutex], 124, 186, 224. *)
Inductive holder := Free | ByApp | ByDecoy.

(** The application thread: outside of the crate; in [write], waiting for the mutex (186), holding it before
    [pad] (187), before the write of the padding (188), before the write of the payload (190);
    in [drop], waiting in [join] (204); after [drop]; unwinding from a panic. *)
Inductive app_pc :=
| AppOut | AppLock (pl : payload) | AppPad (pl : payload) | AppWritePad (d pl : payload) | AppWrite (pl : payload)
| AppJoin | AppDropped | AppPanicked.

(** The decoy thread: before the test of the flag (220); in [sleep] (221); before [try_lock] (224);
    holding the mutex before [decoy] (229); before the write of the decoy (230); ended; ended by a panic. *)
Inductive thread_pc :=
| ThCheck | ThSleep | ThTryLock | ThDecoy | ThWrite (d : payload) | ThDone | ThPanicked.

Section WithEnv.
Context {E : Env} {G : Type} {R : Rng G}.

(** [WriterState] (19-22) in its mutex, the flag, both threads.  [records]: the sizes given to
    [record_write] so far, in order.  [returned]: what the calls of [write] returned. *)
Record shared := Shared {
  st_writer : pwriter;
  st_shaper : shaper G;
  lock : holder;
  poisoned : bool;
  shutdown : bool;
  app_at : app_pc;
  thread_at : thread_pc;
  records : list N;
  returned : list (payload * result perror unit)
}.

(** Record update of [Shared], 19-24, 30-47. *)
Definition set_app (s : shared) (a : app_pc) : shared :=
  Shared (st_writer s) (st_shaper s) (lock s) (poisoned s) (shutdown s) a (thread_at s) (records s) (returned s).
(** Record update of [Shared], 19-24, 30-47. *)
Definition set_thread (s : shared) (t : thread_pc) : shared :=
  Shared (st_writer s) (st_shaper s) (lock s) (poisoned s) (shutdown s) (app_at s) t (records s) (returned s).
(** Record update of [Shared], 19-24, 30-47. *)
Definition set_lock (s : shared) (h : holder) : shared :=
  Shared (st_writer s) (st_shaper s) h (poisoned s) (shutdown s) (app_at s) (thread_at s) (records s) (returned s).
(** Record update of [Shared], 19-24, 30-47. *)
Definition set_writer (s : shared) (w : pwriter) : shared :=
  Shared w (st_shaper s) (lock s) (poisoned s) (shutdown s) (app_at s) (thread_at s) (records s) (returned s).
(** Record update of [Shared], 19-24, 30-47. *)
Definition set_shaper (s : shared) (sh : shaper G) (recs : list N) : shared :=
  Shared (st_writer s) sh (lock s) (poisoned s) (shutdown s) (app_at s) (thread_at s) (records s ++ recs) (returned s).
(** [store(true, Relaxed)], 202. *)
Definition set_shutdown (s : shared) : shared :=
  Shared (st_writer s) (st_shaper s) (lock s) (poisoned s) true (app_at s) (thread_at s) (records s) (returned s).

(** A panic while the guard is alive poisons and frees the mutex.  std, on the way out of 187-190 or 229-230. *)
Definition poison (s : shared) : shared :=
  Shared (st_writer s) (st_shaper s) Free true (shutdown s) (app_at s) (thread_at s) (records s) (returned s).

(** [write] returns: the guard is dropped, the result is the caller's.  188, 190-192. *)
Definition app_return (s : shared) (pl : payload) (x : result perror unit) : shared :=
  Shared (st_writer s) (st_shaper s) Free (poisoned s) (shutdown s) AppOut (thread_at s) (records s)
         (returned s ++ [(pl, x)]).

(** A move of the application inside the crate; [None]: it has none (it blocks, or it is outside).  185-193 and 200-206. *)
Definition app_step (s : shared) : option shared :=
  match app_at s with
  | AppOut | AppDropped | AppPanicked => None
  | AppLock pl =>
    match lock s with
    | Free => if poisoned s then Some (set_app s AppPanicked) else Some (set_app (set_lock s ByApp) (AppPad pl))
    | _ => None
    end
  | AppPad pl =>
    Some match shaper_pad (st_shaper s) pl with
         | Ret (Some d, sh, recs) => set_app (set_shaper s sh recs) (AppWritePad d pl)
         | Ret (None, sh, recs) => set_app (set_shaper s sh recs) (AppWrite pl)
         | _ => set_app (poison s) AppPanicked
         end
  | AppWritePad d pl =>
    Some match sync_write (st_writer s) d with
         | Ret (Ok _, w) => set_app (set_writer s w) (AppWrite pl)
         | Ret (Err e, w) => app_return (set_writer s w) pl (Err e)
         | _ => set_app (poison s) AppPanicked
         end
  | AppWrite pl =>
    Some match sync_write (st_writer s) pl with
         | Ret (x, w) => app_return (set_writer s w) pl x
         | _ => set_app (poison s) AppPanicked
         end
  | AppJoin =>
    match thread_at s with
    | ThDone | ThPanicked => Some (set_app s AppDropped)
    | _ => None
    end
  end.

(** A move of the decoy thread; [None]: it has ended.  220-233. *)
Definition thread_step (s : shared) : option shared :=
  match thread_at s with
  | ThCheck => Some (set_thread s (if shutdown s then ThDone else ThSleep))
  | ThSleep => Some (set_thread s ThTryLock)
  | ThTryLock =>
    Some match lock s with
         | Free => if poisoned s then set_thread s ThCheck else set_thread (set_lock s ByDecoy) ThDecoy
         | _ => set_thread s ThCheck
         end
  | ThDecoy =>
    Some match shaper_decoy (st_shaper s) with
         | (Some d, sh, recs) => set_thread (set_shaper s sh recs) (ThWrite d)
         | (None, sh, recs) => set_thread (set_lock (set_shaper s sh recs) Free) ThCheck
         end
  | ThWrite d =>
    Some match sync_write (st_writer s) d with
         | Ret (_, w) => set_thread (set_lock (set_writer s w) Free) ThCheck
         | _ => set_thread (poison s) ThPanicked
         end
  | ThDone | ThPanicked => None
  end.

(** Who moves: the application calls [write] (184-193), calls [drop] (200-206) or goes on; or the
    decoy thread moves.  A panic of [write] unwinds and may run [drop] too. *)
Inductive move := CallWrite (pl : payload) | CallDrop | App | Thread.

(** 185-233, one move. *)
Definition do_move (s : shared) (m : move) : option shared :=
  match m with
  | CallWrite pl => match app_at s with AppOut => Some (set_app s (AppLock pl)) | _ => None end
  | CallDrop =>
    match app_at s with
    | AppOut | AppPanicked => Some (set_app (set_shutdown s) AppJoin)
    | _ => None
    end
  | App => app_step s
  | Thread => thread_step s
  end.

(** A schedule; a thread that cannot move is not scheduled.  185-233. *)
Fixpoint play (s : shared) (ms : list move) : option shared :=
  match ms with
  | [] => Some s
  | m :: ms => match do_move s m with Some s' => play s' ms | None => None end
  end.

(** [ShapedProtocol::new], 110-150, after the handshake: the mutex is free, the thread starts. *)
Definition shared_new (w : pwriter) (sh : shaper G) (recs : list N) : shared :=
  Shared w sh Free false false AppOut ThCheck recs [].

(** [ShapedProtocol::new], 110-150; [rnd] are the random bytes of the secret key. *)
Definition shaped_new (magic : bytes) (r : role) (rnd : bytes) (c : config) (g : G) (s : script) (w : writer)
  : run (result perror (sync_reader * shared)) :=
  let '(garbage, decoys, sh, recs) := shaper_handshake (Shaper c g) in
  let! x := protocol_new magic r rnd garbage decoys s w in
  match x with
  | Err e => Ret (Err e)
  | Ok p => let '(rd, wr) := protocol_split p in Ret (Ok (rd, shared_new wr sh recs))
  end.

(** [ShapedProtocolReader::read], 172-177, with the size given to [record_read]. *)
Definition shaped_read (r : sync_reader) : run (result perror payload * sync_reader * list N) :=
  let! (x, r, _) := sync_read r in
  match x with
  | Err e => Ret (Err e, r, [])
  | Ok p => let! contents := payload_contents p in Ret (Ok p, r, [len contents])
  end.

End WithEnv.
