(** * Timed: the decoy timer of traffic/src/futures.rs and the sleep of traffic/src/io.rs with a clock

    TrafficTask.v lets any poll find the interval elapsed and TrafficIo.v lets the decoy thread wake up at any time.  Here a
    clock in milliseconds decides.  Time only passes where [Elapse] says so, which is anywhere. *)
From Coq Require Import List NArith Bool.
From Coq.Strings Require Import Byte.
From Verif Require Import Base Env FsChacha Cipher Handshake Transport Io Futures Traffic TrafficIo TrafficFutures TrafficTask.
Import ListNotations.
Local Open Scope N_scope.

(** lib.rs:94. *)
Definition DEFAULT_CHECK_INTERVAL_MS : N := 100.

Section WithEnv.
Context {E : Env} {G : Type} {R : Rng G}.

(** ** The task *)

(** [tokio::time::interval], futures.rs:212-213: its [tick] is ready when the deadline has passed, and then the deadline moves by
    one period, not to one period from now ([MissedTickBehavior::Burst], the default).  [tt_ticks]: when ticks were taken, and
    whether the shaper made a decoy of them. *)
Record timed_task := TimedTask { tt_split : @split_task G; tt_deadline : N; tt_now : N; tt_ticks : list (N * bool) }.

(** From the first poll of the task on; the first tick is due at once.  futures.rs:212-215. *)
Definition timed_new (start : N) (w : pwriter) (sh : shaper G) (recs : list N) : timed_task :=
  TimedTask (split_new w sh recs) start start [].

(** The branch of the tick (240) is the one that is taken. *)
Definition ticking (order : list nat) (elapsed : bool) (s : @split_task G) : bool :=
  running (sp_task s) &&
  match sp_place s with
  | AtSelect => match select order (sel (sp_task s)) [poll_recv (sp_task s); poll_tick elapsed] with Taken (S _) => true | _ => false end
  | _ => false
  end.

(** futures.rs:241. *)
Definition makes_decoy (sh : shaper G) : bool := match fst (fst (shaper_decoy sh)) with Some _ => true | None => false end.

(** A poll.  [ready]: the runtime may be late to fire the timer, never early.  futures.rs:215-250. *)
Definition timed_poll (tick_first ready : bool) (s : timed_task) : timed_task :=
  let elapsed := ready && (tt_deadline s <=? tt_now s) in
  let sp := split_poll (order_of tick_first) elapsed (tt_split s) in
  if ticking (order_of tick_first) elapsed (tt_split s)
  then TimedTask sp (tt_deadline s + DEFAULT_CHECK_INTERVAL_MS) (tt_now s)
         (tt_ticks s ++ [(tt_now s, makes_decoy (tk_shaper (sp_task (tt_split s))))])
  else TimedTask sp (tt_deadline s) (tt_now s) (tt_ticks s).

(** futures.rs:203-250, and time that passes. *)
Inductive timed_event := Elapse (ms : N) | Happens (e : split_event).

(** futures.rs:203-250. *)
Definition timed_step (s : timed_task) (e : timed_event) : timed_task :=
  match e with
  | Elapse ms => TimedTask (tt_split s) (tt_deadline s) (tt_now s + ms) (tt_ticks s)
  | Happens (Ev (Poll tick_first ready)) => timed_poll tick_first ready s
  | Happens e => TimedTask (split_step (tt_split s) e) (tt_deadline s) (tt_now s) (tt_ticks s)
  end.

(** futures.rs:203-250. *)
Definition timed_run (s : timed_task) (es : list timed_event) : timed_task := fold_left timed_step es s.

(** ** The thread *)

(** [thread::sleep] (io.rs:221) returns at [ts_wake] or later.  [ts_decoys]: when the shaper made a decoy. *)
Record timed_shared := TimedShared { ts_shared : @shared G; ts_wake : N; ts_now : N; ts_decoys : list N }.

(** io.rs:124-136. *)
Definition timed_shared_new (start : N) (w : pwriter) (sh : shaper G) (recs : list N) : timed_shared :=
  TimedShared (shared_new w sh recs) start start [].

(** io.rs:185-233, and time that passes. *)
Inductive timed_move := Later (ms : N) | Acts (m : move).

(** io.rs:220-233; a thread in [thread::sleep] (221) does not move before its time. *)
Definition timed_thread (s : timed_shared) : option timed_shared :=
  match thread_step (ts_shared s) with
  | None => None
  | Some s' =>
    match thread_at (ts_shared s) with
    | ThCheck => Some (TimedShared s' (ts_now s + DEFAULT_CHECK_INTERVAL_MS) (ts_now s) (ts_decoys s))
    | ThSleep => if ts_wake s <=? ts_now s then Some (TimedShared s' (ts_wake s) (ts_now s) (ts_decoys s)) else None
    | ThDecoy =>
      Some (TimedShared s' (ts_wake s) (ts_now s)
              (ts_decoys s ++ if makes_decoy (st_shaper (ts_shared s)) then [ts_now s] else []))
    | _ => Some (TimedShared s' (ts_wake s) (ts_now s) (ts_decoys s))
    end
  end.

(** io.rs:185-233. *)
Definition timed_do (s : timed_shared) (m : timed_move) : option timed_shared :=
  match m with
  | Later ms => Some (TimedShared (ts_shared s) (ts_wake s) (ts_now s + ms) (ts_decoys s))
  | Acts Thread => timed_thread s
  | Acts m =>
    match do_move (ts_shared s) m with
    | Some s' => Some (TimedShared s' (ts_wake s) (ts_now s) (ts_decoys s))
    | None => None
    end
  end.

(** io.rs:185-233. *)
Fixpoint timed_play (s : timed_shared) (ms : list timed_move) : option timed_shared :=
  match ms with
  | [] => Some s
  | m :: ms => match timed_do s m with Some s' => timed_play s' ms | None => None end
  end.

End WithEnv.
