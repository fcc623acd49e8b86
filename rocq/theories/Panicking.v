(** * Panicking: shaped writers over a transport that panics

    The transport is the user's ([W : Write] of traffic/src/io.rs:184, [W : AsyncWrite] of traffic/src/futures.rs:204) and may panic in
    [write] or [flush].  Here it does what its script says up to some byte and then panics.  TrafficIo.v and
    TrafficTask.v have the moves; this file adds, to each that uses the transport, that it may unwind. *)
From Coq Require Import List NArith Bool.
From Coq.Strings Require Import Byte.
From Verif Require Import Base Env FsChacha Cipher Handshake Transport Io Futures Traffic TrafficIo TrafficFutures TrafficTask.
Import ListNotations.
Local Open Scope N_scope.

Section WithEnv.
Context {E : Env} {G : Type} {R : Rng G}.

(** The writer after a panic of its transport, which has taken [n] more bytes of what it would have taken; in [write] or in
    [flush] of io.rs:570-571, futures.rs:488-489.  Nobody uses it any more (see the uses of [cut]). *)
Definition cut (before after : pwriter) (n : N) : pwriter :=
  PWriter (pw_cipher after) (Writer (w_script (pw_writer after)) (flushes (pw_writer after))
    (take (len (written (pw_writer before)) + n) (written (pw_writer after)))).

(** ** traffic/src/io.rs *)

(** A panic in a write of the application, 188, 190: the guard is dropped while unwinding. *)
Definition app_cut (s : @shared G) (w : pwriter) (n : N) : shared :=
  set_app (poison (set_writer s (cut (st_writer s) w n))) AppPanicked.
(** A panic in a write of the thread, 230; [join] (204) gives it back and [drop] ignores it. *)
Definition thread_cut (s : @shared G) (w : pwriter) (n : N) : shared :=
  set_thread (poison (set_writer s (cut (st_writer s) w n))) ThPanicked.

(** One move; with [Some n] the transport panics in it, if it is used, after [n] bytes.  185-233. *)
Definition do_panicky (s : @shared G) (c : move * option N) : option shared :=
  match c with
  | (m, None) => do_move s m
  | (m, Some n) =>
    match m, app_at s, thread_at s with
    | App, AppWritePad d _, _ =>
      match sync_write (st_writer s) d with Ret (_, w) => Some (app_cut s w n) | _ => do_move s m end
    | App, AppWrite pl, _ =>
      match sync_write (st_writer s) pl with Ret (_, w) => Some (app_cut s w n) | _ => do_move s m end
    | Thread, _, ThWrite d =>
      match sync_write (st_writer s) d with Ret (_, w) => Some (thread_cut s w n) | _ => do_move s m end
    | _, _, _ => do_move s m
    end
  end.

(** 185-233. *)
Fixpoint play_panicky (s : @shared G) (cs : list (move * option N)) : option shared :=
  match cs with
  | [] => Some s
  | c :: cs => match do_panicky s c with Some s' => play_panicky s' cs | None => None end
  end.

(** ** traffic/src/futures.rs *)

(** Whether the next poll gets to [writer.write(..).await]: 223, 230, 243. *)
Definition gets_to_write (order : list nat) (elapsed : bool) (s : @split_task G) : bool :=
  let t := sp_task s in
  running t &&
  match sp_place s with
  | AtSelect =>
    match select order (sel t) [poll_recv t; poll_tick elapsed] with
    | Taken O => match queue t with _ :: _ => true | [] => false end
    | Taken _ => match shaper_decoy (tk_shaper t) with (Some _, _, _) => true | _ => false end
    | _ => false
    end
  | _ => true
  end.

(** A poll in which the transport panics after [n] bytes: the runtime catches it, the task is gone with the channel and the
    command it was at; what it records in this poll comes before its writes (222, 241).  215-250. *)
Definition poll_cut (order : list nat) (elapsed : bool) (n : N) (s : @split_task G) : split_task :=
  let s' := split_poll order elapsed s in
  if gets_to_write order elapsed s then
    SplitTask (Task (cut (tk_writer (sp_task s)) (tk_writer (sp_task s')) n) (tk_shaper (sp_task s')) []
                 (senders (sp_task s)) (sel (sp_task s)) false (tk_records (sp_task s')) (answers (sp_task s))) AtSelect
  else s'.

(** One event; with [Some n] the transport panics in it, if it is used, after [n] bytes.  203-250. *)
Definition step_panicky (s : @split_task G) (e : split_event * option N) : split_task :=
  match e with
  | (Ev (Poll tick_first elapsed), Some n) => poll_cut (order_of tick_first) elapsed n s
  | (e, _) => split_step s e
  end.

(** 203-250. *)
Definition run_panicky (s : @split_task G) (es : list (split_event * option N)) : split_task := fold_left step_panicky es s.

End WithEnv.
