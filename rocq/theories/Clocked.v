(** * Clocked: the clock readings inside the shaped endpoints

    Every recording reads the clock (traffic/src/lib.rs:276-282) after it has added to the counters, and panics if the clock
    stands before 1970.  Traffic.v, TrafficIo.v and TrafficFutures.v leave the readings out; here every move, event or read comes
    with what the clock says.  The awaits inside the branches of the writer task are not split (as in TrafficFutures.v). *)
From Coq Require Import List NArith Bool.
From Coq.Strings Require Import Byte.
From Verif Require Import Base Env FsChacha Cipher Handshake Transport Io Futures Traffic TrafficIo TrafficFutures.
Import ListNotations.
Local Open Scope N_scope.

(** A call that returns, or one that unwinds.  traffic/src/lib.rs:263, 279, 302: the [unwrap]s. *)
Inductive outcome (A : Type) := Returned (a : A) | Unwound.
Arguments Returned {A} _.
Arguments Unwound {A}.

(** [record_read], 286-290, and [record_write], 292-297, with the clock: the atomic operations that happen, in program
    order.  Both additions come before [update_last_activity] (289, 296). *)
Definition record_done (r : record) : list stat_op :=
  match r with
  | RecordRead n t => AddBytesRead n :: AddMessagesRead :: match now_ms t with Ret now => [StoreActivity now] | _ => [] end
  | RecordWrite n t => AddBytesWritten n :: AddMessagesWritten :: match now_ms t with Ret now => [StoreActivity now] | _ => [] end
  end.

(** [TrafficShaper::decoy], 405-422: one recording, after both draws. *)
Definition decoy_at {G} {R : Rng G} (sh : shaper G) (t : clock) : outcome (option payload) * shaper G * list N :=
  match decoy_strategy (sh_config sh) with
  | Disabled => (Returned None, sh, [])
  | Random =>
    let '(p, g) := gen_range 0 99 (sh_rng sh) in
    if p <? 85 then (Returned None, Shaper (sh_config sh) g, [])
    else
      let '(d, size, g) := zero_decoy g in
      (match now_ms t with Ret _ => Returned (Some d) | _ => Unwound end, Shaper (sh_config sh) g, [size])
  end.

Section WithEnv.
Context {E : Env} {G : Type} {R : Rng G}.

(** [TrafficShaper::pad], 438-453: the payload is recorded first (442), then the decoy is drawn (447), then recorded (448). *)
Definition pad_at (sh : shaper G) (pl : payload) (t1 t2 : clock) : outcome (option payload) * shaper G * list N :=
  match payload_contents pl with
  | Ret contents =>
    match now_ms t1 with
    | Ret _ =>
      match padding_strategy (sh_config sh) with
      | Disabled => (Returned None, sh, [len contents])
      | Random =>
        let '(d, size, g) := zero_decoy (sh_rng sh) in
        (match now_ms t2 with Ret _ => Returned (Some d) | _ => Unwound end, Shaper (sh_config sh) g, [len contents; size])
      end
    | _ => (Unwound, sh, [len contents])
    end
  | _ => (Unwound, sh, [])
  end.

(** ** traffic/src/io.rs *)

(** The moves of TrafficIo.v with the two readings of the clock: [write], 184-193, and [decoy_thread], 210-233. *)
Definition do_clocked (s : @shared G) (c : move * (clock * clock)) : option shared :=
  let '(m, (t1, t2)) := c in
  match m, app_at s, thread_at s with
  | App, AppPad pl, _ =>
    Some match pad_at (st_shaper s) pl t1 t2 with
         | (Returned (Some d), sh, recs) => set_app (set_shaper s sh recs) (AppWritePad d pl)
         | (Returned None, sh, recs) => set_app (set_shaper s sh recs) (AppWrite pl)
         | (Unwound, sh, recs) => set_app (poison (set_shaper s sh recs)) AppPanicked
         end
  | Thread, _, ThDecoy =>
    Some match decoy_at (st_shaper s) t1 with
         | (Returned (Some d), sh, recs) => set_thread (set_shaper s sh recs) (ThWrite d)
         | (Returned None, sh, recs) => set_thread (set_lock (set_shaper s sh recs) Free) ThCheck
         | (Unwound, sh, recs) => set_thread (poison (set_shaper s sh recs)) ThPanicked
         end
  | _, _, _ => do_move s m
  end.

(** traffic/src/io.rs:185-233. *)
Fixpoint play_clocked (s : @shared G) (cs : list (move * (clock * clock))) : option shared :=
  match cs with
  | [] => Some s
  | c :: cs => match do_clocked s c with Some s' => play_clocked s' cs | None => None end
  end.

(** [ShapedProtocolReader::read], 172-177: the packet has been read when the clock is. *)
Definition shaped_read_at (r : sync_reader) (t : clock) : run (outcome (result perror payload) * sync_reader * list N) :=
  let! (x, r, _) := sync_read r in
  match x with
  | Err e => Ret (Returned (Err e), r, [])
  | Ok p =>
    let! contents := payload_contents p in
    Ret (match now_ms t with Ret _ => Returned (Ok p) | _ => Unwound end, r, [len contents])
  end.

(** ** traffic/src/futures.rs *)

(** A panic in [pad] or [decoy] ends the task; the channel is dropped with it.  traffic/src/futures.rs:222, 241. *)
Definition unwind (t : @task G) (sh : shaper G) (recs : list N) : task :=
  Task (tk_writer t) sh [] (senders t) (sel t) false (tk_records t ++ recs) (answers t).

(** 218-235. *)
Definition handle_at (t : @task G) (cmd : command) (q : list command) (t1 t2 : clock) : task :=
  match pad_at (tk_shaper t) (cmd_payload cmd) t1 t2 with
  | (Unwound, sh, recs) => unwind t sh recs
  | (Returned d, sh, recs) =>
    match match d with Some d => tokio_write (tk_writer t) d | None => Ret (Ok tt, tk_writer t) end with
    | Ret (Err e, w) => turn t w sh q recs [(cmd_id cmd, Err e)]
    | Ret (Ok _, w) =>
      match tokio_write w (cmd_payload cmd) with
      | Ret (x, w) => turn t w sh q recs [(cmd_id cmd, x)]
      | _ => stop t w
      end
    | _ => stop t (tk_writer t)
    end
  end.

(** 240-244. *)
Definition tick_at (t : @task G) (t1 : clock) : task :=
  match decoy_at (tk_shaper t) t1 with
  | (Unwound, sh, recs) => unwind t sh recs
  | (Returned None, sh, recs) => turn t (tk_writer t) sh (queue t) recs []
  | (Returned (Some d), sh, recs) =>
    match tokio_write (tk_writer t) d with
    | Ret (_, w) => turn t w sh (queue t) recs []
    | _ => stop t (tk_writer t)
    end
  end.

(** The events of TrafficFutures.v with the two readings of the clock.  traffic/src/futures.rs:203-250. *)
Definition task_step_at (t : @task G) (e : event * (clock * clock)) : task :=
  let '(e, (t1, t2)) := e in
  match e with
  | Poll tick_first elapsed =>
    if running t then
      match select (order_of tick_first) (sel t) [poll_recv t; poll_tick elapsed] with
      | Taken O => match queue t with cmd :: q => handle_at t cmd q t1 t2 | [] => t end
      | Taken _ => tick_at t t1
      | Else => stop t (tk_writer t)
      | Wait d => Task (tk_writer t) (tk_shaper t) (queue t) (senders t) d true (tk_records t) (answers t)
      end
    else t
  | _ => task_step t e
  end.

(** traffic/src/futures.rs:203-250. *)
Definition task_run_at (t : @task G) (es : list (event * (clock * clock))) : task := fold_left task_step_at es t.

(** [ShapedProtocolReader::read], 162-167. *)
Definition tokio_shaped_read_at (r : tokio_reader) (t : clock) : run (outcome (result perror payload) * tokio_reader * list N) :=
  let! (x, r) := tokio_read r in
  match x with
  | Err e => Ret (Returned (Err e), r, [])
  | Ok p =>
    let! contents := payload_contents p in
    Ret (match now_ms t with Ret _ => Returned (Ok p) | _ => Unwound end, r, [len contents])
  end.

(** ** [ShapedProtocol::new] *)

(** The loop of [TrafficShaper::handshake], traffic/src/lib.rs:379-385: each decoy is drawn, then recorded (384).  [t i] is the [i]-th reading of the clock since [new] was called. *)
Fixpoint decoys_at (n : nat) (g : G) (t : nat -> clock) (i : nat) : outcome (list bytes * G) * list N :=
  match n with
  | O => (Returned ([], g), [])
  | S n =>
    let '(contents, g) := random_vec 1 MAX_DECOY_SIZE_BYTES g in
    match now_ms (t i) with
    | Ret _ =>
      match decoys_at n g t (S i) with
      | (Returned (rest, g), recs) => (Returned (contents :: rest, g), len contents :: recs)
      | (Unwound, recs) => (Unwound, len contents :: recs)
      end
    | _ => (Unwound, [len contents])
    end
  end.

(** [TrafficShaper::handshake], traffic/src/lib.rs:359-393: garbage is drawn, then recorded (369), then the decoys. *)
Definition handshake_at (sh : shaper G) (t : nat -> clock) (i : nat)
  : outcome (option bytes * option (list bytes) * shaper G) * list N :=
  let '(x, rec1) :=
    match padding_strategy (sh_config sh) with
    | Disabled => (Returned (None, sh_rng sh), [])
    | Random =>
      let '(garbage, g) := random_vec 0 MAX_NUM_GARBAGE_BYTES (sh_rng sh) in
      (match now_ms (t i) with Ret _ => Returned (Some garbage, g) | _ => Unwound end, [len garbage])
    end in
  match x with
  | Unwound => (Unwound, rec1)
  | Returned (garbage, g) =>
    match decoy_strategy (sh_config sh) with
    | Disabled => (Returned (garbage, None, Shaper (sh_config sh) g), rec1)
    | Random =>
      let '(num_decoys, g) := gen_range 0 3 g in
      match decoys_at (N.to_nat num_decoys) g t (length rec1 + i) with
      | (Returned (decoys, g), rec2) => (Returned (garbage, Some decoys, Shaper (sh_config sh) g), rec1 ++ rec2)
      | (Unwound, rec2) => (Unwound, rec1 ++ rec2)
      end
    end
  end.

(** [ShapedProtocol::new], traffic/src/io.rs:110-150: the statistics are made (117) and the shaper records (119) before
    [Protocol::new] (121).  [None]: panics before it, reader and writer unused. *)
Definition shaped_new_at (magic : bytes) (r : role) (rnd : bytes) (c : config) (g : G) (t : nat -> clock) (s : script) (w : writer)
  : option (run (result perror (sync_reader * shared))) :=
  match now_ms (t O) with
  | Ret _ =>
    match handshake_at (Shaper c g) t 1 with
    | (Unwound, _) => None
    | (Returned (garbage, decoys, sh), recs) =>
      Some (let! x := protocol_new magic r rnd garbage decoys s w in
            match x with
            | Err e => Ret (Err e)
            | Ok p => let '(rd, wr) := protocol_split p in Ret (Ok (rd, shared_new wr sh recs))
            end)
    end
  | _ => None
  end.
(** [ShapedProtocol::new], traffic/src/futures.rs:108-139: 119, 121, 123. *)
Definition tokio_shaped_new_at (magic : bytes) (r : role) (rnd : bytes) (c : config) (g : G) (t : nat -> clock) (s : script) (w : writer)
  : option (run (result perror (tokio_reader * task))) :=
  match now_ms (t O) with
  | Ret _ =>
    match handshake_at (Shaper c g) t 1 with
    | (Unwound, _) => None
    | (Returned (garbage, decoys, sh), recs) =>
      Some (let! x := tokio_protocol_new magic r rnd garbage decoys s w in
            match x with
            | Err e => Ret (Err e)
            | Ok p => Ret (Ok (t_reader p, task_new (t_writer p) sh recs))
            end)
    end
  | _ => None
  end.

End WithEnv.
