(** * TrafficTask: the writer task of traffic/src/futures.rs with its awaits inside the branches

    TrafficFutures.v lets a branch of the [select!] run to its end in one poll.  Here the task can be suspended inside of a
    write, with commands arriving, senders going and the runtime dropping the task meanwhile. *)
From Coq Require Import List NArith Bool.
From Coq.Strings Require Import Byte.
From Verif Require Import Base Env FsChacha Cipher Handshake Transport Io Futures Traffic TrafficFutures.
Import ListNotations.
Local Open Scope N_scope.

(** The awaits of [writer_task]: the [select!] (216), the write of the padding (223), of the payload (230), of a decoy (243). *)
Inductive place := AtSelect | InPad (f : write_future) (cmd : command) | InPayload (f : write_future) (cmd : command)
| InDecoy (f : write_future).

(** How far one poll of [writer.write(..).await] gets.  223, 230, 243. *)
Inductive wrote := Blocked (f : write_future) | Done (x : result perror unit).

Section WithEnv.
Context {E : Env} {G : Type} {R : Rng G}.

(** The task, in which the effects so far of an unfinished branch are included.  203-250. *)
Record split_task := SplitTask { sp_task : @task G; sp_place : place }.

(** A poll of [writer.write(..).await], 223, 230, 243. *)
Definition go_on (f : write_future) (p : pwriter) : wrote * pwriter :=
  let '(x, p', f') := poll_write f p in (match x with Ready a => Done a | NotReady => Blocked f' end, p').

(** The first poll of it, 223, 230, 243. *)
Definition begin_write (p : pwriter) (pl : payload) : run (wrote * pwriter) :=
  let! (x, p') := start_write p pl in
  Ret match x with Err e => (Done (Err (Internal e)), p') | Ok f => go_on f p' end.

(** Record update of the task, traffic/src/futures.rs:203-251. *)
Definition with_writer (t : @task G) (w : pwriter) : task :=
  Task w (tk_shaper t) (queue t) (senders t) (sel t) (running t) (tk_records t) (answers t).

(** The end of a branch.  237, 245. *)
Definition branch_end (t : @task G) (w : pwriter) (ans : list (N * result perror unit)) : split_task :=
  SplitTask (turn t w (tk_shaper t) (queue t) [] ans) AtSelect.
(** A panic inside a branch ends the task.  223-243. *)
Definition branch_panic (t : @task G) : split_task := SplitTask (stop t (tk_writer t)) AtSelect.

(** 228-236. *)
Definition payload_wrote (t : @task G) (cmd : command) (r : wrote * pwriter) : split_task :=
  match r with
  | (Blocked f, w) => SplitTask (with_writer t w) (InPayload f cmd)
  | (Done x, w) => branch_end t w [(cmd_id cmd, x)]
  end.
(** 229-230. *)
Definition write_payload (t : @task G) (cmd : command) : split_task :=
  match begin_write (tk_writer t) (cmd_payload cmd) with
  | Ret r => payload_wrote t cmd r
  | _ => branch_panic t
  end.

(** 222-236, after the padding has got so far. *)
Definition pad_wrote (t : @task G) (cmd : command) (r : wrote * pwriter) : split_task :=
  match r with
  | (Blocked f, w) => SplitTask (with_writer t w) (InPad f cmd)
  | (Done (Err e), w) => branch_end t w [(cmd_id cmd, Err e)]
  | (Done (Ok _), w) => write_payload (with_writer t w) cmd
  end.

(** 218-237. *)
Definition split_handle (t : @task G) (cmd : command) (q : list command) : split_task :=
  match shaper_pad (tk_shaper t) (cmd_payload cmd) with
  | Ret (d, sh, recs) =>
    let t := Task (tk_writer t) sh q (senders t) (sel t) (running t) (tk_records t ++ recs) (answers t) in
    match d with
    | None => write_payload t cmd
    | Some d =>
      match begin_write (tk_writer t) d with
      | Ret r => pad_wrote t cmd r
      | _ => branch_panic t
      end
    end
  | _ => branch_panic t
  end.

(** 240-244. *)
Definition decoy_wrote (t : @task G) (r : wrote * pwriter) : split_task :=
  match r with
  | (Blocked f, w) => SplitTask (with_writer t w) (InDecoy f)
  | (Done _, w) => branch_end t w []
  end.
(** 241-244. *)
Definition split_tick (t : @task G) : split_task :=
  let '(d, sh, recs) := shaper_decoy (tk_shaper t) in
  let t := Task (tk_writer t) sh (queue t) (senders t) (sel t) (running t) (tk_records t ++ recs) (answers t) in
  match d with
  | None => branch_end t (tk_writer t) []
  | Some d =>
    match begin_write (tk_writer t) d with
    | Ret r => decoy_wrote t r
    | _ => branch_panic t
    end
  end.

(** One poll of the task, from the await it stands at to the next one.  215-250. *)
Definition split_poll (order : list nat) (elapsed : bool) (s : split_task) : split_task :=
  let t := sp_task s in
  if running t then
    match sp_place s with
    | AtSelect =>
      match select order (sel t) [poll_recv t; poll_tick elapsed] with
      | Taken O => match queue t with cmd :: q => split_handle t cmd q | [] => s end
      | Taken _ => split_tick t
      | Else => SplitTask (stop t (tk_writer t)) AtSelect
      | Wait d =>
        SplitTask (Task (tk_writer t) (tk_shaper t) (queue t) (senders t) d true (tk_records t) (answers t)) AtSelect
      end
    | InPad f cmd => pad_wrote t cmd (go_on f (tk_writer t))
    | InPayload f cmd => payload_wrote t cmd (go_on f (tk_writer t))
    | InDecoy f => decoy_wrote t (go_on f (tk_writer t))
    end
  else s.

(** What happens: as before, [Kill] now also inside a branch; or a caller drops its [write] future while it waits for the
    result (183-199), which only drops [result_rx]: the task's [send] of the result then fails and is ignored (236). *)
Inductive split_event := Ev (e : event) | Abandon (id : N).

(** 203-250: one event. *)
Definition split_step (s : split_task) (e : split_event) : split_task :=
  match e with
  | Ev (Poll tick_first elapsed) => split_poll (order_of tick_first) elapsed s
  | Ev e => SplitTask (task_step (sp_task s) e) (sp_place s)
  | Abandon _ => s
  end.

(** 203-250. *)
Definition split_run (s : split_task) (es : list split_event) : split_task := fold_left split_step es s.

(** 212-216, spawned in 128-130. *)
Definition split_new (w : pwriter) (sh : shaper G) (recs : list N) : split_task :=
  SplitTask (task_new w sh recs) AtSelect.

End WithEnv.
