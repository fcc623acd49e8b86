(** * ClockedTask: the writer task of traffic/src/futures.rs with its awaits and its clock

    TrafficTask.v has the awaits inside the branches without the clock, Clocked.v the clock without the awaits; here both.
    The clock is read by [pad] (222) and [decoy] (241) only, before the first await of their branch. *)
From Coq Require Import List NArith Bool.
From Coq.Strings Require Import Byte.
From Verif Require Import Base Env FsChacha Cipher Handshake Transport Io Futures Traffic TrafficFutures TrafficTask Clocked.
Import ListNotations.
Local Open Scope N_scope.

Section WithEnv.
Context {E : Env} {G : Type} {R : Rng G}.

(** 218-237, with the readings of the clock in [pad] (222). *)
Definition split_handle_at (t : @task G) (cmd : command) (q : list command) (t1 t2 : clock) : split_task :=
  match pad_at (tk_shaper t) (cmd_payload cmd) t1 t2 with
  | (Unwound, sh, recs) => SplitTask (unwind t sh recs) AtSelect
  | (Returned d, sh, recs) =>
    let t := Task (tk_writer t) sh q (senders t) (sel t) (running t) (tk_records t ++ recs) (answers t) in
    match d with
    | None => write_payload t cmd
    | Some d =>
      match begin_write (tk_writer t) d with
      | Ret r => pad_wrote t cmd r
      | _ => branch_panic t
      end
    end
  end.

(** 241-244, with the reading of the clock in [decoy] (241). *)
Definition split_tick_at (t : @task G) (t1 : clock) : split_task :=
  match decoy_at (tk_shaper t) t1 with
  | (Unwound, sh, recs) => SplitTask (unwind t sh recs) AtSelect
  | (Returned d, sh, recs) =>
    let t := Task (tk_writer t) sh (queue t) (senders t) (sel t) (running t) (tk_records t ++ recs) (answers t) in
    match d with
    | None => branch_end t (tk_writer t) []
    | Some d =>
      match begin_write (tk_writer t) d with
      | Ret r => decoy_wrote t r
      | _ => branch_panic t
      end
    end
  end.

(** One poll of the task, from the await it stands at to the next one, with what the clock says meanwhile.  215-250. *)
Definition split_poll_at (order : list nat) (elapsed : bool) (t1 t2 : clock) (s : split_task) : split_task :=
  let t := sp_task s in
  if running t then
    match sp_place s with
    | AtSelect =>
      match select order (sel t) [poll_recv t; poll_tick elapsed] with
      | Taken O => match queue t with cmd :: q => split_handle_at t cmd q t1 t2 | [] => s end
      | Taken _ => split_tick_at t t1
      | Else => SplitTask (stop t (tk_writer t)) AtSelect
      | Wait d =>
        SplitTask (Task (tk_writer t) (tk_shaper t) (queue t) (senders t) d true (tk_records t) (answers t)) AtSelect
      end
    | InPad f cmd => pad_wrote t cmd (go_on f (tk_writer t))
    | InPayload f cmd => payload_wrote t cmd (go_on f (tk_writer t))
    | InDecoy f => decoy_wrote t (go_on f (tk_writer t))
    end
  else s.

(** 203-250: one event, with the two readings of the clock. *)
Definition split_step_at (s : split_task) (e : split_event * (clock * clock)) : split_task :=
  let '(e, (t1, t2)) := e in
  match e with
  | Ev (Poll tick_first elapsed) => split_poll_at (order_of tick_first) elapsed t1 t2 s
  | Ev e => SplitTask (task_step (sp_task s) e) (sp_place s)
  | Abandon _ => s
  end.

(** 203-250. *)
Definition split_run_at (s : split_task) (es : list (split_event * (clock * clock))) : split_task := fold_left split_step_at es s.

End WithEnv.
