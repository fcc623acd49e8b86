(** * SpecAwait: asynchronous shaped endpoints over pipes of bounded capacity

    The counterpart of SpecDuplex and SpecFlow for traffic/src/futures.rs: the writer is a task, and [write] sends it a
    command and awaits the answer. *)
From Coq Require Import List NArith Bool.
From Coq.Strings Require Import Byte.
From Verif Require Import Base Env Cipher Transport Io Futures SpecIo Sessions Traffic TrafficFutures TrafficTask
  SpecTraffic HsSteps SpecDuplex.
Import ListNotations.
Local Open Scope N_scope.

Section WithEnv.
Context {E : Env} {G : Type} {R : Rng G}.

Definition with_script (s : @split_task G) (l : list wev) : split_task :=
  let p := tk_writer (sp_task s) in
  SplitTask (with_writer (sp_task s) (PWriter (pw_cipher p) (Writer l (flushes (pw_writer p)) (written (pw_writer p)))))
    (sp_place s).

(** The task polled while its pipe has [room] free bytes: byte by byte the pipe takes as many, and then is not ready. *)
Definition polled (room : N) (tick_first elapsed : bool) (s : split_task) : split_task :=
  with_script
    (split_step (with_script s (repeat (Accept 1) (N.to_nat room) ++ [WPending])) (Ev (Poll tick_first elapsed))) [].

(** Everything the transport has been given. *)
Definition put_out (s : @split_task G) : bytes := written (pw_writer (tk_writer (sp_task s))).

(** ** One direction, and a peer that takes what is in the pipe *)

(** The task; the commands the channel took; the pipe, and what the peer has taken from it. *)
Record current := Current {
  cu_task : @split_task G;
  cu_sent : list command;
  cu_pipe : bytes;
  cu_taken : bytes
}.

Section Joined.
Variable capacity : N.

(** What goes on without the callers of [write]. *)
Inductive current_goes : current -> current -> Prop :=
| current_poll tick_first elapsed s s' sent p out taken :
    polled (capacity - len p) tick_first elapsed s = s' -> put_out s' = put_out s ++ out ->
    current_goes (Current s sent p taken) (Current s' sent (p ++ out) taken)
| current_take s sent b p taken :
    current_goes (Current s sent (b :: p) taken) (Current s sent p (taken ++ [b])).

(** Callers: a command is sent, with something any reader accepts; the last sender is dropped.  A caller that gives up changes nothing
    ([TrafficTask.Abandon]). *)
Inductive current_step : current -> current -> Prop :=
| current_on st st' : current_goes st st' -> current_step st st'
| current_send c s sent p taken :
    senders (sp_task s) = true -> sound_payload (cmd_payload c) -> size_of (cmd_payload c) + 1 <= 4000014 ->
    current_step (Current s sent p taken) (Current (split_step s (Ev (Send c))) (sent ++ [c]) p taken)
| current_close s sent p taken :
    current_step (Current s sent p taken) (Current (split_step s (Ev DropSenders)) sent p taken).

Inductive current_run (step : current -> current -> Prop) : current -> current -> Prop :=
| current_here st : current_run step st st
| current_more st st1 st2 : step st st1 -> current_run step st1 st2 -> current_run step st st2.
End Joined.

(** After the handshake. *)
Definition current_new (out : cipher) (sh : shaper G) (recs : list N) : current :=
  Current (split_new (PWriter out (Writer [] [] [])) sh recs) [] [] [].

(** ** Two endpoints, on either side one task of the application *)

(** The writing half; how often [write] was called, which numbers the commands; whether the last call is being awaited;
    the reading half and the [read] in progress; what the application is going to do, what its calls returned. *)
Record party := Party {
  pa_task : @split_task G;
  pa_calls : N;
  pa_waits : bool;
  pa_reader : tokio_reader;
  pa_reading : read_future;
  pa_todo : list act;
  pa_said : list (result perror unit);
  pa_heard : list (result perror payload)
}.

(** The reader, with these bytes to be had from the transport, which is not ready then. *)
Definition hold_out (r : tokio_reader) (bs : bytes) : tokio_reader :=
  TReader (tr_cipher r) (set_inner (tr_reader r) (match bs with [] => [] | _ => [Chunk bs] end ++ [Pending])) (tr_state r).

(** The bytes have been used. *)
Definition used_up (r : tokio_reader) : Prop := fst (flatten Tokio (session_inner (tr_reader r))) = [].

(** As [SpecDuplex.operates]. *)
Inductive acts (inc : bytes) (room : N) : party -> party -> bytes -> bytes -> Prop :=
| task_polled tick_first elapsed s s' n w r f todo said heard out :
    polled room tick_first elapsed s = s' -> put_out s' = put_out s ++ out ->
    acts inc room (Party s n w r f todo said heard) (Party s' n w r f todo said heard) inc out
| write_called pl s n r todo said heard :
    acts inc room (Party s n false r FreshFuture (Say pl :: todo) said heard)
      (Party (split_step s (Ev (Send (Command n pl)))) (n + 1) true r FreshFuture (Say pl :: todo) said heard) inc []
| write_returned x pl s n r f todo said heard :
    answer_to (sp_task s) (n - 1) = Some x ->
    acts inc room (Party s n true r f (Say pl :: todo) said heard) (Party s n false r f todo (said ++ [x]) heard) inc []
| read_waits bs inc' s n r f todo said heard r' f' :
    inc = bs ++ inc' -> poll_read f (hold_out r bs) = Ret (NotReady, r', f') -> used_up r' ->
    acts inc room (Party s n false r f (Hear :: todo) said heard) (Party s n false r' f' (Hear :: todo) said heard) inc' []
| read_returned bs inc' s n r f todo said heard x r' f' :
    inc = bs ++ inc' -> poll_read f (hold_out r bs) = Ret (Ready x, r', f') -> used_up r' ->
    acts inc room (Party s n false r f (Hear :: todo) said heard) (Party s n false r' f' todo said (heard ++ [x])) inc' [].

Record meeting := Meeting { one : party; other : party; to_other : bytes; to_one : bytes }.

Section Met.
Variable capacity : N.

Inductive meeting_step : meeting -> meeting -> Prop :=
| one_acts a a' b lr rl rl' out :
    acts rl (capacity - len lr) a a' rl' out ->
    meeting_step (Meeting a b lr rl) (Meeting a' b (lr ++ out) rl')
| other_acts a b b' lr rl lr' out :
    acts lr (capacity - len rl) b b' lr' out ->
    meeting_step (Meeting a b lr rl) (Meeting a b' lr' (rl ++ out)).

Inductive meeting_run : meeting -> meeting -> Prop :=
| meeting_here st : meeting_run st st
| meeting_more st st1 st2 : meeting_step st st1 -> meeting_run st1 st2 -> meeting_run st st2.

(** Whatever is polled, nothing changes any more. *)
Definition stalled (st : meeting) : Prop := forall st', meeting_step st st' -> st' = st.
End Met.

(** After the handshake. *)
Definition party_new (out : cipher) (sh : shaper G) (recs : list N) (r : tokio_reader) (todo : list act) : party :=
  Party (split_new (PWriter out (Writer [] [] [])) sh recs) 0 false r FreshFuture todo [] [].

(** No call is in progress, the task is at its [select!] with nothing to do, and the commands so far have the numbers below
    [pa_calls]. *)
Definition at_ease (d : party) : Prop :=
  let t := sp_task (pa_task d) in
  sp_place (pa_task d) = AtSelect /\ running t = true /\ senders t = true /\ queue t = [] /\ sel t = [false; false] /\
  w_script (pw_writer (tk_writer t)) = [] /\ flushes (pw_writer (tk_writer t)) = [] /\
  Forall (fun a => fst a < pa_calls d) (answers t) /\ pa_waits d = false /\ pa_reading d = FreshFuture.

(** The application is through. *)
Definition is_through (d : party) : Prop := pa_todo d = [].

End WithEnv.
