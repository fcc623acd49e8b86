(** * SpecFlow: one direction of two blocking shaped endpoints, the peer reading in a thread of its own

    Behind [into_split] the two halves of an endpoint share nothing but the statistics, so that with a reading thread
    on either side the two directions do not depend on each other.  One of them: the writing half with its decoy
    thread, a pipe of bounded capacity, and the peer's reading half, whose thread does nothing but [read]. *)
From Coq Require Import List NArith Bool.
From Coq.Strings Require Import Byte.
From Verif Require Import Base Env Cipher Transport Io SpecIo Sessions Traffic TrafficIo SpecTraffic HsSteps SpecDuplex.
Import ListNotations.
Local Open Scope N_scope.

Section WithEnv.
Context {E : Env} {G : Type} {R : Rng G}.

(** The writing half; how many bytes of the write in progress are in the pipe; the pipe; the peer's reading half, the
    bytes the read in progress has taken from the pipe, and what the reads returned. *)
Record flow := Flow {
  fl_shared : @shared G;
  fl_sent : N;
  fl_pipe : bytes;
  fl_reader : sync_reader;
  fl_got : bytes;
  fl_heard : list (result perror payload)
}.

Section Joined.
Variable capacity : N.

(** What the three threads do on their own, as in [SpecDuplex.operates]. *)
Inductive flow_goes : flow -> flow -> Prop :=
| flow_moves m s s' n p r got heard :
    m = App \/ m = Thread -> do_move s m = Some s' -> output s' = output s ->
    flow_goes (Flow s n p r got heard) (Flow s' n p r got heard)
| flow_puts m s s' out k n p r got heard :
    m = App \/ m = Thread -> do_move s m = Some s' -> output s' = output s ++ out ->
    1 <= k -> len p + k <= capacity -> n + k < len out ->
    flow_goes (Flow s n p r got heard) (Flow s (n + k) (p ++ take k (drop n out)) r got heard)
| flow_puts_last m s s' out n p r got heard :
    m = App \/ m = Thread -> do_move s m = Some s' -> output s' = output s ++ out ->
    n < len out -> len p + (len out - n) <= capacity ->
    flow_goes (Flow s n p r got heard) (Flow s' 0 (p ++ drop n out) r got heard)
| flow_takes s n b p r got heard r' a :
    sync_read (offer r got) = Ret (Err eof, r', a) ->
    flow_goes (Flow s n (b :: p) r got heard) (Flow s n p r (got ++ [b]) heard)
| flow_returns s n p r got heard x r' a :
    sync_read (offer r got) = Ret (x, r', a) -> x <> Err eof ->
    flow_goes (Flow s n p r got heard)
      (Flow s n p r' (fst (flatten Sync (session_inner (sr_reader r')))) (heard ++ [x])).

(** They go on, or the application calls [write], with something a reader accepts, or [drop]. *)
Inductive flow_step : flow -> flow -> Prop :=
| flow_on st st' : flow_goes st st' -> flow_step st st'
| flow_write pl s s' n p r got heard :
    do_move s (CallWrite pl) = Some s' -> sound_payload pl -> size_of pl + 1 <= 4000014 ->
    flow_step (Flow s n p r got heard) (Flow s' n p r got heard)
| flow_drop s s' n p r got heard :
    do_move s CallDrop = Some s' -> flow_step (Flow s n p r got heard) (Flow s' n p r got heard).

Inductive flow_run (step : flow -> flow -> Prop) : flow -> flow -> Prop :=
| flow_here st : flow_run step st st
| flow_more st st1 st2 : step st st1 -> flow_run step st1 st2 -> flow_run step st st2.
End Joined.

(** After the handshake. *)
Definition flow_new (out : cipher) (sh : shaper G) (recs : list N) (r : sync_reader) : flow :=
  Flow (shared_new (PWriter out (Writer [] [] [])) sh recs) 0 [] r [] [].

End WithEnv.
