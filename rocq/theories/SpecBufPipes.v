(** * SpecBufPipes: two endpoints with [BufWriter]s, joined by two pipes of bounded capacity *)
From Coq Require Import List NArith Bool.
From Coq.Strings Require Import Byte.
From Verif Require Import Base Env Cipher Handshake Transport Io HsSteps SpecPipes Outgoing SpecBufPair.
Import ListNotations.
Local Open Scope N_scope.

Section WithEnv.
Context {E : Env}.

(** One operation of an endpoint whose [BufWriter] of [size] bytes holds [held], that finds [inc] in its incoming pipe and
    [room] free bytes in its outgoing pipe.  In one call the pipe takes some bytes, [ms] at a time, and then is not ready.
    Operations for which the [BufWriter] is not ready and nothing leaves are left out. *)
Inductive buf_turn (fl : flavor) (d : option (list bytes)) (size : N) (p : place) (held inc : bytes) (room : N)
  : place -> bytes -> bytes -> bytes -> Prop :=
| buf_read m p' s' w' :
    wants_input p = true -> 1 <= m <= len inc ->
    hs_step fl d p [Chunk (take m inc)] (Writer [] [] []) = Ret (p', s', w') ->
    buf_turn fl d size p held inc room p' held (unread s' ++ drop m inc) []
| buf_other ms p' s' b' :
    wants_input p = false -> is_over p = false -> Forall (fun m => 1 <= m) ms ->
    any_wstep buf_writer (buf_write fl) (buf_flush fl) fl d p []
      (BufWriter size held (Writer (map Accept ms ++ [WPending]) [] [])) = Ret (p', s', b') ->
    len (written (bw_inner b')) <= room ->
    held_up buf_writer (buf_write fl) (buf_flush fl) p (BufWriter size held (Writer (map Accept ms ++ [WPending]) [] [])) = false \/
      written (bw_inner b') <> [] ->
    buf_turn fl d size p held inc room p' (bw_buffer b') inc (written (bw_inner b')).

(** Where the two are, what their [BufWriter]s hold, and what is in the pipes. *)
Record buf_pipes := BufPipes { buf_a : place; held_a : bytes; buf_b : place; held_b : bytes; pipe_ab : bytes; pipe_ba : bytes }.

Section Joined.
Variables (fla flb : flavor) (da db : option (list bytes)) (sizea sizeb capacity : N).

Inductive buf_step : buf_pipes -> buf_pipes -> Prop :=
| buf_step_a p h q g ab ba p' h' ba' out :
    buf_turn fla da sizea p h ba (capacity - len ab) p' h' ba' out ->
    buf_step (BufPipes p h q g ab ba) (BufPipes p' h' q g (ab ++ out) ba')
| buf_step_b p h q g ab ba q' g' ab' out :
    buf_turn flb db sizeb q g ab (capacity - len ba) q' g' ab' out ->
    buf_step (BufPipes p h q g ab ba) (BufPipes p h q' g' ab' (ba ++ out)).

Inductive buf_run : nat -> buf_pipes -> buf_pipes -> Prop :=
| buf_start x : buf_run 0 x x
| buf_more n x y z : buf_run n x y -> buf_step y z -> buf_run (S n) x z.

(** Neither endpoint can do anything. *)
Definition buf_stopped (x : buf_pipes) : Prop := forall y, ~ buf_step x y.
End Joined.
End WithEnv.
