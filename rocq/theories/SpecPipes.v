(** * SpecPipes: two endpoints joined by two pipes of bounded capacity

    A pipe holds the bytes one endpoint has written and the other has not read.  A socket pair is two of them: the
    capacity of a direction is the sum of the send and the receive buffer. *)
From Coq Require Import List NArith Bool.
From Coq.Strings Require Import Byte.
From Verif Require Import Base Env Cipher Handshake Transport Io SpecIo HsSteps.
Import ListNotations.
Local Open Scope N_scope.

Section WithEnv.
Context {E : Env}.

(** The operation at this place is a [write]. *)
Definition wants_output (p : place) : bool :=
  match p with SendingKey _ _ | SendingVersion _ _ => true | _ => false end.

(** The operation at this place is a [read] that has to be answered by the transport. *)
Definition wants_input (p : place) : bool :=
  match p with
  | ReadingKey _ _ | ReadingTerminator _ _ | ReadingGarbage _ _ => true
  | ReadingLength sr _ _ | ReadingPacket sr _ _ _ => match session_leftover sr with [] => true | _ => false end
  | _ => false
  end.

Definition is_over (p : place) : bool := match p with Over _ => true | _ => false end.

(** What is left of a script that is nothing but data. *)
Definition unread (s : script) : bytes := fst (flatten Tokio s).

(** One operation of an endpoint that finds [inc] in its incoming pipe and [room] free bytes in its outgoing pipe.  The
    pipe decides how many bytes it takes or offers, but at least one: with no room a [write] does not return, and with
    nothing to read a [read] does not. *)
Inductive turn (fl : flavor) (d : option (list bytes)) (p : place) (inc : bytes) (room : N)
  : place -> bytes -> bytes -> Prop :=
| turn_write m p' s' w' :
    wants_output p = true -> 1 <= m <= room ->
    hs_step fl d p [] (Writer [Accept m] [] []) = Ret (p', s', w') ->
    turn fl d p inc room p' inc (written w')
| turn_read m p' s' w' :
    wants_input p = true -> 1 <= m <= len inc ->
    hs_step fl d p [Chunk (take m inc)] (Writer [] [] []) = Ret (p', s', w') ->
    turn fl d p inc room p' (unread s' ++ drop m inc) []
| turn_local p' s' w' :
    wants_output p = false -> wants_input p = false -> is_over p = false ->
    hs_step fl d p [] (Writer [] [] []) = Ret (p', s', w') ->
    turn fl d p inc room p' inc [].

Record pipes := Pipes { side_a : place; side_b : place; a_to_b : bytes; b_to_a : bytes }.

Section Joined.
Variables (fla flb : flavor) (da db : option (list bytes)) (capacity : N).

Inductive pipe_step : pipes -> pipes -> Prop :=
| step_a p p' q ab ba ba' out :
    turn fla da p ba (capacity - len ab) p' ba' out ->
    pipe_step (Pipes p q ab ba) (Pipes p' q (ab ++ out) ba')
| step_b p q q' ab ba ab' out :
    turn flb db q ab (capacity - len ba) q' ab' out ->
    pipe_step (Pipes p q ab ba) (Pipes p q' ab' (ba ++ out)).

Inductive pipe_run : nat -> pipes -> pipes -> Prop :=
| run_start st : pipe_run 0 st st
| run_step n st st1 st2 : pipe_run n st st1 -> pipe_step st1 st2 -> pipe_run (S n) st st2.

(** Neither endpoint can do anything. *)
Definition stopped (st : pipes) : Prop := forall st', ~ pipe_step st st'.
End Joined.
End WithEnv.

(** Sizes with which two endpoints wait for each other.  [a1] is the number of bytes of one side before it reads, [a2] of
    those it sends after reading the 64 bytes of the other side's key, [b1] and [b2] are those of the other side. *)
Definition clogs (capacity a1 a2 b1 b2 : N) : Prop :=
  (capacity < a1 /\ capacity < b1) \/
  (capacity + 64 < a1 /\ capacity < b1 + b2) \/
  (capacity + 64 < b1 /\ capacity < a1 + a2) \/
  (capacity + 64 < a1 + a2 /\ capacity + 64 < b1 + b2).

(** Sizes of the two flights, from BIP 324: the key and the garbage; the terminator, the decoys and the version packet. *)
Definition flight1 (garbage : option bytes) : N := 64 + match garbage with Some g => len g | None => 0 end.
Definition flight2 (decoys : option (list bytes)) : N :=
  16 + fold_right (fun d n => len d + 20 + n) 20 (match decoys with Some ds => ds | None => [] end).
