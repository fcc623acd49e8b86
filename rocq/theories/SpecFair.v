(** * SpecFair: infinite executions of the blocking shaped writer, and what it means to schedule them fairly *)
From Coq Require Import List NArith Bool.
From Verif Require Import Base Env Handshake Transport Io Futures Traffic TrafficIo TrafficFutures SpecTraffic.
Import ListNotations.

Section Fair.
Context {E : Env} {G : Type} {R : Rng G}.

(** At every instant somebody moves or nobody does. *)
Record execution := Execution { at_time : nat -> @shared G; moved : nat -> option move }.

Definition executes (x : execution) : Prop :=
  forall i, match moved x i with
            | Some m => do_move (at_time x i) m = Some (at_time x (S i))
            | None => at_time x (S i) = at_time x i
            end.

Definition blocked (s : @shared G) (m : move) : Prop := do_move s m = None.

(** Again and again the move is made, or it is blocked. *)
Definition weakly_fair (x : execution) (m : move) : Prop :=
  forall i, exists k, (i <= k)%nat /\ (moved x k = Some m \/ blocked (at_time x k) m).

(** Again and again the move is made, or it is blocked for ever after. *)
Definition strongly_fair (x : execution) (m : move) : Prop :=
  forall i, exists k, (i <= k)%nat /\ (moved x k = Some m \/ forall j, (k <= j)%nat -> blocked (at_time x j) m).

(** The events of the asynchronous writer task before an instant. *)
Definition before (es : nat -> event) (i : nat) : list event := map es (seq 0 i).

(** Again and again the task is polled when its timer has not elapsed, or [select!] looks at the channel first. *)
Definition fairly_polled (es : nat -> event) : Prop :=
  forall i, exists k tick_first elapsed,
    (i <= k)%nat /\ es k = Poll tick_first elapsed /\ tick_first && elapsed = false.

End Fair.
