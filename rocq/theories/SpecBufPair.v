(** * SpecBufPair: two endpoints whose writers may hold bytes back, joined by a transport that keeps what it is sent *)
From Coq Require Import List NArith Bool.
From Coq.Strings Require Import Byte.
From Verif Require Import Base Env Cipher Handshake Transport Io HsSteps SpecPipes Outgoing.
Import ListNotations.
Local Open Scope N_scope.

(** A writer in the states [fit] never fails and, given bytes, takes one at least or is not ready. *)
Definition obliging {St : Type} (wr : St -> bytes -> option (result io_kind N) * St) (fsh : St -> option (result io_kind unit) * St)
    (fit : St -> Prop) : Prop :=
  (forall st bs o st', fit st -> bs <> [] -> wr st bs = (o, st') ->
    fit st' /\ match o with None => True | Some (Ok n) => 0 < n | Some (Err _) => False end) /\
  (forall st o st', fit st -> fsh st = (o, st') -> fit st' /\ match o with Some (Err _) => False | _ => True end).

(** Scripted events of this kind. *)
Definition takes_some (e : wev) : Prop := match e with Accept n => 0 < n | WPending => True | WFail _ => False end.
Definition flushes_some (e : fev) : Prop := match e with FlushFail _ => False | _ => True end.
Definition well_behaved (w : writer) : Prop := Forall takes_some (w_script w) /\ Forall flushes_some (flushes w).

Section WithEnv.
Context {E : Env}.

Section Side.
Variables (St : Type) (wr : St -> bytes -> option (result io_kind N) * St) (fsh : St -> option (result io_kind unit) * St).
Variables (sent : St -> bytes) (fl : flavor) (d : option (list bytes)).

(** The writer is not ready for the operation at this place. *)
Definition held_up (p : place) (st : St) : bool :=
  match p with
  | SendingKey rest _ | SendingVersion rest _ => match wr st rest with (None, _) => true | _ => false end
  | FlushingKey _ | FlushingVersion _ => match fsh st with (None, _) => true | _ => false end
  | _ => false
  end.

(** One operation of an endpoint that finds [inc]: a [read] gets some of it, any other operation may send something. *)
Inductive operation (p : place) (st : St) (inc : bytes) : place -> St -> bytes -> bytes -> Prop :=
| op_read m p' s' st' :
    wants_input p = true -> 1 <= m <= len inc ->
    any_wstep St wr fsh fl d p [Chunk (take m inc)] st = Ret (p', s', st') ->
    operation p st inc p' st' (unread s' ++ drop m inc) []
| op_other p' s' st' out :
    wants_input p = false -> is_over p = false ->
    any_wstep St wr fsh fl d p [] st = Ret (p', s', st') -> sent st' = sent st ++ out ->
    operation p st inc p' st' inc out.
End Side.

Section Pair.
Variables (A : Type) (wra : A -> bytes -> option (result io_kind N) * A) (fsha : A -> option (result io_kind unit) * A) (senta : A -> bytes).
Variables (B : Type) (wrb : B -> bytes -> option (result io_kind N) * B) (fshb : B -> option (result io_kind unit) * B) (sentb : B -> bytes).
Variables (fla flb : flavor) (da db : option (list bytes)).

(** Where the two are, their writers, and what is sent and not yet read. *)
Record pair := Pair { at_a : place; out_a : A; at_b : place; out_b : B; to_b : bytes; to_a : bytes }.

(** An operation; the number is 0 if the writer was not ready for it, and 1 otherwise. *)
Inductive pair_step : nat -> pair -> pair -> Prop :=
| pair_a p st q u ab ba p' st' ba' out :
    operation A wra fsha senta fla da p st ba p' st' ba' out ->
    pair_step (if held_up A wra fsha p st then 0 else 1) (Pair p st q u ab ba) (Pair p' st' q u (ab ++ out) ba')
| pair_b p st q u ab ba q' u' ab' out :
    operation B wrb fshb sentb flb db q u ab q' u' ab' out ->
    pair_step (if held_up B wrb fshb q u then 0 else 1) (Pair p st q u ab ba) (Pair p st q' u' ab' (ba ++ out)).

Inductive pair_run : nat -> pair -> pair -> Prop :=
| pair_start x : pair_run 0 x x
| pair_more n k x y z : pair_run n x y -> pair_step k y z -> pair_run (k + n) x z.

(** Neither endpoint can do anything. *)
Definition at_rest (x : pair) : Prop := forall k y, ~ pair_step k x y.
End Pair.
End WithEnv.
