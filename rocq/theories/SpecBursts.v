(** * SpecBursts: what somebody sees who watches the wire while it is written to *)
From Coq Require Import List NArith Bool.
From Coq.Strings Require Import Byte.
From Verif Require Import Base Env Transport Io Traffic SpecOutgoing SpecTraffic ShapedOut.
Import ListNotations.
Local Open Scope N_scope.

(** A writer that, from the states [fit], takes all it is given, and sends it at once or holds all of it until it is flushed. *)
Definition prompt {St : Type} (wr : St -> bytes -> option (result io_kind N) * St) (fsh : St -> option (result io_kind unit) * St)
    (sent held : St -> bytes) (fit : St -> Prop) : Prop :=
  holding wr fsh sent held /\
  (forall st bs, fit st -> held st = [] ->
    exists st', wr st bs = (Some (Ok (len bs)), st') /\ fit st' /\ (held st' = [] \/ held st' = bs)) /\
  (forall st, fit st -> exists st', fsh st = (Some (Ok tt), st') /\ fit st').

(** The steps by which a number that is looked at again and again goes up. *)
Fixpoint bursts (before : N) (looks : list N) : list N :=
  match looks with
  | [] => []
  | now :: looks => if now =? before then bursts before looks else (now - before) :: bursts now looks
  end.

(** The same with the times. *)
Fixpoint bursts_at (before : N) (looks : list (N * N)) : list (N * N) :=
  match looks with
  | [] => []
  | (at_, now) :: looks => if now =? before then bursts_at before looks else (at_, now - before) :: bursts_at now looks
  end.

(** The timer of the decoys, started at [start], runs out every 100 ms; some other time. *)
Definition off_grid (start at_ : N) : bool := negb ((at_ - start) mod 100 =? 0).

(** The second of each two. *)
Fixpoint every_other {A : Type} (l : list A) : list A :=
  match l with _ :: b :: l => b :: every_other l | _ => [] end.

(** What the application wrote. *)
Definition written_by (js : list work) : list payload := flat_map (fun j => match j with Writes pl => [pl] | Ticks => [] end) js.
Definition carried (bs : list block) : list payload :=
  flat_map (fun b => match b with Cover _ => [] | Padded _ pl => [pl] | Bare pl => [pl] end) bs.
