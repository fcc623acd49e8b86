(** * SpecOutgoing: writers that may hold back what they took *)
From Coq Require Import List NArith Bool.
From Coq.Strings Require Import Byte.
From Verif Require Import Base Transport HsSteps.
Import ListNotations.
Local Open Scope N_scope.

(** What a writer takes is [sent] or [held] back, in order; what is sent stays sent; a [flush] that succeeds holds nothing back. *)
Definition holding {St : Type} (wr : St -> bytes -> option (result io_kind N) * St) (fsh : St -> option (result io_kind unit) * St)
    (sent held : St -> bytes) : Prop :=
  (forall st bs o st', wr st bs = (o, st') ->
    (exists more, sent st' = sent st ++ more) /\
    match o with
    | Some (Ok n) => n <= len bs /\ sent st' ++ held st' = sent st ++ held st ++ take n bs
    | _ => sent st' ++ held st' = sent st ++ held st
    end) /\
  (forall st o st', fsh st = (o, st') ->
    (exists more, sent st' = sent st ++ more) /\ sent st' ++ held st' = sent st ++ held st /\ (o = Some (Ok tt) -> held st' = [])).

(** An endpoint at this place reads, or is done with the handshake. *)
Definition listens {E : Env.Env} (p : place) : Prop :=
  match p with
  | ReadingKey _ _ | ReadingTerminator _ _ | ReadingGarbage _ _ | ReadingLength _ _ _ | ReadingPacket _ _ _ _ | Over (Ok _) => True
  | _ => False
  end.
