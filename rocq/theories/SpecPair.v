(** * SpecPair: two endpoints with an attacker between them *)
From Coq Require Import List NArith Bool.
From Coq.Strings Require Import Byte.
From Verif Require Import Base Env Cipher Histories Transport Io Futures Sessions SpecIntegrity.
Import ListNotations.
Local Open Scope N_scope.

Section WithEnv.
Context {E : Env}.

(** [xs] are the results of some reads: any number of calls, or any polls and cancellations of the
    asynchronous reader. *)
Definition reads (rd : any_reader) (xs : list (result perror payload)) : Prop :=
  (exists n rd', read_many n rd = Ret (xs, rd')) \/
  (exists t acts t' f, rd = RTokio t /\ run_schedule acts FreshFuture t = Ret (xs, t', f)).

(** Somewhere in [wire] there is a forgery for one of the first [hi] packets; its associated data are
    also in [wire]. *)
Definition forged_below (hi : N) (kP : bytes) (ms : list msg) (pkts : list bytes) (wire : bytes) : Prop :=
  exists i aad body, i < hi /\ occurs aad wire /\ occurs body wire /\ forgery kP ms pkts i aad body.

End WithEnv.

(** [a] is the beginning of [b]. *)
Definition prefix_of {A} (a b : list A) : Prop := exists rest, b = a ++ rest.

(** Of the payloads given to a shaped writer, those that have been encrypted: all whose write succeeded,
    and some of the others. *)
Inductive encrypted : list payload -> list (result perror unit) -> list payload -> Prop :=
| encrypted_nil : encrypted [] [] []
| encrypted_yes pl pls x xs qs : encrypted pls xs qs -> encrypted (pl :: pls) (x :: xs) (pl :: qs)
| encrypted_no pl pls e xs qs : encrypted pls xs qs -> encrypted (pl :: pls) (Err e :: xs) qs.
