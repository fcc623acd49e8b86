(** * SpecTurns: tosses of a coin *)
From Coq Require Import List NArith Bool.
From Verif Require Import Base.
Import ListNotations.
Local Open Scope N_scope.

(** All outcomes of [n] tosses, each as likely as any other. *)
Fixpoint tosses (n : nat) : list (list bool) :=
  match n with
  | O => [[]]
  | S n => map (cons true) (tosses n) ++ map (cons false) (tosses n)
  end.

(** How many came down on this side. *)
Definition times (side : bool) (bs : list bool) : nat := length (filter (Bool.eqb side) bs).

(** The outcome begins with [j] times true and then false. *)
Fixpoint first_false_at (j : nat) (bs : list bool) : bool :=
  match j, bs with
  | O, false :: _ => true
  | S j, true :: bs => first_false_at j bs
  | _, _ => false
  end.
