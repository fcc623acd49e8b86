(** * SpecObserver: somebody who counts bytes and guesses what was sent *)
From Coq Require Import List NArith Bool.
From Verif Require Import Base.
Import ListNotations.
Local Open Scope N_scope.

(** The numbers [a], [a + 1], ... ([n] of them). *)
Fixpoint from (a : N) (n : nat) : list N :=
  match n with
  | O => []
  | S n => a :: from (a + 1) n
  end.

(** All outcomes of [k] draws from [n] values, each as likely as any other. *)
Fixpoint outcomes (n k : nat) : list (list N) :=
  match k with
  | O => [[]]
  | S k => flat_map (fun x => map (cons x) (outcomes n k)) (from 0 n)
  end.

(** For how many of the outcomes somebody who sees [view] of the outcome says yes. *)
Definition yes (test : list N -> bool) (view : list N -> list N) (os : list (list N)) : N :=
  len (filter (fun o => test (view o)) os).

(** How far two lists of sizes are apart. *)
Fixpoint apart (l l' : list N) : N :=
  match l, l' with
  | x :: l, y :: l' => (x - y) + (y - x) + apart l l'
  | _, _ => 0
  end.
