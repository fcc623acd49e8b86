(** * SpecCoincidence: the terminators that garbage cannot be told from *)
From Coq.Strings Require Import Byte.
From Coq Require Import List NArith.
From Verif Require Import Base.
Import ListNotations.
Local Open Scope N_scope.

(** The 16 bytes that one gets by writing [u] again and again. *)
Definition again (u : bytes) : bytes := take 16 (List.concat (repeat u 16)).

(** For each end of the garbage that is not empty: the terminator that would be found where this end begins. *)
Definition early (g : bytes) : list bytes := map (fun i => again (skipn i g)) (seq 0 (length g)).
