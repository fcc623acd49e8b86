(** * SpecSpent: a cipher whose packets are used up *)
From Coq Require Import List NArith Bool.
From Coq.Strings Require Import Byte.
From Verif Require Import Base Env Cipher.
Import ListNotations.
Local Open Scope N_scope.

(** Every encryption panics.  lib.rs:616-657, 674-688. *)
Definition spent {E : Env} (c : cipher) : Prop :=
  forall contents t aad, encrypt_to_vec c contents t aad = Panic /\
    forall buffer, len contents + 20 <= len buffer -> encrypt c contents buffer t aad = Panic.
