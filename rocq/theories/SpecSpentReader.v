(** * SpecSpentReader: a cipher that can read no more length prefixes *)
From Coq Require Import List NArith Bool.
From Verif Require Import Base Env Cipher Histories.
Import ListNotations.
Local Open Scope N_scope.

(** Every length prefix panics.  lib.rs:435-442. *)
Definition spent_in {E : Env} (c : cipher) : Prop := forall lb, decrypt_packet_len c lb = Panic.

(** How many length prefixes a list of calls decrypts; lib.rs:435-442. *)
Definition prefixes (os : list op) : N := len (filter (fun o => match o with ODecryptLen _ => true | _ => false end) os).
