(** * SpecGap: where in the received bytes the packets stand that a reader accepts *)
From Coq Require Import List NArith Bool.
From Coq.Strings Require Import Byte.
From Verif Require Import Base Env Cipher Histories Transport Io Sessions SpecPair.
Import ListNotations.
Local Open Scope N_scope.

(** [b] stands in [wire] behind at least [n] bytes. *)
Definition stands_behind (n : N) (b wire : bytes) : Prop :=
  exists before after, wire = before ++ b ++ after /\ n <= len before.

(** The length of the first [i] of some packets, or parts of packets. *)
Definition length_of (i : nat) (pkts : list bytes) : N := len (List.concat (firstn i pkts)).

Section WithEnv.
Context {E : Env}.

(** A writer has encrypted the messages [ms], which gave the packets [pkts], and the transport has
    taken [parts] of them. *)
Definition sends (p : pwriter) (ms : list msg) (pkts parts : list bytes) (p' : pwriter) : Prop :=
  send_all (pw_cipher p) ms = Ret (pkts, pw_cipher p') /\
  Forall2 prefix_of parts pkts /\
  written (pw_writer p') = written (pw_writer p) ++ List.concat parts.

End WithEnv.

(** Of packet number [j] a part is missing. *)
Definition torn (pkts parts : list bytes) (j : nat) : Prop := nth_error parts j <> nth_error pkts j.
