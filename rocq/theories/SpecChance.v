(** * SpecChance: the terminators that a stream can be taken to contain *)
From Coq Require Import List NArith.
From Coq.Strings Require Import Byte.
From Verif Require Import Base.
Import ListNotations.
Local Open Scope N_scope.

(** 16 bytes from each place on, behind no more than 4095 bytes of garbage (BIP-324). *)
Definition windows (s : bytes) : list bytes :=
  map (fun i => take 16 (skipn i s)) (seq 0 (N.to_nat (N.min 4096 (len s - 15)))).

(** The beginnings of [s] that can be the body of a packet in a handshake: 16 bytes of tag at least, 4000014 bytes at most. *)
Definition bodies (s : bytes) : list bytes :=
  map (fun n => take (N.of_nat n + 16) s) (seq 0 (N.to_nat (N.min 3999999 (len s - 15)))).
