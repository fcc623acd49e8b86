(** * SpecForgery: the one-time keys of Poly1305 and what is tagged (RFC 8439, sections 2.5 and 2.8) *)
From Coq.Strings Require Import Byte.
From Coq Require Import List NArith Bool.
From Verif Require Import Base.
Import ListNotations.
Local Open Scope N_scope.

(** "r[3], r[7], r[11], and r[15] are required to have their top four bits clear; r[4], r[8], and r[12] are required to have their
    bottom two bits clear". *)
Definition may_stand (i : nat) (b : byte) : bool :=
  match i with
  | 3 | 7 | 11 | 15 => Byte.to_N b <? 16
  | 4 | 8 | 12 => Byte.to_N b mod 4 =? 0
  | _ => true
  end%nat.

Definition clamped (key : bytes) : Prop :=
  len key = 32 /\ forall i b, (i < 16)%nat -> nth_error key i = Some b -> may_stand i b = true.

(** Clearing the bits. *)
Definition clear (i : nat) (b : byte) : byte :=
  match i with
  | 3 | 7 | 11 | 15 => byte_of_N (Byte.to_N b mod 16)
  | 4 | 8 | 12 => byte_of_N (Byte.to_N b / 4 * 4)
  | _ => b
  end%nat.

Definition clamp (key : bytes) : bytes :=
  map (fun x => clear (fst x) (snd x)) (combine (seq 0 16) (take 16 key)) ++ drop 16 key.

(** The blocks of 16 bytes that a tag over [aad] and [ct] takes in: those of either, and one with the two lengths. *)
Definition tag_blocks (aad ct : bytes) : N := (len aad + 15) / 16 + (len ct + 15) / 16 + 1.
