(** * Base: bytes, slices, checked machine arithmetic, outcomes.

    Shared vocabulary of the model.  No proofs here (see BaseFacts.v). *)
From Coq Require Import List NArith Bool.
From Coq.Strings Require Import Byte.
Import ListNotations.
Local Open Scope N_scope.

(** A byte slice, [Vec<u8>] or [[u8; n]] of the Rust code. *)
Definition bytes := list byte.

(** [slice.len()]; [usize] values are [N]. *)
Definition len {A} (l : list A) : N := N.of_nat (length l).

(** [&s[..n]] and [&s[n..]] for [n <= len s] (checked variants below). *)
Definition take {A} (n : N) (l : list A) : list A := firstn (N.to_nat n) l.
Definition drop {A} (n : N) (l : list A) : list A := skipn (N.to_nat n) l.

(** [vec![0u8; n]] / [[0u8; n]]. *)
Definition zeros (n : N) : bytes := repeat x00 (N.to_nat n).

Definition byte_eqb (a b : byte) : bool := N.eqb (Byte.to_N a) (Byte.to_N b).

Fixpoint bytes_eqb (a b : bytes) : bool :=
  match a, b with
  | [], [] => true
  | x :: a', y :: b' => byte_eqb x y && bytes_eqb a' b'
  | _, _ => false
  end.

(** [(n mod 256) as u8]. *)
Definition byte_of_N (n : N) : byte :=
  match Byte.of_N (n mod 256) with Some b => b | None => x00 end.

(** [n.to_le_bytes()] for a [w]-byte unsigned integer, and its inverse
    [from_le_bytes]. *)
Fixpoint le_bytes (w : nat) (n : N) : bytes :=
  match w with
  | O => []
  | S w' => byte_of_N n :: le_bytes w' (n / 256)
  end.

Fixpoint le_val (l : bytes) : N :=
  match l with
  | [] => 0
  | b :: l' => Byte.to_N b + 256 * le_val l'
  end.

(** Exclusive or of bytes, bit by bit. *)
Definition bxor (a b : byte) : byte :=
  let '(a0,(a1,(a2,(a3,(a4,(a5,(a6,a7))))))) := Byte.to_bits a in
  let '(b0,(b1,(b2,(b3,(b4,(b5,(b6,b7))))))) := Byte.to_bits b in
  Byte.of_bits (xorb a0 b0,(xorb a1 b1,(xorb a2 b2,(xorb a3 b3,
               (xorb a4 b4,(xorb a5 b5,(xorb a6 b6, xorb a7 b7))))))).

(** [data[i] ^= ks[i]]: what [ChaCha20::apply_keystream] does.  Data beyond the
    end of the key stream stays as it is; the key stream always has
    the length of the data under [EnvLaws]. *)
Fixpoint xor_with (ks data : bytes) : bytes :=
  match ks, data with
  | k :: ks', d :: data' => bxor k d :: xor_with ks' data'
  | _, _ => data
  end.

(** ** Outcomes *)

(** Outcome of running a piece of code: it returns, it panics, or (only for
    loops of the I/O model, and proved impossible there) the model's fuel ran
    out. *)
Inductive run (A : Type) : Type :=
| Ret (a : A)
| Panic
| NoFuel.
Arguments Ret {A} a.
Arguments Panic {A}.
Arguments NoFuel {A}.

(** Rust's [Result]. *)
Inductive result (E A : Type) : Type :=
| Ok (a : A)
| Err (e : E).
Arguments Ok {E A} a.
Arguments Err {E A} e.

Definition bind {A B} (m : run A) (f : A -> run B) : run B :=
  match m with
  | Ret a => f a
  | Panic => Panic
  | NoFuel => NoFuel
  end.

Notation "'let!' x ':=' m 'in' k" := (bind m (fun x => k))
  (at level 200, x pattern, m at level 100, k at level 200, right associativity).

(** ** Checked slice operations: every one panics exactly when Rust does. *)

(** [s[i]]. *)
Definition index (s : bytes) (i : N) : run byte :=
  match nth_error s (N.to_nat i) with Some b => Ret b | None => Panic end.

(** [s[i] = v]. *)
Definition set_index (s : bytes) (i : N) (v : byte) : run bytes :=
  if i <? len s then Ret (take i s ++ v :: drop (i + 1) s) else Panic.

(** [&s[a..b]]. *)
Definition slice (s : bytes) (a b : N) : run bytes :=
  if (a <=? b) && (b <=? len s) then Ret (take (b - a) (drop a s)) else Panic.

(** [s[a..b].copy_from_slice(src)]; panics on bad bounds or when the lengths differ. *)
Definition splice (s : bytes) (a b : N) (src : bytes) : run bytes :=
  if (a <=? b) && (b <=? len s) && (len src =? b - a)
  then Ret (take a s ++ src ++ drop b s) else Panic.

(** [s.split_at(n)]. *)
Definition split_at (s : bytes) (n : N) : run (bytes * bytes) :=
  if n <=? len s then Ret (take n s, drop n s) else Panic.

(** ** Machine arithmetic; [chk] says whether overflow checks are compiled in. *)

(** [a + b] in an unsigned [w]-bit type. *)
Definition add_w (chk : bool) (w a b : N) : run N :=
  if a + b <? 2 ^ w then Ret (a + b)
  else if chk then Panic else Ret ((a + b) mod 2 ^ w).

(** [a - b] in an unsigned [w]-bit type. *)
Definition sub_w (chk : bool) (w a b : N) : run N :=
  if b <=? a then Ret (a - b)
  else if chk then Panic else Ret (2 ^ w + a - b).

(** [n as u32]. *)
Definition as_u32 (n : N) : N := n mod 2 ^ 32.
