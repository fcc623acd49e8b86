(** * SpecDraws: the random choices of a shaped endpoint *)
From Coq Require Import List NArith Bool.
From Coq.Strings Require Import Byte.
From Verif Require Import Base Env Cipher Handshake Transport Io Sessions Traffic TrafficIo TrafficFutures SpecTraffic.
Import ListNotations.
Local Open Scope N_scope.

(** A number drawn from a range, both ends included, or a buffer filled with random bytes. *)
Inductive pick := Ranged (lo hi n : N) | Filled (bs : bytes).

Section WithRng.
Context {G : Type} {R : Rng G}.

(** Draws one after the other, each from the generator the one before left. *)
Inductive drawn : G -> list pick -> G -> Prop :=
| drawn_nil g : drawn g [] g
| drawn_ranged g lo hi n g1 ds g2 :
    gen_range lo hi g = (n, g1) -> drawn g1 ds g2 -> drawn g (Ranged lo hi n :: ds) g2
| drawn_filled g bs g1 ds g2 :
    fill_bytes (len bs) g = (bs, g1) -> drawn g1 ds g2 -> drawn g (Filled bs :: ds) g2.

(** The generator of an endpoint. *)
Definition generator (ep : shaped) : G :=
  match ep with Blocking s => sh_rng (st_shaper s) | Tasked t => sh_rng (tk_shaper t) end.

End WithRng.

(** A buffer of random size with random contents. *)
Definition buffer_draws (lo hi : N) (bs : bytes) : list pick := [Ranged lo hi (len bs); Filled bs].

(** The draws behind the garbage and the decoys of a handshake. *)
Definition handshake_draws (garbage : option bytes) (decoys : option (list bytes)) : list pick :=
  match garbage with Some bs => buffer_draws 0 4095 bs | None => [] end ++
  match decoys with Some l => Ranged 0 3 (len l) :: flat_map (buffer_draws 1 1024) l | None => [] end.

(** The choices in a session: at a tick no decoy, or one of a size; for a payload no padding, or one of a size. *)
Inductive choice := NoCover (n : N) | CoverBy (n size : N) | NoPadding (pl : payload) | PaddingOf (size : N) (pl : payload).

Definition choice_draws (u : choice) : list pick :=
  match u with
  | NoCover n => [Ranged 0 99 n]
  | CoverBy n size => [Ranged 0 99 n; Ranged 1 1024 size]
  | NoPadding _ => []
  | PaddingOf size _ => [Ranged 1 1024 size]
  end.

(** What is written for it. *)
Definition choice_block (u : choice) : list block :=
  match u with
  | NoCover _ => []
  | CoverBy _ size => [Cover (decoy (zeros size))]
  | NoPadding pl => [Bare pl]
  | PaddingOf size pl => [Padded (decoy (zeros size)) pl]
  end.

Definition choice_ok (c : config) (u : choice) : Prop :=
  match u with
  | NoCover n => decoy_strategy c = Random /\ n < 85
  | CoverBy n _ => decoy_strategy c = Random /\ 85 <= n
  | NoPadding _ => padding_strategy c = Disabled
  | PaddingOf _ _ => padding_strategy c = Random
  end.

(** ** Forgetting the payloads *)

Definition blank : payload := decoy [].

Definition blank_choice (u : choice) : choice :=
  match u with NoPadding _ => NoPadding blank | PaddingOf size _ => PaddingOf size blank | _ => u end.

Definition blank_move (m : move) : move := match m with CallWrite _ => CallWrite blank | _ => m end.
Definition blank_event (e : event) : event := match e with Send _ => Send (Command 0 blank) | _ => e end.

Definition blank_activity (a : activity) : activity :=
  match a with Moves ms => Moves (map blank_move ms) | Events es => Events (map blank_event es) end.
