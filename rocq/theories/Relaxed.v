(** * Relaxed: the shutdown flag as a [Relaxed] atomic

    traffic/src/io.rs sets the flag with [store(true, Relaxed)] (202) and tests it with [load(Relaxed)] (220).
    Such a load may go on returning the old value after the store; a thread that has once
    seen the new value never sees the old one again.  The flag is stored to once and the decoy thread ends when it
    sees [true], so the only further behaviour is a test that still finds [false].
    Everything else the threads share is under the mutex or ordered by [join]. *)
From Coq Require Import List NArith Bool.
From Verif Require Import Base Env Handshake Transport Io Traffic TrafficIo.
Import ListNotations.

(** A move; or the test of the flag (220) with the load returning the value from before the store. *)
Inductive relaxed := Fresh (m : move) | Stale.

Section WithEnv.
Context {E : Env} {G : Type} {R : Rng G}.

(** [decoy_thread], 210-233: with [Stale] the test [while !shutdown.load(Relaxed)] (220) goes into the loop whatever
    has been stored. *)
Definition do_relaxed (s : @shared G) (r : relaxed) : option shared :=
  match r with
  | Fresh m => do_move s m
  | Stale => match thread_at s with ThCheck => Some (set_thread s ThSleep) | _ => None end
  end.

(** 185-233. *)
Fixpoint play_relaxed (s : @shared G) (rs : list relaxed) : option shared :=
  match rs with
  | [] => Some s
  | r :: rs => match do_relaxed s r with Some s' => play_relaxed s' rs | None => None end
  end.

End WithEnv.
