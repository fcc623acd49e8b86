(** * SpecCover: when decoys leave, and how many *)
From Coq Require Import List NArith Bool.
From Verif Require Import Base Env Traffic TrafficIo TrafficFutures TrafficTask Timed.
Import ListNotations.
Local Open Scope N_scope.

Section WithEnv.
Context {E : Env} {G : Type} {R : Rng G}.

(** The runtime polls the task when a tick is due: no time passes over a deadline. *)
Fixpoint punctual (s : @timed_task G) (es : list timed_event) : Prop :=
  match es with
  | [] => True
  | e :: es => match e with Elapse ms => tt_now s + ms <= tt_deadline s | _ => True end /\ punctual (timed_step s e) es
  end.

(** The decoy thread takes no time: it passes only while the thread sleeps, not beyond its waking, or when the thread is gone. *)
Fixpoint punctual_thread (s : @timed_shared G) (ms : list timed_move) : Prop :=
  match ms with
  | [] => True
  | m :: ms =>
    match m with
    | Later d =>
      match thread_at (ts_shared s) with
      | ThSleep => ts_now s + d <= ts_wake s
      | ThDone | ThPanicked => True
      | _ => d = 0
      end
    | _ => True
    end /\
    match timed_do s m with Some s' => punctual_thread s' ms | None => True end
  end.

End WithEnv.

(** A source of randomness that decides with [fst] whether there is a decoy (traffic/src/lib.rs:413) and with [snd] everything else. *)
Definition next_in (lo hi : N) (l : list N) : N * list N :=
  match l with
  | [] => (lo, [])
  | d :: l => (lo + d mod (hi - lo + 1), l)
  end.
Definition is_decision (lo hi : N) : bool := (lo =? 0) && (hi =? 99).
#[export] Instance dice : Rng (list N * list N) := {|
  gen_range := fun lo hi g =>
    if is_decision lo hi then let '(x, l) := next_in lo hi (fst g) in (x, (l, snd g))
    else let '(x, l) := next_in lo hi (snd g) in (x, (fst g, l));
  fill_bytes := fun n g => (zeros n, g)
|}.

(** [n] over [j]. *)
Fixpoint choose (n j : nat) : N :=
  match n, j with
  | _, O => 1
  | O, S _ => 0
  | S n, S j => choose n j + choose n (S j)
  end.
