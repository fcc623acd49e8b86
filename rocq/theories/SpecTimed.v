(** * SpecTimed: vocabulary of the properties with a clock *)
From Coq Require Import List NArith Bool.
From Verif Require Import Base Env Traffic TrafficIo TrafficFutures TrafficTask SpecTask Timed.
Import ListNotations.
Local Open Scope N_scope.

(** Each time is at least [gap] behind the one before. *)
Fixpoint spaced (gap : N) (l : list N) : Prop :=
  match l with
  | a :: (b :: _) as l' => a + gap <= b /\ spaced gap l'
  | _ => True
  end.

(** How many of the times are between [t] and [t + d], both included. *)
Definition within (t d : N) (l : list N) : N := len (filter (fun x => (t <=? x) && (x <=? t + d)) l).

(** The times at which a tick was taken, and at which it led to a decoy. *)
Definition tick_times (l : list (N * bool)) : list N := map fst l.
Definition decoy_times (l : list (N * bool)) : list N := map fst (filter snd l).

(** What happened, without the clock. *)
Definition untimed (es : list timed_event) : list split_event :=
  flat_map (fun e => match e with Happens e => [e] | Elapse _ => [] end) es.
Definition untimed_moves (ms : list timed_move) : list move :=
  flat_map (fun m => match m with Acts m => [m] | Later _ => [] end) ms.

(** How much time passed. *)
Definition passed (es : list timed_event) : N := fold_right (fun e n => match e with Elapse ms => ms | _ => 0 end + n) 0 es.

(** The same event, but for whether a poll found the interval elapsed. *)
Definition same_event (a b : split_event) : Prop :=
  match a, b with
  | Ev (Poll x _), Ev (Poll y _) => x = y
  | _, _ => a = b
  end.
