(** * SpecPrice: what may be written, and sums over outcomes *)
From Coq Require Import List NArith Bool.
From Verif Require Import Base Env Io Traffic TrafficIo TrafficFutures TrafficTask Timed SpecTraffic.
Import ListNotations.
Local Open Scope N_scope.

(** A payload on the wire, with the largest decoy in front of it if it is padded. *)
Definition most (padding : strategy) (pl : payload) : N :=
  size_of pl + 20 + match padding with Random => 1044 | Disabled => 0 end.

(** What the application gives to the task, and to the blocking writer. *)
Definition given (es : list timed_event) : list payload :=
  flat_map (fun e => match e with Happens (Ev (Send c)) => [cmd_payload c] | _ => [] end) es.
Definition called (ms : list timed_move) : list payload :=
  flat_map (fun m => match m with Acts (CallWrite pl) => [pl] | _ => [] end) ms.

(** The sum of [f] over [l]. *)
Definition total {A} (f : A -> N) (l : list A) : N := fold_right (fun x n => f x + n) 0 l.
