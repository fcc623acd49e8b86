(** * SpecTask: vocabulary of the properties of the writer task with its awaits inside the branches *)
From Coq Require Import List NArith Bool.
From Verif Require Import Base Env Io Traffic TrafficFutures TrafficTask.
Import ListNotations.

(** The events other than a caller giving up. *)
Definition events_of (es : list split_event) : list event :=
  flat_map (fun e => match e with Ev e => [e] | Abandon _ => [] end) es.

(** The caller whose command the task has taken from the queue and not answered yet. *)
Definition waiting (pl : place) : list N :=
  match pl with InPad _ c | InPayload _ c => [cmd_id c] | AtSelect | InDecoy _ => [] end.
