(** * SpecRelaxed: what is said about runs with stale loads *)
From Coq Require Import List NArith Bool.
From Verif Require Import Base Env Handshake Transport Io Traffic TrafficIo SpecTraffic Relaxed.
Import ListNotations.

Definition stales (rs : list relaxed) : nat :=
  length (filter (fun r => match r with Stale => true | Fresh _ => false end) rs).

(** The moves of the decoy thread, stale tests among them. *)
Definition decoy_moves (rs : list relaxed) : nat :=
  length (filter (fun r => match r with Stale | Fresh Thread => true | Fresh _ => false end) rs).

(** The payloads given to [write], in order. *)
Definition calls_made (rs : list relaxed) : list payload :=
  flat_map (fun r => match r with Fresh (CallWrite pl) => [pl] | _ => [] end) rs.

(** Two states that nobody but the caller of [drop] can tell apart: the application of the first may already wait
    in [drop] while that of the second has yet to call it. *)
Definition looks_like {G} (s s' : @shared G) : Prop :=
  st_writer s = st_writer s' /\ st_shaper s = st_shaper s' /\ lock s = lock s' /\ poisoned s = poisoned s' /\
  thread_at s = thread_at s' /\ records s = records s' /\ returned s = returned s' /\
  (s = s' \/ app_at s = AppJoin /\ (app_at s' = AppOut \/ app_at s' = AppPanicked)).
