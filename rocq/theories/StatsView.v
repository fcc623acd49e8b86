(** * StatsView: reading the statistics while they are being recorded

    Source: /repo/traffic/src/lib.rs, 238-318.

    All accesses are [Relaxed]. The operations on one field have one order, [l] restricted to that field,
    and a load gives the value after some prefix of it; nothing relates the prefixes that loads of different
    fields see. [l] is any order of the operations of all threads, and an observation chooses a prefix for
    each load. Orders between fields that no single [l] shows are covered, because the prefixes are independent. *)
From Coq Require Import List NArith Bool.
From Verif Require Import Base Traffic.
Import ListNotations.
Local Open Scope N_scope.

(** [#[derive(Default)]], 244: all fields are zero. *)
Definition stats_default : stats := Stats 0 0 0 0 0.

(** The fields after the first [k] operations.  The relaxed operations of 287-296. *)
Definition after (s0 : stats) (l : list stat_op) (k : nat) : stats := fold_left stat_step (firstn k l) s0.

(** [write_read_ratio], 309-318: [bytes_read] is loaded after its operations among the first [i],
    [bytes_written] after its operations among the first [j]. *)
Definition ratio_seen (s0 : stats) (l : list stat_op) (i j : nat) : option (N * N) :=
  let read := bytes_read (after s0 l i) in
  let written := bytes_written (after s0 l j) in
  if read =? 0 then None else Some (written, read).

(** [time_since_last_activity], 299-307: the clock is read before the load. *)
Definition idle_seen (s0 : stats) (l : list stat_op) (i : nat) (t : clock) : run N :=
  time_since_last_activity (after s0 l i) t.
