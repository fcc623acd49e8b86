(** * Traffic: model of traffic/src/lib.rs *)
From Coq Require Import List NArith Bool.
From Coq.Strings Require Import Byte.
From Verif Require Import Base Env FsChacha Cipher Handshake Transport Io.
Import ListNotations.
Local Open Scope N_scope.

(** lib.rs:92-96 (the check interval is time, see TrafficIo.v). *)
Definition MAX_DECOY_SIZE_BYTES : N := 1024.
(** 96. *)
Definition MAX_NUM_GARBAGE_BYTES : N := 4095.

(** [PaddingStrategy], 103-117; [DecoyStrategy], 123-137. *)
Inductive strategy := Disabled | Random.

(** [TrafficConfig], 150-156; the derived [Default] is [Disabled] for both. *)
Record config := Config { padding_strategy : strategy; decoy_strategy : strategy }.
(** [TrafficConfig::new], 160-162. *)
Definition config_new : config := Config Disabled Disabled.
(** [with_padding_strategy], 178-181, and [with_decoy_strategy], 197-200. *)
Definition with_padding_strategy (c : config) (s : strategy) : config := Config s (decoy_strategy c).
(** [TrafficConfig::with_decoy_strategy], 196-199. *)
Definition with_decoy_strategy (c : config) (s : strategy) : config := Config (padding_strategy c) s.

(** ** Statistics *)

(** [AtomicTrafficStats], 245-256. *)
Record stats := Stats {
  bytes_read : N;
  bytes_written : N;
  messages_read : N;
  messages_written : N;
  last_activity_ms : N
}.

(** [u64] arithmetic of [fetch_add] and [as u64], 264-295. *)
Definition wrap64 (n : N) : N := n mod 2 ^ 64.

(** The clock: milliseconds since the epoch, or a time before it.
    [duration_since(UNIX_EPOCH).unwrap().as_millis() as u64]. *)
Inductive clock := BeforeEpoch | AtMillis (ms : N).
(** 261-264, 277-280. *)
Definition now_ms (t : clock) : run N :=
  match t with BeforeEpoch => Panic | AtMillis ms => Ret (wrap64 ms) end.

(** [AtomicTrafficStats::new], 260-273. *)
Definition stats_new (t : clock) : run stats := let! now := now_ms t in Ret (Stats 0 0 0 0 now).

(** The atomic operations on the fields; [fetch_add] wraps around.  281, 287-288, 293-295. *)
Inductive stat_op :=
| AddBytesRead (n : N) | AddMessagesRead | AddBytesWritten (n : N) | AddMessagesWritten | StoreActivity (now : N).

(** 281, 287-288, 293-295. *)
Definition stat_step (s : stats) (op : stat_op) : stats :=
  match op with
  | AddBytesRead n => Stats (wrap64 (bytes_read s + n)) (bytes_written s) (messages_read s) (messages_written s) (last_activity_ms s)
  | AddBytesWritten n => Stats (bytes_read s) (wrap64 (bytes_written s + n)) (messages_read s) (messages_written s) (last_activity_ms s)
  | AddMessagesRead => Stats (bytes_read s) (bytes_written s) (wrap64 (messages_read s + 1)) (messages_written s) (last_activity_ms s)
  | AddMessagesWritten => Stats (bytes_read s) (bytes_written s) (messages_read s) (wrap64 (messages_written s + 1)) (last_activity_ms s)
  | StoreActivity now => Stats (bytes_read s) (bytes_written s) (messages_read s) (messages_written s) now
  end.

(** [record_read], 286-290, and [record_write], 292-297: their atomic operations in program order;
    [update_last_activity] (276-282) reads the clock and then stores. *)
Inductive record := RecordRead (n : N) (t : clock) | RecordWrite (n : N) (t : clock).

(** [record_read], 286-290; [record_write], 292-297. *)
Definition record_ops (r : record) : run (list stat_op) :=
  match r with
  | RecordRead n t => let! now := now_ms t in Ret [AddBytesRead n; AddMessagesRead; StoreActivity now]
  | RecordWrite n t => let! now := now_ms t in Ret [AddBytesWritten n; AddMessagesWritten; StoreActivity now]
  end.

(** [time_since_last_activity], 299-307, in milliseconds; [saturating_sub]. *)
Definition time_since_last_activity (s : stats) (t : clock) : run N :=
  let! now := now_ms t in Ret (if now <? last_activity_ms s then 0 else now - last_activity_ms s).

(** [write_read_ratio], 309-318; the operands of [written as f64 / read as f64], which Float64.v evaluates. *)
Definition write_read_ratio (s : stats) : option (N * N) :=
  if bytes_read s =? 0 then None else Some (bytes_written s, bytes_read s).

(** ** Random numbers *)

(** [rand::Rng]: [gen_range(lo..=hi)] and [fill_bytes] of a buffer of [n] bytes.  Called in 366-448. *)
Class Rng (G : Type) := {
  gen_range : N -> N -> G -> N * G;
  fill_bytes : N -> G -> bytes * G
}.

(** What rand promises of the calls in 366-448. *)
Class RngLaws (G : Type) (R : Rng G) : Prop := {
  gen_range_in : forall lo hi g, lo <= hi -> lo <= fst (gen_range lo hi g) <= hi;
  fill_bytes_len : forall n g, len (fst (fill_bytes n g)) = n
}.

(** ** The shaper *)

(** [TrafficShaper], 328-333. *)
Record shaper (G : Type) := Shaper { sh_config : config; sh_rng : G }.
Arguments Shaper {G} _ _.
Arguments sh_config {G} _.
Arguments sh_rng {G} _.

Section WithRng.
Context {G : Type} {R : Rng G}.

(** [vec![0u8; size]] filled with random bytes. *)
Definition random_vec (lo hi : N) (g : G) : bytes * G :=
  let '(size, g) := gen_range lo hi g in fill_bytes size g.

(** The loop 379-385. *)
Fixpoint random_decoys (n : nat) (g : G) : list bytes * G :=
  match n with
  | O => ([], g)
  | S n =>
    let '(contents, g) := random_vec 1 MAX_DECOY_SIZE_BYTES g in
    let '(rest, g) := random_decoys n g in
    (contents :: rest, g)
  end.

(** [TrafficShaper::handshake], 359-393.  The last list are the sizes given to [record_write]. *)
Definition shaper_handshake (sh : shaper G)
  : option bytes * option (list bytes) * shaper G * list N :=
  let '(garbage, g, rec1) :=
    match padding_strategy (sh_config sh) with
    | Disabled => (None, sh_rng sh, [])
    | Random =>
      let '(garbage, g) := random_vec 0 MAX_NUM_GARBAGE_BYTES (sh_rng sh) in
      (Some garbage, g, [len garbage])
    end in
  let '(decoys, g, rec2) :=
    match decoy_strategy (sh_config sh) with
    | Disabled => (None, g, [])
    | Random =>
      let '(num_decoys, g) := gen_range 0 3 g in
      let '(decoys, g) := random_decoys (N.to_nat num_decoys) g in
      (Some decoys, g, map (fun d => len d) decoys)
    end in
  (garbage, decoys, Shaper (sh_config sh) g, rec1 ++ rec2).

(** A decoy payload of random size, all zeros, with the length of its contents: 417-418 and 448-449. *)
Definition zero_decoy (g : G) : payload * N * G :=
  let '(size, g) := gen_range 1 MAX_DECOY_SIZE_BYTES g in
  let contents := zeros size in
  (decoy contents, len contents, g).

(** [TrafficShaper::decoy], 405-422; [gen_range(0..100)] is 0 to 99. *)
Definition shaper_decoy (sh : shaper G) : option payload * shaper G * list N :=
  match decoy_strategy (sh_config sh) with
  | Disabled => (None, sh, [])
  | Random =>
    let '(p, g) := gen_range 0 99 (sh_rng sh) in
    if p <? 85 then (None, Shaper (sh_config sh) g, [])
    else
      let '(d, size, g) := zero_decoy g in (Some d, Shaper (sh_config sh) g, [size])
  end.

Section WithEnv.
Context {E : Env}.

(** [TrafficShaper::pad], 438-453. *)
Definition shaper_pad (sh : shaper G) (pl : payload) : run (option payload * shaper G * list N) :=
  let! contents := payload_contents pl in
  match padding_strategy (sh_config sh) with
  | Disabled => Ret (None, sh, [len contents])
  | Random =>
    let '(d, size, g) := zero_decoy (sh_rng sh) in
    Ret (Some d, Shaper (sh_config sh) g, [len contents; size])
  end.

End WithEnv.
End WithRng.
