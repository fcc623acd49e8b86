(** * SpecDuplex: two blocking shaped endpoints in use, joined by two pipes of bounded capacity

    The session counterpart of SpecPipes.  On either side one thread of the application calls [write] and [read] by
    turns, and the decoy thread runs beside it. *)
From Coq Require Import List NArith Bool.
From Coq.Strings Require Import Byte.
From Verif Require Import Base Env Cipher Transport Io SpecIo Sessions Traffic TrafficIo SpecTraffic HsSteps.
Import ListNotations.
Local Open Scope N_scope.

(** What the application does next. *)
Inductive act := Say (pl : payload) | Hear.

Section WithEnv.
Context {E : Env} {G : Type} {R : Rng G}.

(** The writing half with its decoy thread; how many bytes of the write in progress are in the pipe; the reading half,
    and the bytes the read in progress has taken from the pipe; what the application is going to do, and what its reads
    returned. *)
Record side := Side {
  sd_shared : @shared G;
  sd_sent : N;
  sd_reader : sync_reader;
  sd_got : bytes;
  sd_todo : list act;
  sd_heard : list (result perror payload)
}.

(** Everything the transport has been given. *)
Definition output (s : @shared G) : bytes := written (pw_writer (st_writer s)).

(** The reader, with these bytes to be had from the transport and then no more. *)
Definition offer (r : sync_reader) (bs : bytes) : sync_reader :=
  SyncReader (sr_cipher r) (set_inner (sr_reader r) [Chunk bs]).

(** One operation of an endpoint that finds [inc] in its incoming pipe and [room] free bytes in its outgoing pipe; behind
    it [inc] has become [inc'] and [out] has been put into the outgoing pipe.

    A move that writes takes effect when the last of its bytes is in the pipe; the pipe takes at least one byte at a time,
    and with no room the write does not return.  A read takes one byte at a time, until the bytes are enough for
    it to return; with nothing in the pipe it waits. *)
Inductive operates (inc : bytes) (room : N) : side -> side -> bytes -> bytes -> Prop :=
| calls_write s s' n r got pl todo heard :
    do_move s (CallWrite pl) = Some s' ->
    operates inc room (Side s n r got (Say pl :: todo) heard) (Side s' n r got todo heard) inc []
| moves_on m s s' n r got todo heard :
    m = App \/ m = Thread -> do_move s m = Some s' -> output s' = output s ->
    operates inc room (Side s n r got todo heard) (Side s' n r got todo heard) inc []
| puts_out m s s' out k n r got todo heard :
    m = App \/ m = Thread -> do_move s m = Some s' -> output s' = output s ++ out ->
    1 <= k <= room -> n + k < len out ->
    operates inc room (Side s n r got todo heard) (Side s (n + k) r got todo heard) inc (take k (drop n out))
| puts_last m s s' out n r got todo heard :
    m = App \/ m = Thread -> do_move s m = Some s' -> output s' = output s ++ out ->
    n < len out <= n + room ->
    operates inc room (Side s n r got todo heard) (Side s' 0 r got todo heard) inc (drop n out)
| takes_in b inc' s n r got todo heard r' a :
    inc = b :: inc' -> app_at s = AppOut -> sync_read (offer r got) = Ret (Err eof, r', a) ->
    operates inc room (Side s n r got (Hear :: todo) heard) (Side s n r (got ++ [b]) (Hear :: todo) heard) inc' []
| read_returns s n r got todo heard x r' a :
    app_at s = AppOut -> sync_read (offer r got) = Ret (x, r', a) -> x <> Err eof ->
    operates inc room (Side s n r got (Hear :: todo) heard)
      (Side s n r' (fst (flatten Sync (session_inner (sr_reader r')))) todo (heard ++ [x])) inc [].

Record duplex := Duplex { left : side; right : side; to_right : bytes; to_left : bytes }.

Section Joined.
Variable capacity : N.

Inductive duplex_step : duplex -> duplex -> Prop :=
| left_operates a a' b lr rl rl' out :
    operates rl (capacity - len lr) a a' rl' out ->
    duplex_step (Duplex a b lr rl) (Duplex a' b (lr ++ out) rl')
| right_operates a b b' lr rl lr' out :
    operates lr (capacity - len rl) b b' lr' out ->
    duplex_step (Duplex a b lr rl) (Duplex a b' lr' (rl ++ out)).

Inductive duplex_run : duplex -> duplex -> Prop :=
| duplex_here st : duplex_run st st
| duplex_more st st1 st2 : duplex_step st st1 -> duplex_run st1 st2 -> duplex_run st st2.

(** Nobody can do anything: not the applications, not the decoy threads. *)
Definition deadlocked (st : duplex) : Prop := forall st', ~ duplex_step st st'.
End Joined.

(** The application is through. *)
Definition is_done (d : side) : Prop := sd_todo d = [] /\ app_at (sd_shared d) = AppOut.

(** A side after the handshake, the pipe being its transport. *)
Definition side_new (out : cipher) (sh : shaper G) (recs : list N) (r : sync_reader) (todo : list act) : side :=
  Side (shared_new (PWriter out (Writer [] [] [])) sh recs) 0 r [] todo [].

(** The decoy thread is at the top of its loop, no call is in progress, and the transport is in order. *)
Definition at_rest (d : side) : Prop :=
  let s := sd_shared d in
  lock s = Free /\ poisoned s = false /\ shutdown s = false /\ app_at s = AppOut /\ thread_at s = ThCheck /\
  sd_sent d = 0 /\ healthy (pw_writer (st_writer s)).

End WithEnv.

(** The payloads said, and how often the application listens. *)
Definition said (todo : list act) : list payload :=
  flat_map (fun a => match a with Say pl => [pl] | Hear => [] end) todo.
Definition hearings (todo : list act) : nat :=
  length (filter (fun a => match a with Say _ => false | Hear => true end) todo).

(** What the packets of these payloads take in a pipe. *)
Definition load (pls : list payload) : N := sum (map (fun pl => size_of pl + 20) pls).

(** With pipes without limits the two programs come to their end; [na] and [nb] packets are on their way. *)
Inductive concert : list act -> list act -> nat -> nat -> Prop :=
| concert_end na nb : concert [] [] na nb
| left_says pl ta tb na nb : concert ta tb na (S nb) -> concert (Say pl :: ta) tb na nb
| left_hears ta tb na nb : concert ta tb na nb -> concert (Hear :: ta) tb (S na) nb
| right_says pl ta tb na nb : concert ta tb (S na) nb -> concert ta (Say pl :: tb) na nb
| right_hears ta tb na nb : concert ta tb na nb -> concert ta (Hear :: tb) na (S nb).

(** However it is asked, the generator again and again gives a number for which a decoy is sent. *)
Definition restless {G} (R : Rng G) : Prop :=
  forall g, exists n, 85 <= fst (gen_range 0 99 (Nat.iter n (fun g => snd (gen_range 0 99 g)) g)).
