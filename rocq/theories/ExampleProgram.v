(** * ExampleProgram: protocol/examples/bufreader.rs

    A server that dumps the messages of a scenario on a connection, and a client that reads as many, straight from the socket or
    through a [BufReader].  The sockets are scripts and writers (Transport.v); what is printed and the clock are left out. *)
From Coq Require Import List NArith Bool.
From Coq.Strings Require Import Byte.
From Verif Require Import Base Env FsChacha Cipher Handshake Transport Io Futures HsSteps Buffered.
Import ListNotations.
Local Open Scope N_scope.

(** [Scenario], bufreader.rs:30-37, without its name. *)
Record scenario := Scenario { message_sizes : list N; iterations : N }.

(** 40-53. *)
Definition bitcoin_typical : scenario := Scenario [10; 37; 30; 250; 80; 500; 37; 30; 10; 10] 10000.
(** 55-61. *)
Definition large_messages : scenario := Scenario [8192; 16384; 65536] 1000.
(** 63-69. *)
Definition small_messages : scenario := Scenario [1; 2; 3; 4; 5] 20000.

(** 71-73. *)
Definition total_messages (s : scenario) : N := len (message_sizes s) * iterations s.
(** 75-77. *)
Definition total_bytes (s : scenario) : N := fold_right N.add 0 (message_sizes s) * iterations s.

(** [p2p::Magic::BITCOIN], 130, 183, 199. *)
Definition BITCOIN : bytes := [xf9; xbe; xb4; xd9].

(** 141-145. *)
Definition example_payloads (s : scenario) : list payload :=
  map (fun size => genuine (repeat x42 (N.to_nat size))) (message_sizes s).

Section WithEnv.
Context {E : Env}.

(** 151-153; a failed [unwrap] is [Panic]. *)
Fixpoint write_payloads (p : pwriter) (payloads : list payload) : run pwriter :=
  match payloads with
  | [] => Ret p
  | payload :: payloads =>
    let! (x, p) := tokio_write p payload in
    match x with Ok _ => write_payloads p payloads | Err _ => Panic end
  end.

(** 150-154. *)
Fixpoint dump (iterations : nat) (p : pwriter) (payloads : list payload) : run pwriter :=
  match iterations with
  | O => Ret p
  | S iterations => let! p := write_payloads p payloads in dump iterations p payloads
  end.

(** One connection of the server, 126-154.  [rnd]: the bytes of the random secret key. *)
Definition serve (s : scenario) (rnd : bytes) (reader : script) (w : writer) : run pwriter :=
  let! x := tokio_protocol_new BITCOIN Responder rnd None None reader w in
  match x with
  | Err _ => Panic
  | Ok p => dump (N.to_nat (iterations s)) (t_writer p) (example_payloads s)
  end.

Section WithReader.
Variables (St : Type) (rd : St -> N -> option read_result * St).

(** [for _ in 0..n { let _payload = protocol.read().await?; }], 193-195 and 209-211: polled until all are there or one fails.
    Returns the payloads (dropped by the program), the reader and its transport. *)
Fixpoint read_payloads (polls fuel n : nat) (f : read_future) (r : tokio_reader) (st : St)
  : run (result perror (list payload) * tokio_reader * St) :=
  match n, polls with
  | O, _ => Ret (Ok [], r, st)
  | _, O => NoFuel
  | S n', S polls =>
    let! (x, r, st, f) := any_poll_read St rd fuel f r st in
    match x with
    | NotReady => read_payloads polls fuel n f r st
    | Ready (Err e) => Ret (Err e, r, st)
    | Ready (Ok p) =>
      let! (x, r, st) := read_payloads polls fuel n' f r st in
      Ret (match x with Ok ps => Ok (p :: ps) | Err e => Err e end, r, st)
    end
  end.

(** [Client::run], 169-216: [Client::NonBuffered] with [poll_script], [Client::Buffered] with [buf_read] and a buffer of 8192. *)
Definition client (fuel : nat) (s : scenario) (rnd : bytes) (st : St) (w : writer)
  : run (result perror (list payload * tokio_reader) * St * writer) :=
  let! p := hs_begin BITCOIN Initiator rnd None in
  let! (p, st, w) := any_steps St rd fuel Tokio None p st w in
  match p with
  | Over (Err e) => Ret (Err e, st, w)
  | Over (Ok (i, _, sr)) =>
    let! (x, r, st) := read_payloads fuel fuel (N.to_nat (total_messages s)) FreshFuture (TReader i sr init_reading_length) st in
    Ret (match x with Ok ps => Ok (ps, r) | Err e => Err e end, st, w)
  | _ => NoFuel
  end.

End WithReader.
End WithEnv.
