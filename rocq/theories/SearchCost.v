(** * SearchCost: the garbage phase of the I/O handshake with a record of its searches *)
From Coq Require Import List NArith Bool.
From Coq.Strings Require Import Byte.
From Verif Require Import Base Env FsChacha Cipher Handshake Transport Io.
Import ListNotations.
Local Open Scope N_scope.

(** The windows [position] compares with [t] (handshake.rs:471-476): those up to the first equal one. *)
Fixpoint windows_compared (t l : bytes) : N :=
  if len l <? len t then 0
  else if bytes_eqb (take (len t) l) t then 1
  else match l with
       | [] => 1
       | _ :: l' => 1 + windows_compared t l'
       end.

(** The same for a call of [split_garbage], handshake.rs:466-476, which looks at most at 4111 bytes. *)
Definition search_cost (t buffer : bytes) : N :=
  windows_compared t (take (N.min (len buffer) (MAX_NUM_GARBAGE_BYTES + NUM_GARBAGE_TERMINTOR_BYTES)) buffer).

(** The loop io.rs:364-387 (futures.rs:198-221) as in [garbage_loop], with every buffer given to [receive_garbage]. *)
Fixpoint garbage_loop_recorded (fuel : nat) (h : handshake sent_version) (garbage_buffer : bytes) (s : script)
    (reads : N) (buffers : list bytes)
  : run (result perror (handshake received_garbage * N * bytes) * script * N * list bytes) :=
  match fuel with
  | O => NoFuel
  | S fuel =>
    let buffers := buffers ++ [garbage_buffer] in
    let! x := receive_garbage h garbage_buffer in
    match x with
    | Ok (FoundGarbage h' consumed) => Ret (Ok (h', consumed, garbage_buffer), s, reads, buffers)
    | Ok (NeedMoreData h') =>
      match read s 256 with
      | (Data [], s') => Ret (Err eof, s', reads + 1, buffers)
      | (Data bs, s') => garbage_loop_recorded fuel h' (garbage_buffer ++ bs) s' (reads + 1) buffers
      | (ReadErr k, s') => Ret (Err (from_io k), s', reads + 1, buffers)
      end
    | Err e => Ret (Err (Internal e), s, reads, buffers)
    end
  end.
