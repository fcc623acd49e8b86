(** * SpecBuffered: what a reader gives, whatever the requests *)
From Coq Require Import List NArith Bool.
From Coq.Strings Require Import Byte.
From Verif Require Import Base Env Cipher Transport Io SpecIo Futures Buffered.
Import ListNotations.
Local Open Scope N_scope.

(** Bytes, ends of file and failures, in order. *)
Inductive item := Byt (b : byte) | Eof | Failure (k : io_kind).

Definition items (s : script) : list item :=
  flat_map (fun ev => match ev with Chunk [] => [Eof] | Chunk bs => map Byt bs | Fail k => [Failure k] | Pending => [] end) s.

(** The same in the same order; at its end a script gives ends of file. *)
Definition same_items (s1 s2 : script) : Prop := exists k, items s1 = items s2 ++ repeat Eof k.

(** The stream of items, as [flatten]. *)
Fixpoint stream_of (fl : flavor) (l : list item) : bytes * ending :=
  match l with
  | [] | Eof :: _ => ([], Closed)
  | Byt b :: l => let '(c, e) := stream_of fl l in (b :: c, e)
  | Failure k :: l => match fl, k with Sync, Interrupted => stream_of fl l | _, _ => ([], Broken k) end
  end.

(** What a [BufReader] has not given yet. *)
Definition unread (b : buf_reader) : script :=
  match br_buffer b with [] => br_inner b | _ => Chunk (br_buffer b) :: br_inner b end.

(** The script of one answer to a poll. *)
Definition polled (o : option read_result) : script := match o with Some r => answer_script r | None => [Pending] end.

(** A reader [rd], one of its states standing for a script, [rest], that gives what the script has, in order, and does not stop
    before it has given it all ([size]); that gives no more than asked for is the contract of [Read::read]. *)
Definition faithful {St : Type} (rd : St -> N -> option read_result * St) (rest : St -> script) (size : St -> nat) : Prop :=
  forall st n o st', 0 < n -> rd st n = (o, st') ->
    same_items (polled o ++ rest st') (rest st) /\
    match o with
    | Some (Data bs) => len bs <= n /\ (length bs + size st' <= size st)%nat
    | _ => (size st' < size st)%nat
    end.

(** ** Counting *)

(** A reader whose calls are counted. *)
Definition counted_reader {St : Type} (rd : St -> N -> option read_result * St) (x : St * N) (n : N) : option read_result * (St * N) :=
  let '(o, st) := rd (fst x) n in (o, (st, snd x + 1)).

(** Payloads read one after the other by a blocking reader. *)
Inductive took {E : Env} {St : Type} (rd : St -> N -> option read_result * St) : cipher -> session -> St -> list payload -> St -> Prop :=
| took_none c sr st : took rd c sr st [] st
| took_more fuel c sr st p c1 sr1 st1 a ps st2 :
    any_sync_read St rd fuel c sr st = Ret (Ok p, c1, sr1, st1, a) -> took rd c1 sr1 st1 ps st2 -> took rd c sr st (p :: ps) st2.
