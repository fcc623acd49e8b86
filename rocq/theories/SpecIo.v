(** * SpecIo: what a transport delivers, independently of how it is cut into reads.

    Vocabulary of the property statements about the I/O drivers. *)
From Coq Require Import List NArith Bool.
From Coq.Strings Require Import Byte.
From Verif Require Import Base Transport Io.
Import ListNotations.
Local Open Scope N_scope.

(** How a byte stream ends: the peer closes it, or an I/O error. *)
Inductive ending := Closed | Broken (k : io_kind).

Definition end_kind (e : ending) : io_kind :=
  match e with Closed => UnexpectedEof | Broken k => k end.

(** The stream of a script: bytes up to the first end of file or error.  For the synchronous driver
    [Interrupted] is not an end, std's [read_exact] retries it. *)
Fixpoint flatten (fl : flavor) (s : script) : bytes * ending :=
  match s with
  | [] => ([], Closed)
  | Pending :: s' => flatten fl s'
  | Fail k :: s' =>
    match fl, k with
    | Sync, Interrupted => flatten fl s'
    | _, _ => ([], Broken k)
    end
  | Chunk [] :: _ => ([], Closed)
  | Chunk bs :: s' => let '(c, e) := flatten fl s' in (bs ++ c, e)
  end.

(** The transport never reports [Interrupted] to the synchronous driver. *)
Definition calm (fl : flavor) (s : script) : Prop :=
  fl = Sync -> Forall (fun ev => ev <> Fail Interrupted) s.

(** The bytes of the leftover not yet read, and the transport. *)
Definition session_leftover (sr : session) : bytes :=
  match sr with
  | ChainReader cur false _ => cur
  | ChainReader _ true _ => []
  | TokioReader l pos _ => drop pos l
  end.
Definition session_inner (sr : session) : script :=
  match sr with ChainReader _ _ s | TokioReader _ _ s => s end.

(** What a session reader delivers: first the leftover, then the transport. *)
Definition session_stream (fl : flavor) (sr : session) : bytes * ending :=
  let '(c, e) := flatten fl (session_inner sr) in (session_leftover sr ++ c, e).
