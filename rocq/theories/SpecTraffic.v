(** * SpecTraffic: vocabulary of the traffic shaping properties *)
From Coq Require Import List NArith Bool.
From Coq.Strings Require Import Byte.
From Verif Require Import Base Env FsChacha Cipher Histories Transport Io Futures Sessions Traffic TrafficIo TrafficFutures.
Import ListNotations.
Local Open Scope N_scope.

(** ** What goes over the wire *)

(** The unit of the shaped stream: a cover decoy, or a payload with the decoy that pads it. *)
Inductive block := Cover (d : payload) | Padded (d pl : payload) | Bare (pl : payload).

Definition block_payloads (b : block) : list payload :=
  match b with Cover d => [d] | Padded d pl => [d; pl] | Bare pl => [pl] end.

(** The length of the contents of a payload, as recorded in the statistics. *)
Definition size_of (pl : payload) : N := len (snd (seen pl)).

(** Number of packets. *)
Definition packets (bs : list block) : nat := length (flat_map block_payloads bs).

(** What a receiver that skips decoys keeps. *)
Definition genuine_only (ps : list (packet_type * bytes)) : list (packet_type * bytes) :=
  filter (fun p => negb (is_decoy (fst p))) ps.

(** Payloads as messages of the packet layer. *)
Definition wire_of (pls : list payload) : list msg := map as_msg (map seen pls).

(** The sizes recorded for a block, in order. *)
Definition block_sizes (b : block) : list N :=
  match b with Cover d => [size_of d] | Padded d pl => [size_of pl; size_of d] | Bare pl => [size_of pl] end.

(** A decoy of the shaper: 1 to 1024 zero bytes. *)
Definition shaper_decoy_payload (d : payload) : Prop := exists n, 1 <= n <= 1024 /\ d = decoy (zeros n).

(** The blocks a configuration allows. *)
Definition block_ok (c : config) (b : block) : Prop :=
  match b with
  | Cover d => decoy_strategy c = Random /\ shaper_decoy_payload d
  | Padded d _ => padding_strategy c = Random /\ shaper_decoy_payload d
  | Bare _ => padding_strategy c = Disabled
  end.

Section WithEnv.
Context {E : Env}.

(** A payload whose contents and type can be read: all but an empty [Decrypted] one. *)
Definition sound_payload (pl : payload) : Prop := exists v, payload_view pl = Ret v.

(** Blocks written one after the other with the plain writer, and what the calls of [write] return: the
    result of the payload's own write, or the error of its padding, in which case the payload is not written. *)
Inductive serves (fl : flavor) : pwriter -> list block -> list (payload * result perror unit) -> pwriter -> Prop :=
| serves_nil p : serves fl p [] [] p
| serves_cover p bs rs p1 d x p2 :
    serves fl p bs rs p1 -> write_any fl p1 d = Ret (x, p2) -> serves fl p (bs ++ [Cover d]) rs p2
| serves_bare p bs rs p1 pl x p2 :
    serves fl p bs rs p1 -> write_any fl p1 pl = Ret (x, p2) ->
    serves fl p (bs ++ [Bare pl]) (rs ++ [(pl, x)]) p2
| serves_padded p bs rs p1 d pl p2 x p3 :
    serves fl p bs rs p1 -> write_any fl p1 d = Ret (Ok tt, p2) -> write_any fl p2 pl = Ret (x, p3) ->
    serves fl p (bs ++ [Padded d pl]) (rs ++ [(pl, x)]) p3
| serves_padding_failed p bs rs p1 d pl e p2 :
    serves fl p bs rs p1 -> write_any fl p1 d = Ret (Err e, p2) ->
    serves fl p (bs ++ [Padded d pl]) (rs ++ [(pl, Err e)]) p2.

(** A transport that takes [n] bytes and then fails. *)
Definition fail_after (n : N) (k : io_kind) (more : list wev) : list wev :=
  (if n =? 0 then [] else [Accept n]) ++ WFail k :: more.

(** ** Schedules of the blocking driver *)

(** The payloads given to [write], in order. *)
Definition calls (ms : list move) : list payload :=
  flat_map (fun m => match m with CallWrite pl => [pl] | _ => [] end) ms.

(** The call that has not returned yet. *)
Definition in_flight (a : app_pc) : list payload :=
  match a with AppLock pl | AppPad pl | AppWritePad _ pl | AppWrite pl => [pl] | _ => [] end.

(** Moves of the decoy thread in a schedule. *)
Definition thread_moves (ms : list move) : nat :=
  length (filter (fun m => match m with Thread => true | _ => false end) ms).

Definition thread_ended (t : thread_pc) : Prop := t = ThDone \/ t = ThPanicked.

(** ** Events of the async driver *)

(** The commands the channel takes: those sent before the last sender is dropped. *)
Fixpoint accepted (es : list event) : list command :=
  match es with
  | [] => []
  | Send c :: es => c :: accepted es
  | DropSenders :: _ => []
  | _ :: es => accepted es
  end.

Definition alive (es : list event) : Prop := ~ In Kill es.

Definition event_sound (e : event) : Prop :=
  match e with Send c => sound_payload (cmd_payload c) | _ => True end.

(** ** Reading *)

(** Polls and cancellations of shaped reads, as [run_schedule]; also the sizes given to [record_read]. *)
Fixpoint shaped_schedule (acts : list action) (f : read_future) (r : tokio_reader)
  : run (list (result perror payload) * tokio_reader * read_future * list N) :=
  match acts with
  | [] => Ret ([], r, f, [])
  | DoCancel :: acts' => shaped_schedule acts' FreshFuture r
  | DoPoll :: acts' =>
    let! (x, r, f, recs) := poll_shaped_read f r in
    let! (xs, r', f', recs') := shaped_schedule acts' f r in
    Ret (match x with Ready a => a :: xs | NotReady => xs end, r', f', recs ++ recs')
  end.

(** Blocking shaped reads. *)
Fixpoint shaped_reads (n : nat) (r : sync_reader) : run (list (result perror payload) * sync_reader * list N) :=
  match n with
  | O => Ret ([], r, [])
  | S n =>
    let! (x, r, recs) := shaped_read r in
    let! (xs, r, recs') := shaped_reads n r in
    Ret (x :: xs, r, recs ++ recs')
  end.

End WithEnv.

(** ** Shaped endpoints of either kind *)

Section Endpoints.
Context {E : Env} {G : Type} {R : Rng G}.

(** The writing half. *)
Inductive shaped := Blocking (s : @shared G) | Tasked (t : @task G).

(** [ShapedProtocol::new] then [into_split]. *)
Definition shaped_connect (fl : flavor) (magic : bytes) (r : role) (rnd : bytes) (c : config) (g : G) (s : script)
    (w : writer) : run (result perror (any_reader * shaped)) :=
  match fl with
  | Sync =>
    let! x := shaped_new magic r rnd c g s w in
    Ret match x with Ok (rd, st) => Ok (RSync rd, Blocking st) | Err e => Err e end
  | Tokio =>
    let! x := tokio_shaped_new magic r rnd c g s w in
    Ret match x with Ok (rd, t) => Ok (RTokio rd, Tasked t) | Err e => Err e end
  end.

(** What happens to it afterwards. *)
Inductive activity := Moves (ms : list move) | Events (es : list event).

(** [ep] becomes [ep'], with the mutex free. *)
Definition becomes (ep : shaped) (a : activity) (ep' : shaped) : Prop :=
  match ep, a, ep' with
  | Blocking s, Moves ms, Blocking s' => play s ms = Some s' /\ lock s' = Free
  | Tasked t, Events es, Tasked t' => t' = task_run t es
  | _, _, _ => False
  end.

Definition requests (a : activity) : list payload :=
  match a with Moves ms => calls ms | Events es => map cmd_payload (accepted es) end.

Definition activity_sound (a : activity) : Prop :=
  match a with Moves ms => Forall sound_payload (calls ms) | Events es => Forall event_sound es end.

(** At most this many packets are written. *)
Definition effort (a : activity) : N := match a with Moves ms => len ms | Events es => 2 * len es end.

Definition shaped_writer (ep : shaped) : pwriter :=
  match ep with Blocking s => st_writer s | Tasked t => tk_writer t end.

(** The results of the calls of [write] so far, in order. *)
Definition results (ep : shaped) : list (result perror unit) :=
  match ep with Blocking s => map snd (returned s) | Tasked t => map snd (answers t) end.

End Endpoints.

(** ** Statistics *)

(** [l] is an interleaving of the lists [ls]. *)
Inductive merges {A} : list (list A) -> list A -> Prop :=
| merges_nil ls : Forall (fun l => l = []) ls -> merges ls []
| merges_cons before x l after r :
    merges (before ++ l :: after) r -> merges (before ++ (x :: l) :: after) (x :: r).

(** The atomic operations of a thread that makes these calls. *)
Fixpoint thread_ops (rs : list record) : run (list stat_op) :=
  match rs with
  | [] => Ret []
  | r :: rs => let! a := record_ops r in let! b := thread_ops rs in Ret (a ++ b)
  end.

Definition reads_of (rs : list record) : list N :=
  flat_map (fun r => match r with RecordRead n _ => [n] | _ => [] end) rs.
Definition writes_of (rs : list record) : list N :=
  flat_map (fun r => match r with RecordWrite n _ => [n] | _ => [] end) rs.
Definition times_of (rs : list record) : list N :=
  flat_map (fun r => match r with RecordRead _ (AtMillis t) | RecordWrite _ (AtMillis t) => [t mod 2 ^ 64] | _ => [] end) rs.

Definition sum (l : list N) : N := fold_right N.add 0 l.
