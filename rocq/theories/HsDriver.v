(** * HsDriver: a caller following the handshake API (vocabulary of the property statements).

    This is the flow documented in handshake.rs; the drivers shipped with the
    crate (io.rs, futures.rs) are modelled separately. *)
From Coq Require Import String List NArith Bool.
From Coq.Strings Require Import Byte.
From Verif Require Import Base Env FsChacha Cipher Histories Spec SpecHandshake Handshake.
Import ListNotations.
Local Open Scope N_scope.

(** Why a handshake stops: an error of the crate, or the remote's bytes are used up.
    No counterpart in the repo: the driver of this file. *)
Inductive hs_stop := StopError (e : error) | StopShort.

(** handshake.rs:168-205 and 315-378, where [None] adds nothing. *)
Definition garbage_bytes (g : option bytes) : bytes := match g with Some g => g | None => [] end.
(** handshake.rs:315-378. *)
Definition decoy_list (d : option (list bytes)) : list bytes :=
  match d with Some d => d | None => [] end.

(** The associated data that authenticates this garbage.  handshake.rs:565-581. *)
Definition some_nonempty (g : bytes) : option bytes := match g with [] => None | _ :: _ => Some g end.
(** No counterpart in the repo: for statements, about lib.rs:389-410. *)
Definition is_decoy_packet (p : packet_type * bytes) : Prop := fst p = Decoy.

(** The garbage terminator a role sends.  handshake.rs:228-275. *)
Definition terminator (m : key_material) (r : role) : bytes :=
  match r with
  | Initiator => initiator_garbage_terminator m
  | Responder => responder_garbage_terminator m
  end.

(** handshake.rs:228-275, lib.rs:324-339. *)
Definition party_of (r : role) : party :=
  match r with Initiator => PartyA | Responder => PartyB end.

(** Own and peer encodings in initiator, responder order.  handshake.rs:228-275. *)
Definition in_order (r : role) (own theirs : bytes) : bytes * bytes :=
  match r with Initiator => (own, theirs) | Responder => (theirs, own) end.

(** The packets of the second flight: decoys, then the version packet; only the first carries associated data.
    handshake.rs:315-378. *)
Fixpoint version_msgs (aad : option bytes) (ds : list bytes) : list msg :=
  match ds with
  | [] => [Msg Genuine aad []]
  | d :: ds' => Msg Decoy aad d :: version_msgs None ds'
  end.

Section WithEnv.
Context {E : Env}.

(** The keys, terminators and session id that BIP 324 derives from [prk], and their lengths. *)
Definition keys_from (prk : bytes) (m : key_material) : Prop :=
  bip_derived prk "session_id" (session_id m) /\
  bip_derived prk "initiator_L" (initiator_length_key m) /\
  bip_derived prk "initiator_P" (initiator_packet_key m) /\
  bip_derived prk "responder_L" (responder_length_key m) /\
  bip_derived prk "responder_P" (responder_packet_key m) /\
  bip_derived prk "garbage_terminators"
    (initiator_garbage_terminator m ++ responder_garbage_terminator m) /\
  len (session_id m) = 32 /\ len (initiator_length_key m) = 32 /\ len (initiator_packet_key m) = 32 /\
  len (responder_length_key m) = 32 /\ len (responder_packet_key m) = 32 /\
  len (initiator_garbage_terminator m) = 16 /\ len (responder_garbage_terminator m) = 16.

(** Create the handshake and send the key in a buffer of the right size.
    handshake.rs:115-145, 168-205, called as in io.rs:330-345. *)
Definition party_start (magic : bytes) (r : role) (rnd : bytes) (garbage : option bytes)
  : run (result hs_stop (handshake sent_key * bytes)) :=
  let! x := hs_new magic r rnd in
  match x with
  | Err e => Ret (Err (StopError e))
  | Ok h =>
    let! (x, out) := send_key h garbage (zeros (send_key_len garbage)) in
    match x with
    | Err e => Ret (Err (StopError e))
    | Ok h => Ret (Ok (h, out))
    end
  end.

(** Take the peer's 64 bytes, answer with terminator, decoys and version. *)
Definition party_key (h : handshake sent_key) (their_key : bytes) (decoys : option (list bytes))
  : run (result hs_stop (handshake sent_version * bytes)) :=
  let! x := receive_key h their_key in
  match x with
  | Err e => Ret (Err (StopError e))
  | Ok h =>
    let! (x, out) := send_version h (zeros (send_version_len decoys)) decoys in
    match x with
    | Err e => Ret (Err (StopError e))
    | Ok h => Ret (Ok (h, out))
    end
  end.

(** Read packets until one completes the handshake.  handshake.rs:491-581, called as in io.rs:392-414. *)
Fixpoint party_versions (fuel : nat) (h : handshake received_garbage) (wire : bytes)
  : run (result hs_stop cipher_session * bytes) :=
  match fuel with
  | O => NoFuel
  | S fuel =>
    if len wire <? 3 then Ret (Err StopShort, wire) else
    let! (n, h) := hs_decrypt_packet_len h (take 3 wire) in
    let wire := drop 3 wire in
    if len wire <? n then Ret (Err StopShort, wire) else
    let! (x, _) := receive_version h (take n wire) in
    match x with
    | Err e => Ret (Err (StopError e), drop n wire)
    | Ok (Complete c) => Ret (Ok c, drop n wire)
    | Ok (DecoyPacket h) => party_versions fuel h (drop n wire)
    end
  end.

(** Everything after the peer's key; also returns the bytes not used.  handshake.rs:438-581, called as in io.rs:364-414. *)
Definition party_finish (h : handshake sent_version) (wire : bytes)
  : run (result hs_stop cipher_session * bytes) :=
  let! x := receive_garbage h wire in
  match x with
  | Err e => Ret (Err (StopError e), wire)
  | Ok (NeedMoreData _) => Ret (Err StopShort, wire)
  | Ok (FoundGarbage h n) => party_versions (S (length wire)) h (drop n wire)
  end.

(** Offer growing prefixes of a stream, chunk by chunk, until there is an answer.
    handshake.rs:438-464, called as in io.rs:364-387. *)
Fixpoint feed_garbage (h : handshake sent_version) (acc : bytes) (chunks : list bytes)
  : run (result error garbage_result) :=
  let! x := receive_garbage h acc in
  match x with
  | Ok (NeedMoreData h') =>
      match chunks with
      | [] => Ret (Ok (NeedMoreData h'))
      | c :: cs => feed_garbage h' (acc ++ c) cs
      end
  | _ => Ret x
  end.

End WithEnv.
