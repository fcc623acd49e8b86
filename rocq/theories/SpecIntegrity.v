(** * SpecIntegrity: what it takes to make a receiver accept something its peer did not send.

    Vocabulary of the statements about an attacker who delivers arbitrary bytes; independent of the
    model except for the message type, the calls of Histories.v and the primitives. *)
From Coq Require Import List NArith Bool.
From Coq.Strings Require Import Byte.
From Verif Require Import Base Env Cipher Spec SpecHandshake Histories.
Import ListNotations.
Local Open Scope N_scope.

(** A message without its associated data, as a receiver sees it. *)
Definition view (x : msg) : packet_type * bytes := (m_type x, m_contents x).

(** The associated data of a message; none is the same as empty. *)
Definition aad_of (x : msg) : bytes := match m_aad x with Some a => a | None => [] end.

(** [b] is a contiguous part of [wire]. *)
Definition occurs (b wire : bytes) : Prop := exists before after, wire = before ++ b ++ after.

(** Packet number [i] of the sender, with its associated data: the messages are [ms], the packets
    on the wire [pkts]; three length bytes precede the body. *)
Definition was_sent (ms : list msg) (pkts : list bytes) (i : N) (aad body : bytes) : Prop :=
  exists x p, nth_error ms (N.to_nat i) = Some x /\ nth_error pkts (N.to_nat i) = Some p /\
    aad_of x = aad /\ drop 3 p = body.

Section WithEnv.
Context {E : Env}.

(** The body ends with the Poly1305 tag of the rest of it, under the key and nonce that BIP-324
    gives packet number [i]. *)
Definition tag_verifies (kP : bytes) (i : N) (aad body : bytes) : Prop :=
  exists ct, body = ct ++ mac (bip_packet_key kP (N.to_nat (i / 224))) (bip_packet_nonce i) aad ct.

(** A forgery: a valid tag for something the holder of the key has not tagged with this nonce. *)
Definition forgery (kP : bytes) (ms : list msg) (pkts : list bytes) (i : N) (aad body : bytes) : Prop :=
  tag_verifies kP i aad body /\ ~ was_sent ms pkts i aad body.

(** A forgery without associated data among the bytes of [wire], for a packet number from [lo] on
    and below [hi]. *)
Definition forged_between (kP : bytes) (ms : list msg) (pkts : list bytes) (lo hi : N) (wire : bytes)
  : Prop :=
  exists i body, lo <= i < hi /\ occurs body wire /\ forgery kP ms pkts i [] body.

(** A forgery among what follows the first garbage terminator [t] of [wire]: the first packet carries
    the garbage before the terminator as associated data, the others none. *)
Definition forged_handshake (kP : bytes) (ms : list msg) (pkts : list bytes) (hi : N) (t wire : bytes)
  : Prop :=
  exists garbage tail i body, wire = garbage ++ t ++ tail /\ first_at t wire (len garbage) /\
    i < hi /\ occurs body tail /\ forgery kP ms pkts i (if i =? 0 then garbage else []) body.

End WithEnv.

(** The packets of a handshake: decoys, then the empty version packet; the first one carries the
    garbage as associated data. *)
Definition handshake_msgs (garbage : bytes) (decoys : list bytes) : list msg :=
  match map (Msg Decoy None) decoys ++ [Msg Genuine None []] with
  | [] => []
  | x :: xs => Msg (m_type x) (Some garbage) (m_contents x) :: xs
  end.

(** ** Calls of the packet API *)

(** What a successful decryption call was given, and what it gave: associated data, type, contents. *)
Definition accepted (o : op) (r : output) : option (bytes * (packet_type * bytes)) :=
  let aad a := match a with Some a => a | None => [] end in
  match o, r with
  | ODecrypt ct _ a, RDecrypt (Ok t) buf => Some (aad a, (t, drop 1 (take (len ct - 16) buf)))
  | ODecryptInPlace _ a, RDecryptInPlace (Ok (t, pt)) _ => Some (aad a, (t, drop 1 pt))
  | ODecryptVec _ a, RDecryptVec (Ok (t, pt)) => Some (aad a, (t, drop 1 pt))
  | _, _ => None
  end.

(** All of them, in order. *)
Fixpoint all_accepted (os : list op) (rs : list output) : list (bytes * (packet_type * bytes)) :=
  match os, rs with
  | o :: os, r :: rs =>
    match accepted o r with Some x => x :: all_accepted os rs | None => all_accepted os rs end
  | _, _ => []
  end.

(** The body and associated data of a decryption call. *)
Definition offered (o : op) : option (bytes * bytes) :=
  let aad a := match a with Some a => a | None => [] end in
  match o with
  | ODecrypt ct _ a | ODecryptInPlace ct a | ODecryptVec ct a => Some (aad a, ct)
  | _ => None
  end.
