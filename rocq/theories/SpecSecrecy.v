(** * SpecSecrecy: what it means that a stream does not tell what was sent

    An eavesdropper who knows nothing about the key stream cannot exclude any sequence of messages for which
    some key stream gives the bytes seen. The key streams in question differ from the real one only in the
    bytes used for these messages. *)
From Coq Require Import List NArith Bool.
From Verif Require Import Base Env Spec Cipher Histories.
Import ListNotations.
Local Open Scope N_scope.

(** [E] with another key stream and MAC. *)
Definition with_primitives (E : Env) (ks : bytes -> bytes -> N -> N -> bytes)
    (mc : bytes -> bytes -> bytes -> bytes -> bytes) : Env :=
  {| overflow_checks := @overflow_checks E;
     debug_assertions := @debug_assertions E;
     keystream := ks;
     mac := mc;
     sk_valid := @sk_valid E;
     ellswift_of := @ellswift_of E;
     ecdh_xonly := @ecdh_xonly E;
     hkdf_extract := @hkdf_extract E;
     hkdf_expand := @hkdf_expand E |}.

Definition with_keystream (E : Env) (ks : bytes -> bytes -> N -> N -> bytes) : Env := with_primitives E ks (@mac E).

(** A request for key stream is the concatenation of requests for its parts. *)
Definition KeystreamSplits (E : Env) : Prop :=
  forall k n off a b, keystream k n off (a + b) = keystream k n off a ++ keystream k n (off + a) b.

(** Two chains of keys differ in every epoch that [count] packets reach. *)
Definition apart (f g : nat -> bytes) (count : N) : Prop := forall e, N.of_nat e * 224 < count -> f e <> g e.

(** Messages that look alike: the same sizes and associated data; contents and types may differ. *)
Definition alike (x y : msg) : Prop := len (m_contents x) = len (m_contents y) /\ m_aad x = m_aad y.

(** Bytes on the wire of these messages. *)
Definition wire_size (ms : list msg) : N := fold_right (fun x n => len (m_contents x) + 20 + n) 0 ms.

(** The messages of a sender whose every message depends on the packets so far, and the streams this gives. *)
Definition asked (strategy : list bytes -> msg) (wire : list bytes) : list msg :=
  map (fun i => strategy (firstn i wire)) (seq 0 (length wire)).

Definition transcript {E : Env} (c : cipher) (strategy : list bytes -> msg) (wire : list bytes) : Prop :=
  exists c', send_all c (asked strategy wire) = Ret (wire, c').

(** What somebody who gets hold of the state of a cipher reads in the packets of the current epoch: [key] and [ctr] are
    those of the state, the packets those of the whole session. *)
Definition opened {E : Env} (key : bytes) (i : N) (packet : bytes) : bytes :=
  let body := take (len packet - 19) (drop 3 packet) in
  xor_with (keystream key (bip_packet_nonce i) 64 (len body)) body.

Definition exposed {E : Env} (key : bytes) (ctr : N) (packets : list bytes) : list bytes :=
  let start := 224 * (ctr / 224) in
  map (fun j => opened key (start + N.of_nat j) (nth (N.to_nat start + j) packets [])) (seq 0 (N.to_nat (ctr mod 224))).
