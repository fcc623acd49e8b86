(** * Histories: how a user drives the cipher API; vocabulary of the property statements.

    Nothing here models code of the crate; these are the callers. *)
From Coq Require Import List NArith Bool.
From Coq.Strings Require Import Byte.
From Verif Require Import Base Env FsChacha Cipher.
Import ListNotations.
Local Open Scope N_scope.

(** A packet as the sender sees it.  Arguments of [encrypt_to_vec], lib.rs:674-688. *)
Record msg := Msg { m_type : packet_type; m_aad : option bytes; m_contents : bytes }.

(** [Role], lib.rs:378-383: the other one. *)
Definition opp (r : role) : role := match r with Initiator => Responder | Responder => Initiator end.

(** [PacketType], lib.rs:389-410. *)
Definition is_decoy (t : packet_type) : bool := match t with Decoy => true | Genuine => false end.

(** The keys a role sends with.  lib.rs:703-744. *)
Definition send_length_key (m : key_material) (r : role) : bytes :=
  match r with Initiator => initiator_length_key m | Responder => responder_length_key m end.
(** lib.rs:703-744. *)
Definition send_packet_key (m : key_material) (r : role) : bytes :=
  match r with Initiator => initiator_packet_key m | Responder => responder_packet_key m end.

Section WithEnv.
Context {E : Env}.

(** Encrypt a list of messages with [encrypt_to_vec].  lib.rs:674-688. *)
Fixpoint send_all (c : cipher) (ms : list msg) : run (list bytes * cipher) :=
  match ms with
  | [] => Ret ([], c)
  | m :: ms' =>
    let! (p, c1) := encrypt_to_vec c (m_contents m) (m_type m) (m_aad m) in
    let! (ps, c2) := send_all c1 ms' in
    Ret (p :: ps, c2)
  end.

(** Receive one packet off a byte stream: read 3 bytes, learn the number of bytes that follow, read
    them, decrypt into a buffer of that size.  [None]: the stream is too short or
    the packet was refused. *)
Definition recv_one (c : cipher) (aad : option bytes) (wire : bytes)
  : run (option (packet_type * bytes) * cipher * bytes) :=
  if len wire <? 3 then Ret (None, c, wire) else
  let! (n, c1) := decrypt_packet_len c (take 3 wire) in
  let rest := drop 3 wire in
  if len rest <? n then Ret (None, c1, rest) else
  let! (r, c2, buf) := decrypt c1 (take n rest) (zeros (n - 16)) aad in
  match r with
  | Ok t => Ret (Some (t, drop 1 buf), c2, drop n rest)
  | Err _ => Ret (None, c2, drop n rest)
  end.

(** Receive as many packets as there are entries in [aads]; stop at the first refusal.  lib.rs:435-590. *)
Fixpoint recv_all (c : cipher) (aads : list (option bytes)) (wire : bytes)
  : run (option (list (packet_type * bytes)) * cipher * bytes) :=
  match aads with
  | [] => Ret (Some [], c, wire)
  | a :: aads' =>
    let! (r, c1, rest) := recv_one c a wire in
    match r with
    | None => Ret (None, c1, rest)
    | Some p =>
      let! (rs, c2, rest') := recv_all c1 aads' rest in
      match rs with
      | None => Ret (None, c2, rest')
      | Some l => Ret (Some (p :: l), c2, rest')
      end
    end
  end.

(** ** Arbitrary interleavings of API calls on one session *)

(** The calls of lib.rs:435-688 a user of [CipherSession] has. *)
Inductive op :=
| OEncrypt (plaintext buffer : bytes) (t : packet_type) (aad : option bytes)
| OEncryptVec (plaintext : bytes) (t : packet_type) (aad : option bytes)
| ODecryptLen (len_bytes : bytes)
| ODecrypt (ciphertext buffer : bytes) (aad : option bytes)
| ODecryptInPlace (ciphertext : bytes) (aad : option bytes)
| ODecryptVec (ciphertext : bytes) (aad : option bytes).

(** What they return, lib.rs:435-688. *)
Inductive output :=
| REncrypt (r : result error unit) (buffer : bytes)
| REncryptVec (packet : bytes)
| RDecryptLen (n : N)
| RDecrypt (r : result error packet_type) (buffer : bytes)
| RDecryptInPlace (r : result error (packet_type * bytes)) (buffer : bytes)
| RDecryptVec (r : result error (packet_type * bytes)).

(** No counterpart in the repo: for statements. *)
Definition is_outbound (o : op) : bool :=
  match o with OEncrypt _ _ _ _ | OEncryptVec _ _ _ => true | _ => false end.

(** Record update of [CipherSession], lib.rs:693-700. *)
Definition with_in (s : cipher_session) (c : cipher) := CipherSession (id s) c (outbound s).
(** Record update of [CipherSession], lib.rs:693-700. *)
Definition with_out (s : cipher_session) (c : cipher) := CipherSession (id s) (inbound s) c.

(** [session.outbound().encrypt(..)], [session.inbound().decrypt(..)] and so on.  lib.rs:752-759. *)
Definition step (s : cipher_session) (o : op) : run (output * cipher_session) :=
  match o with
  | OEncrypt pt buf t aad =>
      let! (r, c, b) := encrypt (outbound s) pt buf t aad in Ret (REncrypt r b, with_out s c)
  | OEncryptVec pt t aad =>
      let! (p, c) := encrypt_to_vec (outbound s) pt t aad in Ret (REncryptVec p, with_out s c)
  | ODecryptLen lb =>
      let! (n, c) := decrypt_packet_len (inbound s) lb in Ret (RDecryptLen n, with_in s c)
  | ODecrypt ct buf aad =>
      let! (r, c, b) := decrypt (inbound s) ct buf aad in Ret (RDecrypt r b, with_in s c)
  | ODecryptInPlace ct aad =>
      let! (r, c, b) := decrypt_in_place (inbound s) ct aad in
      Ret (RDecryptInPlace r b, with_in s c)
  | ODecryptVec ct aad =>
      let! (r, c) := decrypt_to_vec (inbound s) ct aad in Ret (RDecryptVec r, with_in s c)
  end.

(** No counterpart in the repo: a list of calls. *)
Fixpoint steps (s : cipher_session) (os : list op) : run (list output * cipher_session) :=
  match os with
  | [] => Ret ([], s)
  | o :: os' =>
    let! (r, s1) := step s o in
    let! (rs, s2) := steps s1 os' in
    Ret (r :: rs, s2)
  end.

(** Inputs the types of the crate admit: three length bytes; and the one documented gap,
    [decrypt_to_vec] on fewer than 16 bytes, left out. *)
Definition op_ok (o : op) : Prop :=
  match o with
  | ODecryptLen lb => len lb = 3
  | ODecryptVec ct _ => 16 <= len ct
  | _ => True
  end.

End WithEnv.
