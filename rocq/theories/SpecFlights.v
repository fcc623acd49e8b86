(** * SpecFlights: what an endpoint shows of itself during its handshake *)
From Coq Require Import List NArith Bool.
From Coq.Strings Require Import Byte.
From Verif Require Import Base Env Cipher Spec SpecHandshake Histories HsDriver SpecPair.
Import ListNotations.
Local Open Scope N_scope.

Section WithEnv.
Context {E : Env}.

(** The terminator, decoys and version packet of BIP 324 for the owner of [sk] in role [r] whose peer sent the key [their]. *)
Definition second_flight (magic : bytes) (r : role) (sk garbage : bytes) (decoys : list bytes) (their f2 : bytes) : Prop :=
  exists m,
    (let '(ei, er) := in_order r (ellswift_of sk) their in
     keys_from (bip_prk magic (bip_secret ei er sk (party_of r))) m) /\
    f2 = bip_second_flight (terminator m r) (send_length_key m r) (send_packet_key m r) garbage decoys.

(** [sent] can have been sent by an endpoint that has read [received]: at first a part of its key and garbage; the
    rest of its handshake only to 64 bytes that do not begin with the magic; and all of it before it reads on. *)
Inductive discloses (magic : bytes) (r : role) (sk garbage : bytes) (decoys : list bytes) (received sent : bytes) : Prop :=
| discloses_key : received = [] -> prefix_of sent (ellswift_of sk ++ garbage) ->
    discloses magic r sk garbage decoys received sent
| discloses_waiting : len received < 64 \/ len received = 64 /\ take 4 received = magic ->
    sent = ellswift_of sk ++ garbage -> discloses magic r sk garbage decoys received sent
| discloses_version f2 k : 64 <= len received -> take 4 received <> magic ->
    second_flight magic r sk garbage decoys (take 64 received) f2 ->
    sent = (ellswift_of sk ++ garbage) ++ take k f2 -> (64 < len received -> len f2 <= k) ->
    discloses magic r sk garbage decoys received sent.

End WithEnv.
