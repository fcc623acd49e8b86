(** * SpecReplay: the keys of an endpoint *)
From Coq Require Import List NArith Bool.
From Verif Require Import Base Env Cipher Spec SpecHandshake HsDriver SpecPair.

(** The keys of the owner of [sk] in role [r] whose peer sent the key [their]. *)
Definition keys_of {E : Env} (magic : bytes) (r : role) (sk their : bytes) (m : key_material) : Prop :=
  let '(ei, er) := in_order r (ellswift_of sk) their in keys_from (bip_prk magic (bip_secret ei er sk (party_of r))) m.
