(** * Toy: small environments used for examples and counterexamples.

    Not cryptographic; they satisfy [EnvLaws] (and ECDH agreement), which is all the theorems need.
    The real primitives are in Rfc.v. *)
From Coq Require Import List NArith Bool Lia ZArith.
From Coq.Strings Require Import Byte.
From Coq Require Import ZifyBool ZifyNat ZifyN.
From Verif Require Import Base BaseFacts Env.
Import ListNotations.
Local Open Scope N_scope.

Definition sum_bytes (l : bytes) : N := fold_right (fun b a => (Byte.to_N b + 3 * a) mod 65536) 7 l.

Fixpoint counting (start : N) (n : nat) : bytes :=
  match n with O => [] | S n' => byte_of_N start :: counting (start + 1) n' end.

(** [chk]: overflow checks and debug assertions on. *)
Definition toy (chk : bool) : Env := {|
  overflow_checks := chk;
  debug_assertions := chk;
  keystream := fun _ nonce off c => counting (le_val nonce + off) (N.to_nat c);
  mac := fun key nonce aad ct =>
    counting (sum_bytes key + sum_bytes nonce + 5 * sum_bytes aad + 11 * sum_bytes ct) 16;
  sk_valid := fun sk => N.eqb (len sk) 32;
  ellswift_of := fun sk => take 64 (sk ++ counting (sum_bytes sk) 32 ++ zeros 64);
  ecdh_xonly := fun a b _ _ data => counting (sum_bytes a + 3 * sum_bytes b + sum_bytes data) 32;
  hkdf_extract := fun salt ikm => counting (sum_bytes salt + sum_bytes ikm) 32;
  hkdf_expand := fun prk info n =>
    if n <=? 8160 then Some (counting (sum_bytes prk + 5 * sum_bytes info) (N.to_nat n)) else None
|}.

Lemma len_counting s n : len (counting s n) = N.of_nat n.
Proof.
  revert s; induction n; intros; cbn [counting]; [reflexivity|]. rewrite len_cons, IHn. lia.
Qed.

#[export] Instance toy_laws chk : EnvLaws (toy chk).
Proof.
  constructor; intros; cbn [toy keystream mac ellswift_of hkdf_expand].
  - rewrite len_counting. lia.
  - rewrite len_counting. reflexivity.
  - rewrite len_take, !len_app, len_zeros. lia.
  - change (32 <=? 8160) with true. eexists. split; [reflexivity|].
    rewrite len_counting. reflexivity.
Qed.

Lemma toy_ecdh chk : EcdhAgrees (toy chk).
Proof. intros ? ? ? ?; reflexivity. Qed.
