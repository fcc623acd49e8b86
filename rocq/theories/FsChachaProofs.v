(** * FsChachaProofs: the forward-secret ciphers against Spec.v *)
From Coq Require Import List NArith Bool Lia ZArith.
From Coq.Strings Require Import Byte.
From Coq Require Import ZifyBool ZifyNat ZifyN.
From Verif Require Import Base BaseFacts Env FsChacha Spec.
Import ListNotations.
Local Open Scope N_scope.
Ltac Zify.zify_post_hook ::= Z.div_mod_to_equations.

Section WithEnv.
Context {E : Env} {EL : EnvLaws E}.

(** The state of either cipher before packet [n]. *)
Definition fp_at (k : bytes) (n : N) : fspoly :=
  FsPoly (bip_packet_key k (N.to_nat (n / 224))) n.
Definition fc_at (k : bytes) (n : N) : fschacha :=
  FsChaCha (bip_length_key k (N.to_nat (n / 224))) (3 * (n mod 224)) n.

Lemma fp_new_at k : fp_new k = fp_at k 0.
Proof. reflexivity. Qed.
Lemma fc_new_at k : fc_new k = fc_at k 0.
Proof. reflexivity. Qed.

Lemma as_u32_small n : n < 2 ^ 32 -> as_u32 n = n.
Proof. intros. unfold as_u32. now apply N.mod_small. Qed.

Lemma fp_nonce_at k n : fp_nonce (fp_at k n) = bip_packet_nonce n.
Proof.
  unfold fp_nonce, bip_packet_nonce, fp_at, REKEY_INTERVAL; cbn [fp_ctr].
  rewrite as_u32_small; [reflexivity|]. pose proof (N.mod_lt n 224). lia.
Qed.

Lemma div_next n : (n + 1) mod 224 <> 0 -> (n + 1) / 224 = n / 224 /\ (n + 1) mod 224 = n mod 224 + 1.
Proof. lia. Qed.
Lemma div_next_0 n : (n + 1) mod 224 = 0 -> (n + 1) / 224 = n / 224 + 1 /\ n mod 224 = 223.
Proof. lia. Qed.

Lemma take_32_aead k nonce aad :
  take 32 (rfc_aead k nonce aad (zeros 32)) = keystream k nonce 64 32.
Proof.
  unfold rfc_aead. rewrite len_zeros, xor_with_zeros by apply keystream_len.
  apply take_app_exact. now rewrite keystream_len.
Qed.

Lemma fp_rekey_at k n aad :
  n + 1 < 2 ^ 64 -> fp_rekey (fp_at k n) aad = Ret (fp_at k (n + 1)).
Proof.
  intros Hn. unfold fp_rekey. cbn [fp_at fp_ctr fp_key].
  rewrite add_w_ok by assumption. cbn [bind]. f_equal. unfold fp_at, REKEY_INTERVAL.
  destruct (N.eqb_spec ((n + 1) mod 224) 0) as [H|H].
  - destruct (div_next_0 n H) as [-> _].
    replace (N.to_nat (n / 224 + 1)) with (S (N.to_nat (n / 224))) by lia.
    f_equal. cbn [bip_packet_key].
    rewrite take_32_aead. unfold aead_encrypt; cbn [fst].
    rewrite len_zeros, xor_with_zeros by apply keystream_len.
    f_equal. unfold bip_rekey_nonce, REKEY_INITIAL_NONCE. f_equal.
    change (FsPoly (bip_packet_key k (N.to_nat (n / 224))) n) with (fp_at k n).
    rewrite fp_nonce_at. unfold bip_packet_nonce.
    rewrite drop_app_exact by (rewrite len_le_bytes; reflexivity).
    now rewrite Nnat.N2Nat.id.
  - destruct (div_next n H) as [-> _]. reflexivity.
Qed.

Lemma fp_encrypt_at k n aad content :
  n + 1 < 2 ^ 64 ->
  fp_encrypt (fp_at k n) aad content =
  let ct := xor_with (keystream (bip_packet_key k (N.to_nat (n / 224))) (bip_packet_nonce n)
                                64 (len content)) content in
  Ret (ct, mac (bip_packet_key k (N.to_nat (n / 224))) (bip_packet_nonce n) aad ct,
       fp_at k (n + 1)).
Proof.
  intros. unfold fp_encrypt, aead_encrypt. rewrite fp_nonce_at, fp_rekey_at by assumption.
  reflexivity.
Qed.

Lemma fc_nonce_at k n : n < 2 ^ 32 -> fc_nonce (fc_at k n) = bip_length_nonce (n / 224).
Proof.
  intros H. unfold fc_nonce, bip_length_nonce, fc_at, REKEY_INTERVAL; cbn [fc_chunk].
  change (le_bytes 4 0) with (zeros 4). f_equal.
  change 8%nat with (4 + 4)%nat. rewrite le_bytes_app. f_equal.
  replace (n / 224 / 256 ^ N.of_nat 4) with 0; [reflexivity|].
  change (256 ^ N.of_nat 4) with 4294967296. change (2 ^ 32) with 4294967296 in H. lia.
Qed.

Lemma fc_crypt_at k n chunk :
  n + 1 < 2 ^ 32 -> len chunk = 3 ->
  fc_crypt (fc_at k n) chunk =
  Ret (xor_with (keystream (bip_length_key k (N.to_nat (n / 224))) (bip_length_nonce (n / 224))
                           (3 * (n mod 224)) 3) chunk,
       fc_at k (n + 1)).
Proof.
  intros Hn Hc. unfold fc_crypt. rewrite fc_nonce_at by lia. rewrite Hc.
  cbn [fc_at fc_key fc_block fc_chunk]. change (2 ^ 32) with 4294967296 in Hn.
  rewrite !add_w_ok by (change (2 ^ 32) with 4294967296; unfold LENGTH_BYTES; lia).
  cbn [bind]. unfold REKEY_INTERVAL, LENGTH_BYTES, fc_at.
  destruct (N.eqb_spec ((n + 1) mod 224) 0) as [H|H].
  - destruct (div_next_0 n H) as [-> Hm].
    replace (N.to_nat (n / 224 + 1)) with (S (N.to_nat (n / 224))) by lia.
    do 2 f_equal. cbn [bip_length_key].
    rewrite xor_with_zeros by apply keystream_len. rewrite Nnat.N2Nat.id, Hm, H.
    reflexivity.
  - destruct (div_next n H) as [-> ->]. do 2 f_equal. f_equal. lia.
Qed.

(** ** The 32-bit counter at its end *)

Lemma fc_crypt_last_debug k chunk :
  overflow_checks = true -> fc_crypt (fc_at k (2 ^ 32 - 1)) chunk = Panic.
Proof.
  intros H. unfold fc_crypt. cbn [fc_at fc_key fc_block fc_chunk]. rewrite H.
  rewrite add_w_ok by (unfold LENGTH_BYTES; reflexivity). cbn [bind].
  rewrite add_w_panic by (vm_compute; discriminate). reflexivity.
Qed.

(** In release builds the counter wraps inside epoch 2^32/224; the wrapped value 0 is a multiple of 224, so the code
    re-keys there, early, and starts over with chunk counter 0 (hence nonce epoch 0). *)
Definition fc_wrapped (k : bytes) : fschacha :=
  FsChaCha (keystream (bip_length_key k (N.to_nat ((2 ^ 32 - 1) / 224)))
                      (bip_length_nonce ((2 ^ 32 - 1) / 224)) (3 * ((2 ^ 32 - 1) mod 224) + 3) 32)
           0 0.

Lemma fc_crypt_last_release k chunk :
  overflow_checks = false -> len chunk = 3 ->
  fc_crypt (fc_at k (2 ^ 32 - 1)) chunk =
  Ret (xor_with (keystream (bip_length_key k (N.to_nat ((2 ^ 32 - 1) / 224)))
                    (bip_length_nonce ((2 ^ 32 - 1) / 224)) (3 * ((2 ^ 32 - 1) mod 224)) 3) chunk,
       fc_wrapped k).
Proof.
  intros H Hc. unfold fc_crypt. rewrite fc_nonce_at by reflexivity. rewrite Hc.
  cbn [fc_at fc_key fc_block fc_chunk]. rewrite H.
  rewrite add_w_ok by (unfold LENGTH_BYTES; reflexivity). cbn [bind].
  rewrite add_w_wrap by (vm_compute; discriminate). cbn [bind].
  replace ((2 ^ 32 - 1 + 1) mod 2 ^ 32) with 0 by reflexivity.
  change (0 mod REKEY_INTERVAL =? 0) with true.
  rewrite xor_with_zeros by apply keystream_len. reflexivity.
Qed.

(** ** Nonce and key-stream position uniqueness *)

Lemma bip_packet_nonce_inj a b :
  a < 2 ^ 64 -> b < 2 ^ 64 -> bip_packet_nonce a = bip_packet_nonce b -> a = b.
Proof.
  change (2 ^ 64) with 18446744073709551616. unfold bip_packet_nonce. intros Ha Hb H.
  apply app_inj_len in H; [|now rewrite !len_le_bytes]. destruct H as [H1 H2].
  apply le_bytes_inj in H1; [|change (256 ^ N.of_nat 4) with 4294967296; lia..].
  apply le_bytes_inj in H2; [|change (256 ^ N.of_nat 8) with 18446744073709551616; lia..].
  lia.
Qed.

Lemma bip_packet_rekey_nonce_disjoint a e : bip_packet_nonce a <> bip_rekey_nonce e.
Proof.
  unfold bip_packet_nonce, bip_rekey_nonce. intros H.
  apply app_inj_len in H; [|now rewrite len_le_bytes]. destruct H as [H _].
  change [xff; xff; xff; xff] with (le_bytes 4 4294967295) in H.
  apply le_bytes_inj in H; change (256 ^ N.of_nat 4) with 4294967296; lia.
Qed.

Lemma bip_rekey_nonce_inj a b :
  a < 2 ^ 64 -> b < 2 ^ 64 -> bip_rekey_nonce a = bip_rekey_nonce b -> a = b.
Proof.
  change (2 ^ 64) with 18446744073709551616. unfold bip_rekey_nonce. intros Ha Hb H.
  apply app_inj_len in H; [|reflexivity]. destruct H as [_ H].
  apply le_bytes_inj in H; [assumption|change (256 ^ N.of_nat 8) with 18446744073709551616; lia..].
Qed.

End WithEnv.
