(** * CipherFacts: closed forms of the functions of Cipher.v *)
From Coq Require Import List NArith Bool Lia ZArith.
From Coq.Strings Require Import Byte.
From Coq Require Import ZifyBool ZifyNat ZifyN.
From Verif Require Import Base BaseFacts Env FsChacha Spec FsChachaProofs Cipher.
Import ListNotations.
Local Open Scope N_scope.
Ltac Zify.zify_post_hook ::= Z.div_mod_to_equations.

Section WithEnv.
Context {E : Env} {EL : EnvLaws E}.

Lemma fp_encrypt_inv s aad content ct tag s' :
  fp_encrypt s aad content = Ret (ct, tag, s') ->
  ct = xor_with (keystream (fp_key s) (fp_nonce s) 64 (len content)) content /\
  tag = mac (fp_key s) (fp_nonce s) aad ct /\ fp_rekey s aad = Ret s'.
Proof.
  unfold fp_encrypt, aead_encrypt. intros H. apply bind_ret_inv in H.
  destruct H as (s1 & H1 & H2). injection H2; intros; subst. auto.
Qed.

Lemma fp_encrypt_lens s aad content ct tag s' :
  fp_encrypt s aad content = Ret (ct, tag, s') -> len ct = len content /\ len tag = 16.
Proof.
  intros H. apply fp_encrypt_inv in H. destruct H as (-> & -> & _).
  now rewrite len_xor_with, mac_len.
Qed.

Lemma fc_crypt_inv s chunk out s' :
  fc_crypt s chunk = Ret (out, s') ->
  out = xor_with (keystream (fc_key s) (fc_nonce s) (fc_block s) (len chunk)) chunk /\
  forall chunk', len chunk' = len chunk ->
    fc_crypt s chunk' =
    Ret (xor_with (keystream (fc_key s) (fc_nonce s) (fc_block s) (len chunk)) chunk', s').
Proof.
  unfold fc_crypt. intros H.
  apply bind_ret_inv in H. destruct H as (b & Hb & H).
  apply bind_ret_inv in H. destruct H as (n & Hn & H).
  destruct (if n mod REKEY_INTERVAL =? 0 then _ else _) as [k' b'] eqn:Hk.
  apply bind_ret_inv in H. destruct H as (c & Hc & H).
  rewrite Hn in Hc. injection Hc as <-.
  injection H; intros; subst. split; [reflexivity|].
  intros chunk' Hl. rewrite Hb. cbn [bind]. rewrite Hn. cbn [bind]. rewrite Hk.
  cbn [bind]. now rewrite Hl.
Qed.

Lemma fc_crypt_len s chunk out s' : fc_crypt s chunk = Ret (out, s') -> len out = len chunk.
Proof. intros H. apply fc_crypt_inv in H. destruct H as [-> _]. apply len_xor_with. Qed.

(** [fc_crypt] and [fp_rekey] never run out of fuel, and whether they panic does not
    depend on the data. *)
Lemma add_w_cases chk w a b : (exists n, add_w chk w a b = Ret n) \/ add_w chk w a b = Panic.
Proof. unfold add_w. destruct (_ <? _); [eauto|]. destruct chk; eauto. Qed.

(** *** encrypt *)

Lemma take_3_len n : slice (le_bytes 4 (as_u32 n)) 0 NUM_LENGTH_BYTES = Ret (le_bytes 3 n).
Proof.
  rewrite slice_ok by (rewrite ?len_le_bytes; unfold NUM_LENGTH_BYTES; lia).
  f_equal. unfold NUM_LENGTH_BYTES. rewrite drop_0.
  unfold as_u32. change (2 ^ 32) with (256 ^ N.of_nat 4). rewrite le_bytes_mod.
  apply (take_le_bytes 3 1).
Qed.

Lemma encrypt_small c pt buf t aad :
  len buf < len pt + 20 ->
  encrypt c pt buf t aad = Ret (Err (BufferTooSmall (len pt + 20)), c, buf).
Proof.
  intros H. unfold encrypt, encryption_buffer_len.
  change NUM_PACKET_OVERHEAD_BYTES with 20.
  now rewrite (proj2 (N.ltb_lt _ _)).
Qed.

Lemma encrypt_closed c pt buf t aad :
  len pt + 20 <= len buf ->
  encrypt c pt buf t aad =
  let! (ct, tag, pc) := fp_encrypt (packet_cipher c) (aad_or_default aad) (to_byte t :: pt) in
  let! (lb, lc) := fc_crypt (length_cipher c) (le_bytes 3 (len pt)) in
  Ret (Ok tt, Cipher lc pc, lb ++ ct ++ tag ++ drop (len pt + 20) buf).
Proof.
  intros H. unfold encrypt, encryption_buffer_len.
  change NUM_PACKET_OVERHEAD_BYTES with 20.
  rewrite (proj2 (N.ltb_ge _ _)) by assumption.
  change (NUM_LENGTH_BYTES + NUM_HEADER_BYTES - 1) with 3. change NUM_TAG_BYTES with 16.
  destruct (split_len 3 buf) as (b0 & r0 & -> & L0); [lia|]. autorewrite with len in H.
  destruct r0 as [|h r1]; [rewrite len_nil in H; lia|]. rewrite len_cons in H.
  destruct (split_len (len pt) r1) as (m & r2 & -> & L1); [lia|]. autorewrite with len in H.
  destruct (split_len 16 r2) as (tg & r3 & -> & L2); [lia|].
  rewrite set_index_mid by (symmetry; assumption). cbn [bind].
  replace (b0 ++ to_byte t :: m ++ tg ++ r3) with ((b0 ++ [to_byte t]) ++ m ++ (tg ++ r3))
    by (rewrite <- app_assoc; reflexivity).
  rewrite splice_mid by (autorewrite with len; lia). cbn [bind].
  replace ((b0 ++ [to_byte t]) ++ pt ++ (tg ++ r3)) with (b0 ++ (to_byte t :: pt) ++ (tg ++ r3))
    by (rewrite <- app_assoc; reflexivity).
  rewrite slice_mid by (autorewrite with len; lia). cbn [bind].
  destruct (fp_encrypt _ _ _) as [[[ct tag] pc]| |] eqn:He; [|reflexivity..]. cbn [bind].
  apply fp_encrypt_lens in He. destruct He as [Hct Htag]. rewrite len_cons in Hct.
  rewrite splice_mid by (autorewrite with len; lia). cbn [bind].
  rewrite take_3_len. cbn [bind].
  destruct (fc_crypt _ _) as [[lb lc]| |] eqn:Hc; [|reflexivity..]. cbn [bind].
  apply fc_crypt_len in Hc. rewrite len_le_bytes in Hc.
  change (b0 ++ ct ++ tg ++ r3) with ([] ++ b0 ++ (ct ++ tg ++ r3)).
  rewrite splice_mid by (autorewrite with len; try reflexivity; unfold NUM_LENGTH_BYTES; lia).
  cbn [bind].
  replace ([] ++ lb ++ ct ++ tg ++ r3) with ((lb ++ ct) ++ tg ++ r3)
    by (cbn [app]; now rewrite <- app_assoc).
  rewrite splice_mid by (autorewrite with len; lia). cbn [bind].
  do 2 f_equal. rewrite <- app_assoc. do 3 f_equal.
  change (h :: m ++ tg ++ r3) with ([h] ++ m ++ tg ++ r3).
  rewrite !app_assoc, drop_app_exact; [reflexivity|autorewrite with len; lia].
Qed.

Lemma encrypt_to_vec_closed c pt t aad :
  encrypt_to_vec c pt t aad =
  let! (ct, tag, pc) := fp_encrypt (packet_cipher c) (aad_or_default aad) (to_byte t :: pt) in
  let! (lb, lc) := fc_crypt (length_cipher c) (le_bytes 3 (len pt)) in
  Ret (lb ++ ct ++ tag, Cipher lc pc).
Proof.
  unfold encrypt_to_vec, encryption_buffer_len. change NUM_PACKET_OVERHEAD_BYTES with 20.
  rewrite encrypt_closed by (rewrite len_zeros; lia).
  destruct (fp_encrypt _ _ _) as [[[ct tag] pc]| |]; [|reflexivity..]. cbn [bind].
  destruct (fc_crypt _ _) as [[lb lc]| |]; [|reflexivity..]. cbn [bind].
  rewrite drop_all by (rewrite len_zeros; lia). now rewrite app_nil_r.
Qed.

(** *** decrypt_packet_len *)

Lemma decrypt_packet_len_closed c lb :
  len lb = 3 ->
  decrypt_packet_len c lb =
  let! (out, lc) := fc_crypt (length_cipher c) lb in
  Ret (le_val out + 17, Cipher lc (packet_cipher c)).
Proof.
  intros H. unfold decrypt_packet_len.
  destruct (fc_crypt _ _) as [[out lc]| |] eqn:Hc; [|reflexivity..]. cbn [bind].
  apply fc_crypt_len in Hc. rewrite H in Hc.
  destruct out as [|b0 [|b1 [|b2 [|]]]]; autorewrite with len in Hc; try lia.
  change (index [b0; b1; b2] 0) with (Ret b0). change (index [b0; b1; b2] 1) with (Ret b1).
  change (index [b0; b1; b2] 2) with (Ret b2). cbn [bind].
  change NUM_HEADER_BYTES with 1. change NUM_TAG_BYTES with 16.
  f_equal. f_equal. cbn [le_val]. change (Byte.to_N x00) with 0. lia.
Qed.

(** *** decrypt *)

Lemma decrypt_in_place_small c ct aad :
  len ct < 17 -> decrypt_in_place c ct aad = Ret (Err CiphertextTooSmall, c, ct).
Proof.
  intros H. unfold decrypt_in_place, validate_ciphertext_size.
  change (NUM_TAG_BYTES + NUM_HEADER_BYTES) with 17.
  now rewrite (proj2 (N.ltb_lt _ _)).
Qed.
Lemma decrypt_small c ct buf aad :
  len ct < 17 -> decrypt c ct buf aad = Ret (Err CiphertextTooSmall, c, buf).
Proof.
  intros H. unfold decrypt, validate_ciphertext_size.
  change (NUM_TAG_BYTES + NUM_HEADER_BYTES) with 17.
  now rewrite (proj2 (N.ltb_lt _ _)).
Qed.

Lemma fp_decrypt_some s aad content tag r s' :
  fp_decrypt s aad content tag = Ret (r, s') ->
  match r with
  | None => s' = s /\ tag <> mac (fp_key s) (fp_nonce s) aad content
  | Some pt => tag = mac (fp_key s) (fp_nonce s) aad content /\
               pt = xor_with (keystream (fp_key s) (fp_nonce s) 64 (len content)) content /\
               fp_rekey s aad = Ret s'
  end.
Proof.
  unfold fp_decrypt, aead_decrypt.
  destruct (bytes_eqb tag _) eqn:Hb.
  - apply bytes_eqb_spec in Hb. intros H. apply bind_ret_inv in H.
    destruct H as (s1 & H1 & H2). injection H2; intros; subst. auto.
  - apply bytes_eqb_neq in Hb. intros H. injection H; intros; subst. auto.
Qed.

(** The header byte decides the type. *)
Definition type_of (pt : bytes) : packet_type :=
  match pt with h :: _ => from_byte h | [] => Genuine end.

(** [ct] is [msg ++ tag] with a 16-byte tag. *)
Lemma decrypt_in_place_closed c msg tag aad :
  len tag = 16 -> 1 <= len msg ->
  decrypt_in_place c (msg ++ tag) aad =
  let! (r, pc) := fp_decrypt (packet_cipher c) (aad_or_default aad) msg tag in
  match r with
  | None => Ret (Err Decryption, c, msg ++ tag)
  | Some pt => Ret (Ok (type_of pt, pt), Cipher (length_cipher c) pc, pt ++ tag)
  end.
Proof.
  intros Ht Hm. unfold decrypt_in_place, validate_ciphertext_size.
  change (NUM_TAG_BYTES + NUM_HEADER_BYTES) with 17.
  rewrite (proj2 (N.ltb_ge _ _)) by (autorewrite with len; lia).
  change NUM_TAG_BYTES with 16. rewrite sub_w_ok by (autorewrite with len; lia). cbn [bind].
  rewrite split_at_ok by (autorewrite with len; lia). cbn [bind].
  rewrite take_app_exact, drop_app_exact by (autorewrite with len; lia).
  destruct (fp_decrypt _ _ _ _) as [[r pc]| |] eqn:Hd; [|reflexivity..]. cbn [bind].
  apply fp_decrypt_some in Hd. destruct r as [pt|].
  - destruct Hd as (_ & -> & _).
    destruct (xor_with _ msg) as [|h pt] eqn:Hx.
    + apply (f_equal len) in Hx. rewrite len_xor_with, len_nil in Hx. lia.
    + rewrite index_cons_0. reflexivity.
  - destruct Hd as [-> _]. destruct c; reflexivity.
Qed.

Lemma decrypt_closed c msg tag buf aad :
  len tag = 16 -> 1 <= len msg -> len msg <= len buf ->
  decrypt c (msg ++ tag) buf aad =
  let! (r, pc) := fp_decrypt (packet_cipher c) (aad_or_default aad) msg tag in
  match r with
  | None => Ret (Err Decryption, c, msg ++ drop (len msg) buf)
  | Some pt => Ret (Ok (type_of pt), Cipher (length_cipher c) pc, pt ++ drop (len msg) buf)
  end.
Proof.
  intros Ht Hm Hb. unfold decrypt, validate_ciphertext_size.
  change (NUM_TAG_BYTES + NUM_HEADER_BYTES) with 17.
  rewrite (proj2 (N.ltb_ge _ _)) by (autorewrite with len; lia).
  change NUM_TAG_BYTES with 16. rewrite sub_w_ok by (autorewrite with len; lia). cbn [bind].
  rewrite split_at_ok by (autorewrite with len; lia). cbn [bind].
  rewrite take_app_exact, drop_app_exact by (autorewrite with len; lia).
  rewrite (proj2 (N.ltb_ge _ _)) by assumption.
  destruct (split_len (len msg) buf Hb) as (b0 & r0 & -> & L0).
  change (b0 ++ r0) with ([] ++ b0 ++ r0).
  rewrite splice_mid by (autorewrite with len; lia). cbn [bind].
  rewrite slice_mid by (autorewrite with len; lia). cbn [bind].
  replace (drop (len msg) ([] ++ b0 ++ r0)) with r0
    by (symmetry; apply (drop_app_exact (len msg) b0 r0); congruence).
  destruct (fp_decrypt _ _ _ _) as [[r pc]| |] eqn:Hd; [|reflexivity..]. cbn [bind].
  apply fp_decrypt_some in Hd. destruct r as [pt|].
  - destruct Hd as (_ & Hpt & _).
    assert (len pt = len msg) as Hl by (subst pt; now rewrite len_xor_with).
    rewrite splice_mid by (autorewrite with len; lia). cbn [bind].
    destruct pt as [|h pt]; [rewrite len_nil in Hl; lia|].
    cbn [app]. rewrite index_cons_0. reflexivity.
  - destruct Hd as [-> _]. destruct c; reflexivity.
Qed.

Lemma decrypt_buffer_small c msg tag buf aad :
  len tag = 16 -> 1 <= len msg -> len buf < len msg ->
  decrypt c (msg ++ tag) buf aad = Ret (Err (BufferTooSmall (len msg)), c, buf).
Proof.
  intros Ht Hm Hb. unfold decrypt, validate_ciphertext_size.
  change (NUM_TAG_BYTES + NUM_HEADER_BYTES) with 17.
  rewrite (proj2 (N.ltb_ge _ _)) by (autorewrite with len; lia).
  change NUM_TAG_BYTES with 16. rewrite sub_w_ok by (autorewrite with len; lia). cbn [bind].
  rewrite split_at_ok by (autorewrite with len; lia). cbn [bind].
  rewrite take_app_exact, drop_app_exact by (autorewrite with len; lia).
  now rewrite (proj2 (N.ltb_lt _ _)).
Qed.

Lemma decrypt_to_vec_closed c msg tag aad :
  len tag = 16 -> 1 <= len msg -> len msg <= 4000014 ->
  decrypt_to_vec c (msg ++ tag) aad =
  let! (r, pc) := fp_decrypt (packet_cipher c) (aad_or_default aad) msg tag in
  match r with
  | None => Ret (Err Decryption, c)
  | Some pt => Ret (Ok (type_of pt, pt), Cipher (length_cipher c) pc)
  end.
Proof.
  intros Ht Hm Hb. unfold decrypt_to_vec, decryption_buffer_len.
  change NUM_TAG_BYTES with 16. change MAX_PACKET_SIZE_FOR_ALLOCATION with 4000014.
  rewrite sub_w_ok by (autorewrite with len; lia). cbn [bind].
  rewrite (proj2 (N.ltb_ge _ _)) by (autorewrite with len; lia).
  rewrite decrypt_closed; try assumption; [|autorewrite with len; lia].
  destruct (fp_decrypt _ _ _ _) as [[r pc]| |]; [|reflexivity..]. cbn [bind].
  rewrite drop_all by (autorewrite with len; lia).
  destruct r; cbn [bind]; now rewrite ?app_nil_r.
Qed.

Lemma decrypt_to_vec_too_big c ct aad :
  4000014 + 16 < len ct -> decrypt_to_vec c ct aad = Ret (Err PacketTooBig, c).
Proof.
  intros H. unfold decrypt_to_vec, decryption_buffer_len.
  change NUM_TAG_BYTES with 16. change MAX_PACKET_SIZE_FOR_ALLOCATION with 4000014.
  rewrite sub_w_ok by lia. cbn [bind].
  now rewrite (proj2 (N.ltb_lt _ _)) by lia.
Qed.

Lemma decrypt_to_vec_16 c ct aad :
  len ct = 16 -> decrypt_to_vec c ct aad = Ret (Err CiphertextTooSmall, c).
Proof.
  intros H. unfold decrypt_to_vec, decryption_buffer_len.
  change NUM_TAG_BYTES with 16. change MAX_PACKET_SIZE_FOR_ALLOCATION with 4000014.
  rewrite sub_w_ok by lia. cbn [bind]. rewrite H.
  change (4000014 <? 16 - 16) with false. cbv iota.
  rewrite decrypt_small by lia. reflexivity.
Qed.

Lemma decrypt_to_vec_short c ct aad :
  len ct < 16 ->
  decrypt_to_vec c ct aad = if overflow_checks then Panic else Ret (Err PacketTooBig, c).
Proof.
  intros H. unfold decrypt_to_vec, decryption_buffer_len, sub_w.
  change NUM_TAG_BYTES with 16. change MAX_PACKET_SIZE_FOR_ALLOCATION with 4000014.
  rewrite (proj2 (N.leb_gt _ _)) by assumption.
  destruct overflow_checks; [reflexivity|]. cbn [bind].
  change (2 ^ 64) with 18446744073709551616.
  now rewrite (proj2 (N.ltb_lt _ _)) by lia.
Qed.

(** Any ciphertext of at least 17 bytes is a message and a 16-byte tag. *)
Lemma split_tag (ct : bytes) :
  17 <= len ct -> exists msg tag, ct = msg ++ tag /\ len tag = 16 /\ 1 <= len msg /\
                                  len msg = len ct - 16.
Proof.
  intros H. destruct (split_len (len ct - 16) ct) as (m & t & Hc & Hm); [lia|].
  exists m, t. pose proof (f_equal len Hc) as Hl. rewrite len_app in Hl.
  repeat split; try assumption; lia.
Qed.

End WithEnv.
