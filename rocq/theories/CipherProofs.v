(** * CipherProofs: proofs for properties C01-C16 and C50 *)
From Coq Require Import List NArith Bool Lia ZArith.
From Coq.Strings Require Import Byte.
From Coq Require Import ZifyBool ZifyNat ZifyN.
From Verif Require Import Base BaseFacts Env FsChacha Spec FsChachaProofs Cipher CipherFacts Histories.
Import ListNotations.
Local Open Scope N_scope.
Ltac Zify.zify_post_hook ::= Z.div_mod_to_equations.

Section WithEnv.
Context {E : Env} {EL : EnvLaws E}.

(** ** Types *)

Lemma from_to_byte t : from_byte (to_byte t) = t.
Proof. destruct t; reflexivity. Qed.

Lemma to_byte_header t : to_byte t = bip_header (is_decoy t).
Proof. destruct t; reflexivity. Qed.

(** ** One packet, equal cipher states *)

(** What one successful encryption is, in terms of the primitives. *)
Lemma encrypt_vec_inv c pt t aad p c' :
  encrypt_to_vec c pt t aad = Ret (p, c') ->
  exists lb ct tag,
    p = lb ++ ct ++ tag /\ len lb = 3 /\ len ct = len pt + 1 /\ len tag = 16 /\
    ct = xor_with (keystream (fp_key (packet_cipher c)) (fp_nonce (packet_cipher c))
                             64 (len pt + 1)) (to_byte t :: pt) /\
    tag = mac (fp_key (packet_cipher c)) (fp_nonce (packet_cipher c)) (aad_or_default aad) ct /\
    fp_rekey (packet_cipher c) (aad_or_default aad) = Ret (packet_cipher c') /\
    fc_crypt (length_cipher c) (le_bytes 3 (len pt)) = Ret (lb, length_cipher c').
Proof.
  rewrite encrypt_to_vec_closed. intros H.
  apply bind_ret_inv in H. destruct H as ([[ct tag] pc] & He & H).
  apply bind_ret_inv in H. destruct H as ([lb lc] & Hc & H).
  injection H; intros; subst. clear H.
  pose proof (fp_encrypt_lens _ _ _ _ _ _ He) as [L1 L2].
  apply fp_encrypt_inv in He. destruct He as (Hct & Htag & Hr).
  rewrite len_cons in *.
  exists lb, ct, tag. repeat split; try assumption.
  apply fc_crypt_len in Hc. now rewrite len_le_bytes in Hc.
Qed.

Lemma fc_crypt_dec s pl lb s' :
  len pl = 3 -> fc_crypt s pl = Ret (lb, s') -> fc_crypt s lb = Ret (pl, s').
Proof.
  intros Hl H. pose proof (fc_crypt_len _ _ _ _ H) as Hlb.
  apply fc_crypt_inv in H. destruct H as [-> H].
  rewrite H by (now rewrite len_xor_with). now rewrite xor_with_invol.
Qed.

Lemma fp_decrypt_good s aad pt :
  forall s', fp_rekey s aad = Ret s' ->
  let ct := xor_with (keystream (fp_key s) (fp_nonce s) 64 (len pt)) pt in
  fp_decrypt s aad ct (mac (fp_key s) (fp_nonce s) aad ct) = Ret (Some pt, s').
Proof.
  intros s' H ct. unfold fp_decrypt, aead_decrypt. rewrite bytes_eqb_refl.
  rewrite H. cbn [bind].
  assert (len ct = len pt) as -> by apply len_xor_with. unfold ct.
  now rewrite xor_with_invol.
Qed.

(** The receiver in the same state learns [len mod 2^24 + 17]. *)
Lemma decrypt_len_of_sent c pt t aad p c' :
  encrypt_to_vec c pt t aad = Ret (p, c') ->
  decrypt_packet_len c (take 3 p) =
  Ret (len pt mod 2 ^ 24 + 17, Cipher (length_cipher c') (packet_cipher c)).
Proof.
  intros H. apply encrypt_vec_inv in H.
  destruct H as (lb & ct & tag & -> & L1 & _ & _ & _ & _ & _ & Hc).
  rewrite take_app_exact by (now symmetry).
  rewrite decrypt_packet_len_closed by assumption.
  apply fc_crypt_dec in Hc; [|apply len_le_bytes]. rewrite Hc. cbn [bind].
  now rewrite le_val_le_bytes.
Qed.

Lemma recv_one_sent c pt t aad p c' rest :
  len pt < 2 ^ 24 ->
  encrypt_to_vec c pt t aad = Ret (p, c') ->
  recv_one c aad (p ++ rest) = Ret (Some (t, pt), c', rest).
Proof.
  intros Hpt H. pose proof (decrypt_len_of_sent _ _ _ _ _ _ H) as Hd.
  apply encrypt_vec_inv in H.
  destruct H as (lb & ct & tag & -> & L1 & L2 & L3 & Hct & Htag & Hr & Hc).
  rewrite N.mod_small in Hd by assumption.
  unfold recv_one.
  rewrite (proj2 (N.ltb_ge _ _)) by (autorewrite with len; lia).
  rewrite take_app_exact in Hd by (now symmetry).
  rewrite <- !app_assoc.
  rewrite take_app_exact, drop_app_exact by (now symmetry).
  rewrite Hd. cbn [bind].
  rewrite (proj2 (N.ltb_ge _ _)) by (autorewrite with len; lia).
  rewrite (app_assoc ct tag rest).
  rewrite take_app_exact, drop_app_exact by (autorewrite with len; lia).
  rewrite decrypt_closed by (autorewrite with len; lia). cbn [packet_cipher].
  subst tag. subst ct.
  replace (len pt + 1) with (len (to_byte t :: pt)) by apply len_cons.
  rewrite (fp_decrypt_good _ _ _ _ Hr). cbn [bind length_cipher].
  cbn [type_of]. rewrite from_to_byte. destruct c' as [lc' pc']; cbn [length_cipher packet_cipher].
  rewrite (drop_all (len (xor_with _ _))) by (autorewrite with len; lia). now rewrite app_nil_r.
Qed.

Lemma recv_all_sent ms : forall c pkts c' rest,
  Forall (fun m => len (m_contents m) < 2 ^ 24) ms ->
  send_all c ms = Ret (pkts, c') ->
  recv_all c (map m_aad ms) (concat pkts ++ rest) =
  Ret (Some (map (fun m => (m_type m, m_contents m)) ms), c', rest).
Proof.
  induction ms as [|m ms IH]; intros c pkts c' rest Hf H; cbn [send_all recv_all map] in *.
  - injection H; intros; subst. reflexivity.
  - inversion Hf; subst.
    apply bind_ret_inv in H. destruct H as ([p c1] & H1 & H).
    apply bind_ret_inv in H. destruct H as ([ps c2] & H4 & H).
    injection H; intros; subst. clear H. cbn [concat]. rewrite <- app_assoc.
    erewrite recv_one_sent by eassumption. cbn [bind].
    erewrite IH by eassumption. reflexivity.
Qed.

(** ** Panics *)

Lemma add_w_release w a b : overflow_checks = false -> exists n, add_w overflow_checks w a b = Ret n.
Proof. intros ->. unfold add_w. destruct (_ <? _); eauto. Qed.

Lemma fp_rekey_ret s aad :
  (overflow_checks = true -> fp_ctr s + 1 < 2 ^ 64) ->
  exists s', fp_rekey s aad = Ret s' /\
             (overflow_checks = true -> fp_ctr s' = fp_ctr s + 1).
Proof.
  intros H. unfold fp_rekey.
  destruct (add_w overflow_checks 64 (fp_ctr s) 1) eqn:Ha.
  - cbn [bind]. eexists; split; [reflexivity|]. cbn [fp_ctr]. intros Ht.
    rewrite add_w_ok in Ha by auto. now injection Ha.
  - exfalso. destruct overflow_checks eqn:Ho.
    + rewrite add_w_ok in Ha by auto. discriminate.
    + unfold add_w in Ha. destruct (_ <? _); discriminate.
  - exfalso. unfold add_w in Ha. destruct (_ <? _); [discriminate|].
    destruct overflow_checks; discriminate.
Qed.

(** Invariant of reachable length ciphers in builds with overflow checks. *)
Definition fc_wf (s : fschacha) : Prop := fc_block s = 3 * (fc_chunk s mod 224).

Lemma fc_crypt_ret s chunk :
  (overflow_checks = true -> fc_wf s /\ fc_chunk s + 1 < 2 ^ 32) ->
  exists out s', fc_crypt s chunk = Ret (out, s') /\
    (overflow_checks = true -> fc_wf s' /\ fc_chunk s' = fc_chunk s + 1).
Proof.
  intros H. unfold fc_crypt.
  destruct overflow_checks eqn:Ho.
  - destruct (H eq_refl) as [Hw Hc]. unfold fc_wf in *.
    change (2 ^ 32) with 4294967296 in *.
    rewrite add_w_ok by (change (2 ^ 32) with 4294967296; unfold LENGTH_BYTES; lia).
    cbn [bind]. rewrite !add_w_ok by assumption. cbn [bind].
    unfold REKEY_INTERVAL, LENGTH_BYTES.
    destruct (N.eqb_spec ((fc_chunk s + 1) mod 224) 0) as [K|K].
    + eexists _, _. split; [reflexivity|]. cbn [fc_block fc_chunk]. intros _.
      split; [lia|reflexivity].
    + eexists _, _. split; [reflexivity|]. cbn [fc_block fc_chunk]. intros _.
      split; [lia|reflexivity].
  - destruct (add_w_release 32 (fc_block s) LENGTH_BYTES Ho) as (b & Hb).
    destruct (add_w_release 32 (fc_chunk s) 1 Ho) as (n & Hn).
    rewrite Ho in *. rewrite Hb. cbn [bind]. rewrite Hn. cbn [bind].
    destruct (n mod REKEY_INTERVAL =? 0); cbn [bind];
    (eexists _, _; split; [reflexivity|]; discriminate).
Qed.

(** Counters of a cipher after at most [k] operations (only meaningful with overflow checks). *)
Definition counted (k : N) (c : cipher) : Prop :=
  overflow_checks = true ->
  fc_wf (length_cipher c) /\ fc_chunk (length_cipher c) <= k /\ fp_ctr (packet_cipher c) <= k.

Definition room (k : N) : Prop := overflow_checks = true -> k + 1 < 2 ^ 32.

Lemma counted_mono k k' c : k <= k' -> counted k c -> counted k' c.
Proof. intros Hk H Ho. destruct (H Ho) as (? & ? & ?). repeat split; auto; lia. Qed.

Lemma fp_part k c aad : counted k c -> room k ->
  exists s', fp_rekey (packet_cipher c) aad = Ret s' /\
    forall lc, (overflow_checks = true -> fc_wf lc /\ fc_chunk lc <= k + 1) ->
      counted (k + 1) (Cipher lc s').
Proof.
  intros Hc Hr. destruct (fp_rekey_ret (packet_cipher c) aad) as (s' & H1 & H2).
  - intros Ho. destruct (Hc Ho) as (_ & _ & H). specialize (Hr Ho).
    change (2 ^ 32) with 4294967296 in Hr. change (2 ^ 64) with 18446744073709551616. lia.
  - exists s'. split; [assumption|]. intros lc Hl Ho. cbn [length_cipher packet_cipher].
    destruct (Hl Ho). rewrite (H2 Ho). destruct (Hc Ho) as (_ & _ & H3). repeat split; auto; lia.
Qed.

Lemma fc_part k c chunk : counted k c -> room k ->
  exists out lc, fc_crypt (length_cipher c) chunk = Ret (out, lc) /\
    (overflow_checks = true -> fc_wf lc /\ fc_chunk lc <= k + 1).
Proof.
  intros Hc Hr. destruct (fc_crypt_ret (length_cipher c) chunk) as (out & s' & H1 & H2).
  - intros Ho. destruct (Hc Ho) as (? & ? & _). specialize (Hr Ho). split; [assumption|lia].
  - exists out, s'. split; [assumption|]. intros Ho. destruct (H2 Ho) as [? ->].
    destruct (Hc Ho) as (_ & ? & _). split; [assumption|lia].
Qed.

Lemma encrypt_vec_ret k c pt t aad : counted k c -> room k ->
  exists p c', encrypt_to_vec c pt t aad = Ret (p, c') /\ counted (k + 1) c'.
Proof.
  intros Hc Hr. rewrite encrypt_to_vec_closed.
  destruct (fp_part k c (aad_or_default aad) Hc Hr) as (s' & H1 & H2).
  destruct (fc_part k c (le_bytes 3 (len pt)) Hc Hr) as (out & lc & H3 & H4).
  unfold fp_encrypt, aead_encrypt. rewrite H1. cbn [bind]. rewrite H3. cbn [bind].
  eexists _, _. split; [reflexivity|]. now apply H2.
Qed.

Lemma encrypt_ret k c pt buf t aad : counted k c -> room k ->
  exists r c', encrypt c pt buf t aad = Ret (r, c') /\ counted (k + 1) (snd r) .
Proof.
  intros Hc Hr. destruct (N.lt_ge_cases (len buf) (len pt + 20)).
  - rewrite encrypt_small by assumption. eexists (_, _), _. split; [reflexivity|].
    cbn. eapply counted_mono; [|eassumption]. lia.
  - rewrite encrypt_closed by assumption.
    destruct (fp_part k c (aad_or_default aad) Hc Hr) as (s' & H1 & H2).
    destruct (fc_part k c (le_bytes 3 (len pt)) Hc Hr) as (out & lc & H3 & H4).
    unfold fp_encrypt, aead_encrypt. rewrite H1. cbn [bind]. rewrite H3. cbn [bind].
    eexists (_, _), _. split; [reflexivity|]. cbn. now apply H2.
Qed.

Lemma decrypt_len_ret k c lb : len lb = 3 -> counted k c -> room k ->
  exists n c', decrypt_packet_len c lb = Ret (n, c') /\ counted (k + 1) c'.
Proof.
  intros Hl Hc Hr. rewrite decrypt_packet_len_closed by assumption.
  destruct (fc_part k c lb Hc Hr) as (out & lc & H3 & H4).
  rewrite H3. cbn [bind]. eexists _, _. split; [reflexivity|].
  intros Ho. destruct (H4 Ho), (Hc Ho) as (_ & _ & ?). cbn. repeat split; auto; lia.
Qed.

Lemma fp_decrypt_ret k c aad msg tag : counted k c -> room k ->
  exists r pc, fp_decrypt (packet_cipher c) aad msg tag = Ret (r, pc) /\
    counted (k + 1) (Cipher (length_cipher c) pc).
Proof.
  intros Hc Hr. unfold fp_decrypt. destruct (aead_decrypt _ _ _ _ _).
  - destruct (fp_part k c aad Hc Hr) as (s' & H1 & H2). rewrite H1. cbn [bind].
    eexists _, _. split; [reflexivity|]. apply H2. intros Ho.
    destruct (Hc Ho) as (? & ? & _). split; [assumption|lia].
  - eexists _, _. split; [reflexivity|]. destruct c; cbn.
    eapply counted_mono; [|eassumption]. lia.
Qed.

Lemma decrypt_in_place_ret k c ct aad : counted k c -> room k ->
  exists r c' b, decrypt_in_place c ct aad = Ret (r, c', b) /\ counted (k + 1) c'.
Proof.
  intros Hc Hr. destruct (N.lt_ge_cases (len ct) 17) as [H|H].
  - rewrite decrypt_in_place_small by assumption. eexists _, _, _. split; [reflexivity|].
    eapply counted_mono; [|eassumption]. lia.
  - destruct (split_tag ct H) as (m & t & -> & H1 & H2 & _).
    rewrite decrypt_in_place_closed by assumption.
    destruct (fp_decrypt_ret k c (aad_or_default aad) m t Hc Hr) as (r & pc & H3 & H4).
    rewrite H3. cbn [bind]. destruct r; eexists _, _, _; (split; [reflexivity|]); auto.
    eapply counted_mono; [|eassumption]. lia.
Qed.

Lemma decrypt_ret k c ct buf aad : counted k c -> room k ->
  exists r c' b, decrypt c ct buf aad = Ret (r, c', b) /\ counted (k + 1) c'.
Proof.
  intros Hc Hr. destruct (N.lt_ge_cases (len ct) 17) as [H|H].
  - rewrite decrypt_small by assumption. eexists _, _, _. split; [reflexivity|].
    eapply counted_mono; [|eassumption]. lia.
  - destruct (split_tag ct H) as (m & t & -> & H1 & H2 & _).
    destruct (N.lt_ge_cases (len buf) (len m)).
    + rewrite decrypt_buffer_small by assumption. eexists _, _, _. split; [reflexivity|].
      eapply counted_mono; [|eassumption]. lia.
    + rewrite decrypt_closed by assumption.
      destruct (fp_decrypt_ret k c (aad_or_default aad) m t Hc Hr) as (r & pc & H3 & H4).
      rewrite H3. cbn [bind]. destruct r; eexists _, _, _; (split; [reflexivity|]); auto.
      eapply counted_mono; [|eassumption]. lia.
Qed.

Lemma decrypt_vec_ret k c ct aad : 16 <= len ct -> counted k c -> room k ->
  exists r c', decrypt_to_vec c ct aad = Ret (r, c') /\ counted (k + 1) c'.
Proof.
  intros Hl Hc Hr.
  assert (counted (k + 1) c) by (eapply counted_mono; [|eassumption]; lia).
  destruct (N.eq_dec (len ct) 16).
  - rewrite decrypt_to_vec_16 by assumption. eauto.
  - destruct (N.lt_ge_cases (4000014 + 16) (len ct)).
    + rewrite decrypt_to_vec_too_big by assumption. eauto.
    + destruct (split_tag ct) as (m & t & -> & H1 & H2 & H3); [lia|].
      rewrite decrypt_to_vec_closed by lia.
      destruct (fp_decrypt_ret k c (aad_or_default aad) m t Hc Hr) as (r & pc & H4 & H5).
      rewrite H4. cbn [bind]. destruct r; eauto.
Qed.

Lemma session_counted m r : counted 0 (inbound (session_new m r)) /\ counted 0 (outbound (session_new m r)).
Proof. destruct r; split; intros _; cbn; repeat split; try reflexivity; lia. Qed.

Lemma step_ret k s o : op_ok o -> counted k (inbound s) -> counted k (outbound s) -> room k ->
  exists r s', step s o = Ret (r, s') /\ counted (k + 1) (inbound s') /\ counted (k + 1) (outbound s').
Proof.
  intros Hok Hi Hu Hr.
  assert (counted (k + 1) (inbound s)) by (eapply counted_mono; [|eassumption]; lia).
  assert (counted (k + 1) (outbound s)) by (eapply counted_mono; [|eassumption]; lia).
  destruct o; cbn [step op_ok] in *.
  - destruct (encrypt_ret k (outbound s) plaintext buffer t aad Hu Hr) as ([r c] & b & H1 & H2).
    rewrite H1. cbn [bind snd] in *. eexists _, _. split; [reflexivity|]. cbn. auto.
  - destruct (encrypt_vec_ret k (outbound s) plaintext t aad Hu Hr) as (p & c & H1 & H2).
    rewrite H1. cbn [bind] in *. eexists _, _. split; [reflexivity|]. cbn. auto.
  - destruct (decrypt_len_ret k (inbound s) len_bytes Hok Hi Hr) as (p & c & H1 & H2).
    rewrite H1. cbn [bind] in *. eexists _, _. split; [reflexivity|]. cbn. auto.
  - destruct (decrypt_ret k (inbound s) ciphertext buffer aad Hi Hr) as (p & c & b & H1 & H2).
    rewrite H1. cbn [bind] in *. eexists _, _. split; [reflexivity|]. cbn. auto.
  - destruct (decrypt_in_place_ret k (inbound s) ciphertext aad Hi Hr) as (p & c & b & H1 & H2).
    rewrite H1. cbn [bind] in *. eexists _, _. split; [reflexivity|]. cbn. auto.
  - destruct (decrypt_vec_ret k (inbound s) ciphertext aad Hok Hi Hr) as (p & c & H1 & H2).
    rewrite H1. cbn [bind] in *. eexists _, _. split; [reflexivity|]. cbn. auto.
Qed.

Lemma steps_ret os : forall k s, Forall op_ok os ->
  counted k (inbound s) -> counted k (outbound s) ->
  (overflow_checks = true -> k + len os < 2 ^ 32) ->
  exists rs s', steps s os = Ret (rs, s').
Proof.
  induction os as [|o os IH]; intros k s Hf Hi Hu Hr; cbn [steps]; [eauto|].
  inversion Hf; subst.
  destruct (step_ret k s o) as (r & s1 & Hs & Hi1 & Hu1); try assumption.
  { intros Ho. specialize (Hr Ho). rewrite len_cons in Hr. lia. }
  rewrite Hs. cbn [bind].
  destruct (IH (k + 1) s1) as (rs & s2 & H3); try assumption.
  { intros Ho. specialize (Hr Ho). rewrite len_cons in Hr. lia. }
  rewrite H3. cbn [bind]. eauto.
Qed.

Lemma session_no_panic m r os :
  Forall op_ok os -> (overflow_checks = true -> len os < 2 ^ 32) ->
  exists rs s', steps (session_new m r) os = Ret (rs, s').
Proof.
  intros. destruct (session_counted m r). apply (steps_ret os 0); try assumption.
Qed.

Lemma send_all_ret ms : forall k c, counted k c ->
  (overflow_checks = true -> k + len ms < 2 ^ 32) ->
  exists ps c', send_all c ms = Ret (ps, c') /\ counted (k + len ms) c'.
Proof.
  induction ms as [|m ms IH]; intros k c Hc Hr; cbn [send_all].
  - eexists _, _. split; [reflexivity|]. eapply counted_mono; [|eassumption]. lia.
  - destruct (encrypt_vec_ret k c (m_contents m) (m_type m) (m_aad m)) as (p & c1 & H1 & H2);
      try assumption.
    { intros Ho. specialize (Hr Ho). rewrite len_cons in Hr. lia. }
    rewrite H1. cbn [bind].
    destruct (IH (k + 1) c1) as (ps & c2 & H3 & H4); try assumption.
    { intros Ho. specialize (Hr Ho). rewrite len_cons in Hr. lia. }
    rewrite H3. cbn [bind]. eexists _, _. split; [reflexivity|].
    rewrite len_cons. replace (k + (len ms + 1)) with (k + 1 + len ms) by lia. assumption.
Qed.

(** ** Mirror images *)

Lemma mirror m r : outbound (session_new m r) = inbound (session_new m (opp r)) /\
                   inbound (session_new m r) = outbound (session_new m (opp r)) /\
                   id (session_new m r) = id (session_new m (opp r)).
Proof. destruct r; repeat split. Qed.

(** C01 *)
Theorem round_trip m r ms rest :
  Forall (fun x => len (m_contents x) < 2 ^ 24) ms ->
  (overflow_checks = true -> len ms < 2 ^ 32) ->
  exists pkts out',
    send_all (outbound (session_new m r)) ms = Ret (pkts, out') /\
    recv_all (inbound (session_new m (opp r))) (map m_aad ms) (concat pkts ++ rest) =
    Ret (Some (map (fun x => (m_type x, m_contents x)) ms), out', rest).
Proof.
  intros Hf Hr. destruct (send_all_ret ms 0 (outbound (session_new m r))) as (ps & c' & H & _).
  - apply session_counted.
  - assumption.
  - exists ps, c'. split; [assumption|].
    destruct (mirror m r) as [<- _]. now apply recv_all_sent.
Qed.

(** ** Conformance *)

Definition to_bip (m : msg) : bool * bytes * bytes :=
  (is_decoy (m_type m), aad_or_default (m_aad m), m_contents m).

Lemma encrypt_vec_at kL kP n pt t aad :
  n + 1 < 2 ^ 32 ->
  encrypt_to_vec (Cipher (fc_at kL n) (fp_at kP n)) pt t aad =
  Ret (bip_packet kL kP n (is_decoy t) (aad_or_default aad) pt,
       Cipher (fc_at kL (n + 1)) (fp_at kP (n + 1))).
Proof.
  intros Hn. rewrite encrypt_to_vec_closed. cbn [packet_cipher length_cipher].
  change (2 ^ 32) with 4294967296 in Hn.
  rewrite fp_encrypt_at by (change (2 ^ 64) with 18446744073709551616; lia). cbn [bind].
  rewrite fc_crypt_at by (rewrite ?len_le_bytes; try reflexivity; exact Hn). cbn [bind].
  unfold bip_packet, bip_length_prefix, bip_body, rfc_aead. now rewrite <- to_byte_header.
Qed.

Lemma send_all_at kL kP ms : forall n,
  n + len ms < 2 ^ 32 ->
  send_all (Cipher (fc_at kL n) (fp_at kP n)) ms =
  Ret (bip_stream kL kP n (map to_bip ms),
       Cipher (fc_at kL (n + len ms)) (fp_at kP (n + len ms))).
Proof.
  induction ms as [|m ms IH]; intros n Hn; cbn [send_all map bip_stream].
  - rewrite len_nil, N.add_0_r. reflexivity.
  - rewrite len_cons in Hn. rewrite encrypt_vec_at by lia. cbn [bind].
    rewrite IH by lia. cbn [bind]. rewrite len_cons.
    replace (n + 1 + len ms) with (n + (len ms + 1)) by lia. reflexivity.
Qed.

Lemma session_out_at m r :
  outbound (session_new m r) =
  Cipher (fc_at (send_length_key m r) 0) (fp_at (send_packet_key m r) 0).
Proof. destruct r; reflexivity. Qed.

(** C02 + C03 *)
Theorem stream_conforms m r ms :
  len ms < 2 ^ 32 ->
  exists out', send_all (outbound (session_new m r)) ms =
    Ret (bip_stream (send_length_key m r) (send_packet_key m r) 0 (map to_bip ms), out').
Proof.
  intros H. rewrite session_out_at, send_all_at by assumption. eauto.
Qed.

(** C02 for indices where the length cipher has already wrapped. *)
Lemma encrypt_vec_body kP n lc pt t aad p c' :
  n + 1 < 2 ^ 64 ->
  encrypt_to_vec (Cipher lc (fp_at kP n)) pt t aad = Ret (p, c') ->
  drop 3 p = bip_body kP n (is_decoy t) (aad_or_default aad) pt /\
  packet_cipher c' = fp_at kP (n + 1).
Proof.
  intros Hn H. apply encrypt_vec_inv in H.
  destruct H as (lb & ct & tag & -> & L1 & L2 & L3 & Hct & Htag & Hr & Hc).
  cbn [packet_cipher] in *. rewrite fp_nonce_at in *. rewrite fp_rekey_at in Hr by assumption.
  injection Hr as Hr. split; [|now symmetry].
  rewrite drop_app_exact by (now symmetry).
  unfold bip_body, rfc_aead. rewrite <- to_byte_header, len_cons.
  cbn [fp_key fp_at] in *. now subst.
Qed.

Lemma send_all_bodies kP ms : forall n lc ps c',
  n + len ms < 2 ^ 64 ->
  send_all (Cipher lc (fp_at kP n)) ms = Ret (ps, c') ->
  packet_cipher c' = fp_at kP (n + len ms) /\
  forall i m, nth_error ms i = Some m -> exists p, nth_error ps i = Some p /\
    drop 3 p = bip_body kP (n + N.of_nat i) (is_decoy (m_type m)) (aad_or_default (m_aad m))
                        (m_contents m).
Proof.
  induction ms as [|m ms IH]; intros n lc ps c' Hn H; cbn [send_all] in H.
  - injection H; intros; subst. rewrite len_nil, N.add_0_r. split; [reflexivity|].
    intros [|] ?; discriminate.
  - apply bind_ret_inv in H. destruct H as ([p [lc1 pc1]] & H1 & H).
    apply bind_ret_inv in H. destruct H as ([ps' c2] & H2 & H).
    injection H; intros; subst. clear H. rewrite len_cons in Hn.
    apply encrypt_vec_body in H1; [|lia]. cbn [packet_cipher] in H1. destruct H1 as [Hb ->].
    apply IH in H2; [|lia]. destruct H2 as [Hp Hi]. split.
    + rewrite Hp, len_cons. f_equal. lia.
    + intros [|i] m' Hm; cbn [nth_error] in *.
      * injection Hm as <-. eexists. split; [reflexivity|].
        now rewrite N.add_0_r.
      * destruct (Hi i m' Hm) as (q & Hq & Hq'). exists q. split; [assumption|].
        rewrite Hq'. f_equal. lia.
Qed.

Theorem bodies_conform m r ms ps c' i x :
  len ms < 2 ^ 64 ->
  send_all (outbound (session_new m r)) ms = Ret (ps, c') ->
  nth_error ms i = Some x -> exists p, nth_error ps i = Some p /\
    drop 3 p = bip_body (send_packet_key m r) (N.of_nat i) (is_decoy (m_type x))
                        (aad_or_default (m_aad x)) (m_contents x).
Proof.
  intros Hn H Hi. rewrite session_out_at in H.
  apply send_all_bodies in H; [|assumption]. destruct H as [_ H].
  destruct (H i x Hi) as (p & Hp & Hd). eauto.
Qed.

(** C04 *)
Theorem length_counter_debug m r ms :
  overflow_checks = true -> len ms = 2 ^ 32 - 1 ->
  exists ps c', send_all (outbound (session_new m r)) ms = Ret (ps, c') /\
    (forall pt t aad, encrypt_to_vec c' pt t aad = Panic) /\
    (forall pt buf t aad, len pt + 20 <= len buf -> encrypt c' pt buf t aad = Panic).
Proof.
  intros Ho Hl. rewrite session_out_at, send_all_at by (rewrite Hl; reflexivity).
  rewrite Hl, N.add_0_l. eexists _, _. split; [reflexivity|]. split.
  - intros pt t aad. rewrite encrypt_to_vec_closed. cbn [packet_cipher length_cipher].
    rewrite fp_encrypt_at by reflexivity. cbn [bind].
    rewrite fc_crypt_last_debug by assumption. reflexivity.
  - intros pt buf t aad Hb. rewrite encrypt_closed by assumption.
    cbn [packet_cipher length_cipher].
    rewrite fp_encrypt_at by reflexivity. cbn [bind].
    rewrite fc_crypt_last_debug by assumption. reflexivity.
Qed.

(** The 2^32-th packet of a release build re-keys the length cipher early and starts again at
    epoch 0; so packet 2^32 (the next one) has this length prefix. *)
Theorem length_counter_release m r ms x y :
  overflow_checks = false -> len ms = 2 ^ 32 - 1 ->
  exists ps c' p q c'' c''',
    send_all (outbound (session_new m r)) ms = Ret (ps, c') /\
    encrypt_to_vec c' (m_contents x) (m_type x) (m_aad x) = Ret (p, c'') /\
    encrypt_to_vec c'' (m_contents y) (m_type y) (m_aad y) = Ret (q, c''') /\
    let e := (2 ^ 32 - 1) / 224 in
    let early := keystream (bip_length_key (send_length_key m r) (N.to_nat e))
                           (bip_length_nonce e) 96 32 in
    take 3 q = xor_with (keystream early (bip_length_nonce 0) 0 3)
                        (le_bytes 3 (len (m_contents y))).
Proof.
  intros Ho Hl. rewrite session_out_at, send_all_at by (rewrite Hl; reflexivity).
  rewrite Hl, N.add_0_l.
  set (kL := send_length_key m r). set (kP := send_packet_key m r).
  assert (exists p, encrypt_to_vec (Cipher (fc_at kL (2 ^ 32 - 1)) (fp_at kP (2 ^ 32 - 1)))
    (m_contents x) (m_type x) (m_aad x) = Ret (p, Cipher (fc_wrapped kL) (fp_at kP (2 ^ 32)))) as [p Hp].
  { rewrite encrypt_to_vec_closed. cbn [packet_cipher length_cipher].
    rewrite fp_encrypt_at by reflexivity. cbn [bind].
    rewrite fc_crypt_last_release by (try assumption; now rewrite len_le_bytes). cbn [bind].
    eexists; reflexivity. }
  destruct (encrypt_to_vec (Cipher (fc_wrapped kL) (fp_at kP (2 ^ 32)))
    (m_contents y) (m_type y) (m_aad y)) as [[q c3]| |] eqn:Hq.
  - exists (bip_stream kL kP 0 (map to_bip ms)), (Cipher (fc_at kL (2 ^ 32 - 1)) (fp_at kP (2 ^ 32 - 1))), p, q,
      (Cipher (fc_wrapped kL) (fp_at kP (2 ^ 32))), c3.
    split; [reflexivity|]. split; [assumption|]. split; [assumption|]. cbv zeta.
    apply encrypt_vec_inv in Hq.
    destruct Hq as (lb & ct & tag & -> & L1 & _ & _ & _ & _ & _ & Hc).
    rewrite take_app_exact by (now symmetry).
    apply fc_crypt_inv in Hc. destruct Hc as [-> _]. cbn [length_cipher fc_wrapped fc_key fc_block].
    rewrite len_le_bytes. f_equal.
  - exfalso. destruct (encrypt_vec_ret 0 (Cipher (fc_wrapped kL) (fp_at kP (2 ^ 32)))
      (m_contents y) (m_type y) (m_aad y)) as (? & ? & H & _); try congruence;
      intros Ho'; congruence.
  - exfalso. destruct (encrypt_vec_ret 0 (Cipher (fc_wrapped kL) (fp_at kP (2 ^ 32)))
      (m_contents y) (m_type y) (m_aad y)) as (? & ? & H & _); try congruence;
      intros Ho'; congruence.
Qed.

(** C05 *)
Theorem nonces_unique m r ms1 ms2 ps1 ps2 c1 c2 :
  len ms1 < 2 ^ 64 -> len ms2 < 2 ^ 64 -> len ms1 <> len ms2 ->
  send_all (outbound (session_new m r)) ms1 = Ret (ps1, c1) ->
  send_all (outbound (session_new m r)) ms2 = Ret (ps2, c2) ->
  fp_nonce (packet_cipher c1) <> fp_nonce (packet_cipher c2).
Proof.
  intros H1 H2 Hne S1 S2. rewrite session_out_at in *.
  apply send_all_bodies in S1; [|assumption]. apply send_all_bodies in S2; [|assumption].
  destruct S1 as [-> _], S2 as [-> _]. rewrite !fp_nonce_at, !N.add_0_l.
  intros H. apply bip_packet_nonce_inj in H; auto.
Qed.

Theorem length_positions_disjoint m r ms1 ms2 ps1 ps2 c1 c2 :
  len ms1 < 2 ^ 32 -> len ms2 < 2 ^ 32 -> len ms1 < len ms2 ->
  send_all (outbound (session_new m r)) ms1 = Ret (ps1, c1) ->
  send_all (outbound (session_new m r)) ms2 = Ret (ps2, c2) ->
  let l1 := length_cipher c1 in let l2 := length_cipher c2 in
  fc_block l1 + 3 <= 672 /\
  (fc_nonce l1 = fc_nonce l2 -> fc_key l1 = fc_key l2 /\ fc_block l1 + 3 <= fc_block l2) .
Proof.
  intros H1 H2 Hlt S1 S2. rewrite session_out_at in *.
  rewrite send_all_at in S1 by assumption. rewrite send_all_at in S2 by assumption.
  injection S1 as _ <-. injection S2 as _ <-. cbn zeta.
  cbn [length_cipher]. rewrite ?N.add_0_l. split; [cbn [fc_at fc_block]; lia|].
  rewrite !fc_nonce_at by assumption. intros H.
  unfold bip_length_nonce in H. apply app_inj_len in H; [|reflexivity]. destruct H as [_ H].
  change (2 ^ 32) with 4294967296 in *.
  apply le_bytes_inj in H; [|change (256 ^ N.of_nat 8) with 18446744073709551616; lia..].
  cbn [fc_at fc_key fc_block]. rewrite H. split; [reflexivity|]. lia.
Qed.

(** C06 *)
Theorem encrypt_contract c pt buf t aad r c' buf' :
  encrypt c pt buf t aad = Ret (r, c', buf') ->
  (len buf < len pt + 20 /\ r = Err (BufferTooSmall (len pt + 20)) /\ c' = c /\ buf' = buf) \/
  (len pt + 20 <= len buf /\ r = Ok tt /\ len buf' = len buf /\
   drop (len pt + 20) buf' = drop (len pt + 20) buf /\
   encrypt_to_vec c pt t aad = Ret (take (len pt + 20) buf', c')).
Proof.
  intros H. destruct (N.lt_ge_cases (len buf) (len pt + 20)) as [L|L].
  - left. rewrite encrypt_small in H by assumption. injection H; intros; subst. auto.
  - right. rewrite encrypt_closed in H by assumption.
    rewrite encrypt_to_vec_closed.
    apply bind_ret_inv in H. destruct H as ([[ct tag] pc] & He & H).
    apply bind_ret_inv in H. destruct H as ([lb lc] & Hc & H).
    rewrite He. cbn [bind]. rewrite Hc. cbn [bind].
    injection H; intros; subst. clear H.
    apply fp_encrypt_lens in He. destruct He as [L1 L2]. rewrite len_cons in L1.
    apply fc_crypt_len in Hc. rewrite len_le_bytes in Hc.
    split; [assumption|]. split; [reflexivity|]. split; [autorewrite with len; lia|].
    rewrite !app_assoc. rewrite drop_app_exact, take_app_exact by (autorewrite with len; lia).
    rewrite <- !app_assoc. auto.
Qed.

Theorem encrypt_vec_len c pt t aad p c' :
  encrypt_to_vec c pt t aad = Ret (p, c') -> len p = len pt + 20.
Proof.
  intros H. apply encrypt_vec_inv in H.
  destruct H as (lb & ct & tag & -> & L1 & L2 & L3 & _). autorewrite with len. lia.
Qed.

(** C07 *)
Theorem oversize_misframed c pt t aad p c' :
  2 ^ 24 <= len pt ->
  encrypt_to_vec c pt t aad = Ret (p, c') ->
  exists n c1, decrypt_packet_len c (take 3 p) = Ret (n, c1) /\
    n = len pt mod 2 ^ 24 + 17 /\ n < len (drop 3 p).
Proof.
  intros Hl H. pose proof (encrypt_vec_len _ _ _ _ _ _ H) as L.
  apply decrypt_len_of_sent in H. eexists _, _. split; [exact H|]. split; [reflexivity|].
  rewrite len_drop, L. change (2 ^ 24) with 16777216 in *. lia.
Qed.

(** C08 *)
Theorem packet_len_range c lb n c' :
  len lb = 3 -> decrypt_packet_len c lb = Ret (n, c') ->
  17 <= n < 2 ^ 24 + 17 /\ packet_cipher c' = packet_cipher c.
Proof.
  intros Hl H. rewrite decrypt_packet_len_closed in H by assumption.
  apply bind_ret_inv in H. destruct H as ([out lc] & Hc & H). injection H; intros; subst.
  apply fc_crypt_len in Hc. pose proof (le_val_bound out) as B. rewrite Hc, Hl in B.
  change (256 ^ 3) with (2 ^ 24) in B. split; [|reflexivity]. split; lia.
Qed.

Theorem packet_len_exact c pt t aad p c' :
  len pt < 2 ^ 24 -> encrypt_to_vec c pt t aad = Ret (p, c') ->
  exists c1, decrypt_packet_len c (take 3 p) = Ret (len (drop 3 p), c1) /\
    length_cipher c1 = length_cipher c' /\ packet_cipher c1 = packet_cipher c.
Proof.
  intros Hl H. pose proof (encrypt_vec_len _ _ _ _ _ _ H) as L.
  apply decrypt_len_of_sent in H. rewrite N.mod_small in H by assumption.
  exists (Cipher (length_cipher c') (packet_cipher c)).
  split; [|split; reflexivity].
  rewrite H. rewrite len_drop, L. do 2 f_equal. lia.
Qed.

(** Every one of the 2^24 announced lengths can occur: prefix and length are in bijection. *)
Theorem packet_len_inj c lb1 lb2 n c1 c2 :
  len lb1 = 3 -> len lb2 = 3 ->
  decrypt_packet_len c lb1 = Ret (n, c1) -> decrypt_packet_len c lb2 = Ret (n, c2) -> lb1 = lb2.
Proof.
  intros L1 L2 H1 H2. rewrite decrypt_packet_len_closed in H1, H2 by assumption.
  apply bind_ret_inv in H1. destruct H1 as ([o1 lc1] & Hc1 & H1).
  apply bind_ret_inv in H2. destruct H2 as ([o2 lc2] & Hc2 & H2).
  injection H1; intros _ E1. injection H2; intros _ E2.
  assert (le_val o1 = le_val o2) as Hv by lia.
  pose proof (fc_crypt_len _ _ _ _ Hc1) as K1. pose proof (fc_crypt_len _ _ _ _ Hc2) as K2.
  assert (o1 = o2) as ->.
  { rewrite <- (le_bytes_le_val o1), <- (le_bytes_le_val o2), Hv. f_equal.
    unfold len in *. lia. }
  apply fc_crypt_inv in Hc1. apply fc_crypt_inv in Hc2.
  destruct Hc1 as [E3 _], Hc2 as [E4 _]. rewrite L1 in E3. rewrite L2 in E4.
  rewrite E3 in E4. now apply xor_with_inj in E4.
Qed.

(** C09 *)
Theorem accept_iff c ct aad :
  (overflow_checks = true -> fp_ctr (packet_cipher c) + 1 < 2 ^ 64) ->
  17 <= len ct ->
  let n := len ct - 16 in
  let key := fp_key (packet_cipher c) in let nonce := fp_nonce (packet_cipher c) in
  (exists t pt c' b, decrypt_in_place c ct aad = Ret (Ok (t, pt), c', b)) <->
  drop n ct = mac key nonce (aad_or_default aad) (take n ct).
Proof.
  intros Hr H n key nonce. destruct (split_tag ct H) as (m & tg & -> & L1 & L2 & L3).
  assert (take n (m ++ tg) = m) as -> by (apply take_app_exact; unfold n; lia).
  assert (drop n (m ++ tg) = tg) as -> by (apply drop_app_exact; unfold n; lia).
  rewrite decrypt_in_place_closed by assumption. split.
  - intros (t & pt & c' & b & K). apply bind_ret_inv in K.
    destruct K as ([o pc] & Hd & K). apply fp_decrypt_some in Hd.
    destruct o; [|discriminate]. now destruct Hd.
  - intros ->. unfold fp_decrypt, aead_decrypt.
    fold key nonce. rewrite bytes_eqb_refl.
    destruct (fp_rekey_ret (packet_cipher c) (aad_or_default aad) Hr) as (s' & -> & _).
    cbn [bind]. eauto.
Qed.

(** What is accepted is what a sender in the same packet-cipher state produces. *)
Theorem accepted_is_encryption c ct aad t pt c' b :
  decrypt_in_place c ct aad = Ret (Ok (t, pt), c', b) ->
  let key := fp_key (packet_cipher c) in let nonce := fp_nonce (packet_cipher c) in
  rfc_aead key nonce (aad_or_default aad) pt = ct /\
  (exists h contents, pt = h :: contents /\ t = from_byte h) /\ len ct = len pt + 16 /\
  b = pt ++ drop (len pt) ct /\
  length_cipher c' = length_cipher c /\
  fp_rekey (packet_cipher c) (aad_or_default aad) = Ret (packet_cipher c').
Proof.
  intros H key nonce. destruct (N.lt_ge_cases (len ct) 17) as [L|L].
  { rewrite decrypt_in_place_small in H by assumption. discriminate. }
  destruct (split_tag ct L) as (m & tg & -> & L1 & L2 & L3).
  rewrite decrypt_in_place_closed in H by assumption.
  apply bind_ret_inv in H. destruct H as ([o pc] & Hd & H). apply fp_decrypt_some in Hd.
  destruct o as [q|]; [|discriminate]. destruct Hd as (Ht & Hq & Hrk).
  injection H as E1 E2 E3 E4. rewrite E2 in *. clear E2 q. subst t c' b.
  assert (len pt = len m) as Hl by (subst pt; now rewrite len_xor_with).
  split; [|split; [|split; [|split; [|split]]]].
  - unfold rfc_aead. fold key nonce in Hq, Ht. rewrite Hl. subst pt.
    rewrite xor_with_invol. now rewrite Ht.
  - destruct pt as [|h l]; [rewrite len_nil in Hl; lia|]. exists h, l. auto.
  - autorewrite with len. lia.
  - rewrite drop_app_exact by assumption. reflexivity.
  - reflexivity.
  - exact Hrk.
Qed.

Theorem accepted_matches_sender c s ct aad h contents t c' b p s' t' :
  packet_cipher s = packet_cipher c ->
  decrypt_in_place c ct aad = Ret (Ok (t, h :: contents), c', b) ->
  h = to_byte t' ->
  encrypt_to_vec s contents t' aad = Ret (p, s') ->
  t = t' /\ drop 3 p = ct /\ packet_cipher s' = packet_cipher c'.
Proof.
  intros Hs Hd -> He. apply accepted_is_encryption in Hd. cbn zeta in Hd.
  destruct Hd as (Hct & (h' & cs & Heq & ->) & Hlen & _ & _ & Hrk).
  injection Heq; intros; subst h' cs. rewrite from_to_byte. split; [reflexivity|].
  apply encrypt_vec_inv in He. rewrite Hs in He.
  destruct He as (lb & ct' & tag & -> & L1 & L2 & L3 & Hct' & Htag & Hr & Hc).
  rewrite drop_app_exact by (now symmetry). split.
  - unfold rfc_aead in Hct. rewrite len_cons in Hct. rewrite <- Hct' in Hct.
    now rewrite <- Htag in Hct.
  - rewrite Hr in Hrk. now injection Hrk.
Qed.

Theorem tamper_tag_rejected c m tg tg' aad t pt c' b :
  len tg = 16 -> len tg' = 16 -> tg' <> tg ->
  decrypt_in_place c (m ++ tg) aad = Ret (Ok (t, pt), c', b) ->
  decrypt_in_place c (m ++ tg') aad = Ret (Err Decryption, c, m ++ tg').
Proof.
  intros L1 L2 Hne H.
  destruct (N.lt_ge_cases (len m) 1) as [L|L].
  { rewrite decrypt_in_place_small in H by (autorewrite with len; lia). discriminate. }
  rewrite decrypt_in_place_closed in H by assumption.
  apply bind_ret_inv in H. destruct H as ([o pc] & Hd & H). apply fp_decrypt_some in Hd.
  destruct o as [q|]; [|discriminate]. destruct Hd as (Ht & _ & _).
  rewrite decrypt_in_place_closed by assumption.
  unfold fp_decrypt, aead_decrypt. rewrite <- Ht.
  rewrite (proj2 (bytes_eqb_neq _ _) Hne). reflexivity.
Qed.

(** C10 *)
Theorem failed_in_place c ct aad e c' b :
  decrypt_in_place c ct aad = Ret (Err e, c', b) -> c' = c /\ b = ct.
Proof.
  intros H. destruct (N.lt_ge_cases (len ct) 17) as [L|L].
  { rewrite decrypt_in_place_small in H by assumption. injection H; auto. }
  destruct (split_tag ct L) as (m & tg & -> & L1 & L2 & L3).
  rewrite decrypt_in_place_closed in H by assumption.
  apply bind_ret_inv in H. destruct H as ([[q|] pc] & Hd & H); [discriminate|].
  injection H; intros; subst. auto.
Qed.

Theorem failed_decrypt c ct buf aad e c' b :
  decrypt c ct buf aad = Ret (Err e, c', b) ->
  c' = c /\ (b = buf \/ b = take (len ct - 16) ct ++ drop (len ct - 16) buf).
Proof.
  intros H. destruct (N.lt_ge_cases (len ct) 17) as [L|L].
  { rewrite decrypt_small in H by assumption. injection H; auto. }
  destruct (split_tag ct L) as (m & tg & -> & L1 & L2 & L3).
  destruct (N.lt_ge_cases (len buf) (len m)).
  { rewrite decrypt_buffer_small in H by assumption. injection H; auto. }
  rewrite decrypt_closed in H by assumption.
  apply bind_ret_inv in H. destruct H as ([[q|] pc] & Hd & H); [discriminate|].
  injection H; intros; subst. split; [reflexivity|]. right.
  rewrite take_app_exact by lia. now rewrite <- L3.
Qed.

Theorem failed_vec c ct aad e c' :
  decrypt_to_vec c ct aad = Ret (Err e, c') -> c' = c.
Proof.
  intros H. destruct (N.lt_ge_cases (len ct) 16) as [L0|L0].
  { rewrite decrypt_to_vec_short in H by assumption.
    destruct overflow_checks; [discriminate|]. injection H; auto. }
  destruct (N.eq_dec (len ct) 16).
  { rewrite decrypt_to_vec_16 in H by assumption. injection H; auto. }
  destruct (N.lt_ge_cases (4000014 + 16) (len ct)) as [L|L].
  { rewrite decrypt_to_vec_too_big in H by assumption. injection H; auto. }
  destruct (split_tag ct) as (m & tg & -> & L1 & L2 & L3); [lia|].
  rewrite decrypt_to_vec_closed in H by lia.
  apply bind_ret_inv in H. destruct H as ([[q|] pc] & Hd & H); [discriminate|].
  injection H; auto.
Qed.

(** C11 *)
Theorem decrypt_agree c ct buf aad :
  16 <= len ct -> len ct - 16 <= len buf ->
  match decrypt_in_place c ct aad with
  | Ret (Ok (t, pt), c', _) =>
      decrypt c ct buf aad = Ret (Ok t, c', pt ++ drop (len pt) buf) /\
      decrypt_to_vec c ct aad =
        (if len ct - 16 <=? 4000014 then Ret (Ok (t, pt), c') else Ret (Err PacketTooBig, c))
  | Ret (Err e, c', _) =>
      (exists b, decrypt c ct buf aad = Ret (Err e, c', b)) /\
      decrypt_to_vec c ct aad =
        (if len ct - 16 <=? 4000014 then Ret (Err e, c') else Ret (Err PacketTooBig, c))
  | Panic => decrypt c ct buf aad = Panic
  | NoFuel => False
  end.
Proof.
  intros L0 Hb. destruct (N.eq_dec (len ct) 16) as [L|L].
  { rewrite decrypt_in_place_small, decrypt_small, decrypt_to_vec_16 by lia. split; [eauto|].
    now rewrite (proj2 (N.leb_le _ _)) by lia. }
  destruct (split_tag ct) as (m & tg & -> & L1 & L2 & L3); [lia|].
  rewrite decrypt_in_place_closed, decrypt_closed by lia. rewrite <- L3.
  assert (decrypt_to_vec c (m ++ tg) aad =
    (if len m <=? 4000014 then
      let! (r, pc) := fp_decrypt (packet_cipher c) (aad_or_default aad) m tg in
      match r with
      | None => Ret (Err Decryption, c)
      | Some pt => Ret (Ok (type_of pt, pt), Cipher (length_cipher c) pc)
      end else Ret (Err PacketTooBig, c))) as ->.
  { destruct (N.leb_spec (len m) 4000014).
    - now apply decrypt_to_vec_closed.
    - apply decrypt_to_vec_too_big. rewrite len_app. lia. }
  destruct (fp_decrypt _ _ _ _) as [[[pt|] pc]| |] eqn:Hd; cbn [bind].
  - apply fp_decrypt_some in Hd. destruct Hd as (_ & Hpt & _).
    assert (len pt = len m) as -> by (subst pt; now rewrite len_xor_with).
    split; [reflexivity|]. reflexivity.
  - split; [eauto|]. reflexivity.
  - reflexivity.
  - unfold fp_decrypt in Hd. destruct (aead_decrypt _ _ _ _ _); [|discriminate].
    unfold fp_rekey, bind in Hd.
    destruct (add_w_cases overflow_checks 64 (fp_ctr (packet_cipher c)) 1) as [[x Hx]|Hx];
      rewrite Hx in Hd; discriminate.
Qed.

(** C12 *)
Theorem in_place_too_small_iff c ct aad c' b r :
  decrypt_in_place c ct aad = Ret (r, c', b) -> (r = Err CiphertextTooSmall <-> len ct < 17).
Proof.
  intros H. destruct (N.lt_ge_cases (len ct) 17) as [L|L].
  { rewrite decrypt_in_place_small in H by assumption. injection H; intros; subst. tauto. }
  destruct (split_tag ct L) as (m & tg & -> & L1 & L2 & L3).
  rewrite decrypt_in_place_closed in H by assumption.
  apply bind_ret_inv in H. destruct H as ([[q|] pc] & Hd & H); injection H; intros; subst;
    split; intros K; try discriminate; lia.
Qed.

Theorem decrypt_size_errors c ct buf aad r c' b :
  decrypt c ct buf aad = Ret (r, c', b) ->
  (r = Err CiphertextTooSmall <-> len ct < 17) /\
  (forall n, r = Err (BufferTooSmall n) <-> 17 <= len ct /\ len buf < len ct - 16 /\ n = len ct - 16).
Proof.
  intros H. destruct (N.lt_ge_cases (len ct) 17) as [L|L].
  { rewrite decrypt_small in H by assumption. injection H; intros; subst.
    split; [tauto|]. intros n; split; [discriminate|lia]. }
  destruct (split_tag ct L) as (m & tg & -> & L1 & L2 & L3).
  destruct (N.lt_ge_cases (len buf) (len m)) as [K|K].
  { rewrite decrypt_buffer_small in H by assumption. injection H; intros; subst. rewrite <- L3.
    split; [split; [discriminate|lia]|].
    intros n. split; [intros K'; injection K'; intros; subst; auto|]. intros (_ & _ & ->). reflexivity. }
  rewrite decrypt_closed in H by assumption. rewrite <- L3.
  apply bind_ret_inv in H. destruct H as ([[q|] pc] & Hd & H); injection H; intros; subst;
    (split; [split; [discriminate|lia]|intros n; split; [discriminate|lia]]).
Qed.

Theorem vec_too_big_iff c ct aad r c' :
  16 <= len ct -> decrypt_to_vec c ct aad = Ret (r, c') ->
  (r = Err PacketTooBig <-> 4000014 < len ct - 16) /\
  (r = Err CiphertextTooSmall <-> len ct = 16).
Proof.
  intros L0 H. destruct (N.eq_dec (len ct) 16) as [L|L].
  { rewrite decrypt_to_vec_16 in H by assumption. injection H; intros; subst.
    split; split; auto; try discriminate; lia. }
  destruct (N.lt_ge_cases (4000014 + 16) (len ct)) as [L1|L1].
  { rewrite decrypt_to_vec_too_big in H by assumption. injection H; intros; subst.
    split; split; auto; try discriminate; lia. }
  destruct (split_tag ct) as (m & tg & -> & L2 & L3 & L4); [lia|].
  rewrite decrypt_to_vec_closed in H by lia.
  apply bind_ret_inv in H. destruct H as ([[q|] pc] & Hd & H); injection H; intros; subst;
    split; split; try discriminate; lia.
Qed.

(** C13 *)
Theorem replay_needs_collision kP i j c d aad aad' contents t pt c' b :
  i < 2 ^ 64 -> j < 2 ^ 64 -> i <> j ->
  packet_cipher c = fp_at kP j ->
  let body := bip_body kP i d aad contents in
  decrypt_in_place c body aad' = Ret (Ok (t, pt), c', b) ->
  let ct := take (len body - 16) body in
  mac (bip_packet_key kP (N.to_nat (j / 224))) (bip_packet_nonce j) (aad_or_default aad') ct =
  mac (bip_packet_key kP (N.to_nat (i / 224))) (bip_packet_nonce i) aad ct /\
  bip_packet_nonce i <> bip_packet_nonce j /\
  (j + 1 < 2 ^ 64 -> packet_cipher c' = fp_at kP (j + 1)).
Proof.
  intros Hi Hj Hne Hc body H ct.
  assert (exists m, body = m ++ mac (bip_packet_key kP (N.to_nat (i / 224))) (bip_packet_nonce i) aad m
                    /\ len m = len contents + 1) as (m & Hb & Hm).
  { unfold body, bip_body, rfc_aead. eexists. split; [reflexivity|].
    now rewrite len_xor_with, len_cons. }
  assert (ct = m) as Hct.
  { unfold ct. rewrite Hb. apply take_app_exact. rewrite len_app, mac_len. lia. }
  rewrite Hct.
  pose proof (accepted_is_encryption _ _ _ _ _ _ _ H) as A. cbn zeta in A.
  destruct A as (_ & _ & _ & _ & _ & Hrk).
  rewrite Hb in H. rewrite decrypt_in_place_closed in H; [|apply mac_len|lia].
  apply bind_ret_inv in H. destruct H as ([o pc] & Hd & H). apply fp_decrypt_some in Hd.
  destruct o as [q|]; [|discriminate]. destruct Hd as (Ht & _ & _).
  rewrite Hc, fp_nonce_at in Ht. cbn [fp_key fp_at] in Ht. split; [now symmetry|].
  split; [intros K; apply Hne; now apply bip_packet_nonce_inj in K|].
  intros Hj'. rewrite Hc, fp_rekey_at in Hrk by assumption. now injection Hrk.
Qed.

(** C15 *)
Lemma step_out_in s o r s' : is_outbound o = true -> step s o = Ret (r, s') ->
  inbound s' = inbound s /\ id s' = id s /\
  forall s1, outbound s1 = outbound s -> exists s1', step s1 o = Ret (r, s1') /\
     outbound s1' = outbound s' /\ inbound s1' = inbound s1 /\ id s1' = id s1.
Proof.
  destruct o; cbn [is_outbound]; try discriminate; intros _ H; cbn [step] in *.
  - apply bind_ret_inv in H. destruct H as ([[x c] b] & H1 & H). injection H; intros; subst.
    split; [reflexivity|]. split; [reflexivity|]. intros s1 Hs. rewrite Hs, H1. cbn [bind]. eauto.
  - apply bind_ret_inv in H. destruct H as ([x c] & H1 & H). injection H; intros; subst.
    split; [reflexivity|]. split; [reflexivity|]. intros s1 Hs. rewrite Hs, H1. cbn [bind]. eauto.
Qed.
Lemma step_in_out s o r s' : is_outbound o = false -> step s o = Ret (r, s') ->
  outbound s' = outbound s /\ id s' = id s /\
  forall s1, inbound s1 = inbound s -> exists s1', step s1 o = Ret (r, s1') /\
     inbound s1' = inbound s' /\ outbound s1' = outbound s1 /\ id s1' = id s1.
Proof.
  destruct o; cbn [is_outbound]; try discriminate; intros _ H; cbn [step] in *.
  - apply bind_ret_inv in H. destruct H as ([x c] & H1 & H). injection H; intros; subst.
    split; [reflexivity|]. split; [reflexivity|]. intros s1 Hs. rewrite Hs, H1. cbn [bind]. eauto.
  - apply bind_ret_inv in H. destruct H as ([[x c] b] & H1 & H). injection H; intros; subst.
    split; [reflexivity|]. split; [reflexivity|]. intros s1 Hs. rewrite Hs, H1. cbn [bind]. eauto.
  - apply bind_ret_inv in H. destruct H as ([[x c] b] & H1 & H). injection H; intros; subst.
    split; [reflexivity|]. split; [reflexivity|]. intros s1 Hs. rewrite Hs, H1. cbn [bind]. eauto.
  - apply bind_ret_inv in H. destruct H as ([x c] & H1 & H). injection H; intros; subst.
    split; [reflexivity|]. split; [reflexivity|]. intros s1 Hs. rewrite Hs, H1. cbn [bind]. eauto.
Qed.

(** The outputs of the operations selected by [f]. *)
Fixpoint select (f : op -> bool) (os : list op) (rs : list output) : list output :=
  match os, rs with
  | o :: os', r :: rs' => if f o then r :: select f os' rs' else select f os' rs'
  | _, _ => []
  end.

Theorem directions_independent os : forall s rs s',
  steps s os = Ret (rs, s') ->
  id s' = id s /\
  (forall s1, outbound s1 = outbound s -> exists s1',
     steps s1 (filter is_outbound os) = Ret (select is_outbound os rs, s1') /\
     outbound s1' = outbound s' /\ inbound s1' = inbound s1) /\
  (forall s1, inbound s1 = inbound s -> exists s1',
     steps s1 (filter (fun o => negb (is_outbound o)) os) =
       Ret (select (fun o => negb (is_outbound o)) os rs, s1') /\
     inbound s1' = inbound s' /\ outbound s1' = outbound s1).
Proof.
  induction os as [|o os IH]; intros s rs s' H; cbn [steps filter] in *.
  - injection H; intros; subst. split; [reflexivity|].
    split; intros s1 Hs; exists s1; cbn; auto.
  - apply bind_ret_inv in H. destruct H as ([r sm] & H1 & H).
    apply bind_ret_inv in H. destruct H as ([rs' s2] & H2 & H).
    injection H; intros; subst. clear H. apply IH in H2. destruct H2 as (I1 & I2 & I3).
    destruct (is_outbound o) eqn:Ho.
    + pose proof (step_out_in _ _ _ _ Ho H1) as (K1 & K2 & K3).
      cbn [negb select]. rewrite Ho. cbn [negb]. split; [congruence|]. split.
      * intros s1 Hs. destruct (K3 s1 Hs) as (s1' & S1 & S2 & S3 & _).
        destruct (I2 s1' S2) as (s3 & T1 & T2 & T3).
        exists s3. cbn [steps]. rewrite S1. cbn [bind]. rewrite T1. cbn [bind].
        split; [reflexivity|]. split; [assumption|congruence].
      * intros s1 Hs. destruct (I3 s1) as (s3 & T1 & T2 & T3); [congruence|].
        exists s3. auto.
    + pose proof (step_in_out _ _ _ _ Ho H1) as (K1 & K2 & K3).
      cbn [negb select]. rewrite Ho. cbn [negb]. split; [congruence|]. split.
      * intros s1 Hs. destruct (I2 s1) as (s3 & T1 & T2 & T3); [congruence|].
        exists s3. auto.
      * intros s1 Hs. destruct (K3 s1 Hs) as (s1' & S1 & S2 & S3 & _).
        destruct (I3 s1' S2) as (s3 & T1 & T2 & T3).
        exists s3. cbn [steps]. rewrite S1. cbn [bind]. rewrite T1. cbn [bind].
        split; [reflexivity|]. split; [assumption|congruence].
Qed.

(** C50 *)
Theorem filter_genuine m r ms rest :
  Forall (fun x => len (m_contents x) < 2 ^ 24) ms ->
  (overflow_checks = true -> len ms < 2 ^ 32) ->
  exists pkts out' got,
    send_all (outbound (session_new m r)) ms = Ret (pkts, out') /\
    recv_all (inbound (session_new m (opp r))) (map m_aad ms) (concat pkts ++ rest) =
      Ret (Some got, out', rest) /\
    map snd (filter (fun p => negb (is_decoy (fst p))) got) =
    map m_contents (filter (fun x => negb (is_decoy (m_type x))) ms).
Proof.
  intros Hf Hr. destruct (round_trip m r ms rest Hf Hr) as (ps & c & H1 & H2).
  eexists _, _, _. split; [exact H1|]. split; [exact H2|].
  clear. induction ms as [|x ms IH]; [reflexivity|]. cbn [map filter fst].
  destruct (negb (is_decoy (m_type x))); cbn [map snd]; now rewrite IH.
Qed.

End WithEnv.

(** C16 *)
Theorem header_bytes t : from_byte (to_byte t) = t /\
  Byte.to_N (to_byte t) = (match t with Genuine => 0 | Decoy => 128 end).
Proof. destruct t; split; reflexivity. Qed.

Theorem from_byte_decoy_iff h : from_byte h = Decoy <-> Byte.to_N h = 128.
Proof.
  unfold from_byte. destruct (byte_eqb h DECOY_BYTE) eqn:H.
  - apply byte_eqb_spec in H. subst. split; reflexivity.
  - split; [discriminate|]. intros K. rewrite <- not_true_iff_false in H. exfalso. apply H.
    apply byte_eqb_spec. apply to_N_inj. exact K.
Qed.

Theorem from_byte_bit7 h :
  N.testbit (Byte.to_N h) 7 = true -> Byte.to_N h <> 128 -> from_byte h = Genuine.
Proof.
  intros _ H. destruct (from_byte h) eqn:K; [reflexivity|].
  apply from_byte_decoy_iff in K. contradiction.
Qed.

(** C07, second part: the receiver never gets the contents. *)
Lemma decrypt_ok_len {E : Env} {EL : EnvLaws E} c ct buf aad t c' b :
  decrypt c ct buf aad = Ret (Ok t, c', b) -> len b = len buf.
Proof.
  intros H. destruct (N.lt_ge_cases (len ct) 17) as [L|L].
  { rewrite decrypt_small in H by assumption. discriminate. }
  destruct (split_tag ct L) as (m & tg & -> & L1 & L2 & L3).
  destruct (N.lt_ge_cases (len buf) (len m)) as [K|K].
  { rewrite decrypt_buffer_small in H by assumption. discriminate. }
  rewrite decrypt_closed in H by assumption.
  apply bind_ret_inv in H. destruct H as ([[q|] pc] & Hd & H); [|discriminate].
  injection H as _ _ <-. apply fp_decrypt_some in Hd. destruct Hd as (_ & -> & _).
  autorewrite with len. lia.
Qed.

Theorem oversize_unreadable {E : Env} {EL : EnvLaws E} c pt t aad p c' aad' rest r c1 rest' :
  2 ^ 24 <= len pt ->
  encrypt_to_vec c pt t aad = Ret (p, c') ->
  recv_one c aad' (p ++ rest) = Ret (r, c1, rest') ->
  forall t', r <> Some (t', pt).
Proof.
  intros Hl He Hr t' ->.
  pose proof (encrypt_vec_len _ _ _ _ _ _ He) as Lp.
  apply decrypt_len_of_sent in He. unfold recv_one in Hr.
  rewrite take_app_le in Hr by lia. rewrite He in Hr. cbn [bind] in Hr.
  destruct (len (p ++ rest) <? 3); [discriminate|].
  destruct (_ <? _); [discriminate|].
  apply bind_ret_inv in Hr. destruct Hr as ([[x c2] b] & Hd & Hr).
  destruct x; [|discriminate]. injection Hr as _ Hb _ _.
  apply decrypt_ok_len in Hd. rewrite len_zeros in Hd.
  apply (f_equal len) in Hb. rewrite len_drop in Hb.
  change (2 ^ 24) with 16777216 in *. lia.
Qed.
