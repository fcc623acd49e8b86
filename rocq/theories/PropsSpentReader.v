(** * PropsSpentReader: the last length prefix of a reader in a build with overflow checks (C118) *)
From Coq Require Import List NArith Bool Lia ZifyN.
From Coq.Strings Require Import Byte.
From Verif Require Import Base BaseFacts Env Toy FsChacha Cipher CipherFacts Histories CipherProofs Handshake Transport Io Futures SpecIo Sessions
  SessionProofs TrafficIo PropsCipher PropsHandshake PropsIo SpecSpentReader.
Import ListNotations.
Local Open Scope N_scope.

Section Spent.
Context {E : Env}.

(** What a length prefix, and everything else, does to the counter. *)
Lemma crypt_counts s lb out s' : overflow_checks = true -> fc_crypt s lb = Ret (out, s') ->
  fc_chunk s' = fc_chunk s + 1 /\ fc_chunk s + 1 < 2 ^ 32 /\ (fc_wf s -> fc_wf s').
Proof.
  intros Ho H. assert (A : fc_chunk s' = fc_chunk s + 1 /\ fc_chunk s + 1 < 2 ^ 32); [|split; [apply A|split; [apply A|]]].
  2: { intros W. destruct (fc_crypt_ret s lb) as (o & s2 & Q & X); [intros _; split; [exact W|apply A]|]. rewrite H in Q. injection Q as _ <-. now apply X. }
  revert H. unfold fc_crypt. intros H. apply bind_ret_inv in H. destruct H as (b & _ & H).
  apply bind_ret_inv in H. destruct H as (n & Hn & H). destruct (if n mod REKEY_INTERVAL =? 0 then _ else _) as [k' b'].
  apply bind_ret_inv in H. destruct H as (c & Hc & H). injection H as _ <-. cbn [fc_chunk]. clear Hn.
  unfold add_w in Hc. rewrite Ho in Hc. destruct (N.ltb_spec (fc_chunk s + 1) (2 ^ 32)) as [L|L]; [|discriminate]. injection Hc as <-. auto.
Qed.

Lemma crypt_spent s lb : overflow_checks = true -> fc_chunk s = 2 ^ 32 - 1 -> fc_crypt s lb = Panic.
Proof.
  intros Ho Q. unfold fc_crypt. assert (A : add_w overflow_checks 32 (fc_chunk s) 1 = Panic) by (rewrite Ho, Q; reflexivity). rewrite A.
  unfold add_w. destruct (_ <? _); [reflexivity|]. rewrite Ho. reflexivity.
Qed.

Lemma decrypt_in_place_length c ct aad r c' b : decrypt_in_place c ct aad = Ret (r, c', b) -> length_cipher c' = length_cipher c.
Proof.
  unfold decrypt_in_place. destruct (validate_ciphertext_size _); [|now intros [= _ <- _]]. intros H.
  apply bind_ret_inv in H. destruct H as (n & _ & H). apply bind_ret_inv in H. destruct H as ([m t] & _ & H).
  apply bind_ret_inv in H. destruct H as ([[pt|] pc] & _ & H).
  - apply bind_ret_inv in H. destruct H as (h & _ & H). injection H as _ <- _. reflexivity.
  - injection H as _ <- _. reflexivity.
Qed.
Lemma decrypt_length c ct buf aad r c' b : decrypt c ct buf aad = Ret (r, c', b) -> length_cipher c' = length_cipher c.
Proof.
  unfold decrypt. destruct (validate_ciphertext_size _); [|now intros [= _ <- _]]. intros H.
  apply bind_ret_inv in H. destruct H as (n & _ & H). apply bind_ret_inv in H. destruct H as ([m t] & _ & H).
  destruct (_ <? _); [now injection H as _ <- _|]. apply bind_ret_inv in H. destruct H as (b1 & _ & H). apply bind_ret_inv in H. destruct H as (b2 & _ & H).
  apply bind_ret_inv in H. destruct H as ([[pt|] pc] & _ & H).
  - apply bind_ret_inv in H. destruct H as (h & _ & H). apply bind_ret_inv in H. destruct H as (h' & _ & H). injection H as _ <- _. reflexivity.
  - injection H as _ <- _. reflexivity.
Qed.
Lemma decrypt_to_vec_length c ct aad r c' : decrypt_to_vec c ct aad = Ret (r, c') -> length_cipher c' = length_cipher c.
Proof.
  unfold decrypt_to_vec. intros H. apply bind_ret_inv in H. destruct H as (n & _ & H). destruct (_ <? _); [now injection H as _ <-|].
  apply bind_ret_inv in H. destruct H as ([[x c1] b] & D & H). apply decrypt_length in D. destruct x; injection H as _ <-; exact D.
Qed.
Lemma packet_len_counts c lb n c' : overflow_checks = true -> decrypt_packet_len c lb = Ret (n, c') ->
  fc_chunk (length_cipher c') = fc_chunk (length_cipher c) + 1 /\ fc_chunk (length_cipher c) + 1 < 2 ^ 32 /\
  (fc_wf (length_cipher c) -> fc_wf (length_cipher c')).
Proof.
  intros Ho H. unfold decrypt_packet_len in H. apply bind_ret_inv in H. destruct H as ([o lc] & Q & H).
  apply crypt_counts in Q; [|exact Ho]. apply bind_ret_inv in H. destruct H as (? & _ & H). apply bind_ret_inv in H. destruct H as (? & _ & H).
  apply bind_ret_inv in H. destruct H as (? & _ & H). injection H as _ <-. exact Q.
Qed.

Lemma steps_count (Ho : overflow_checks = true) : forall os s rs s', steps s os = Ret (rs, s') ->
  fc_chunk (length_cipher (inbound s')) = fc_chunk (length_cipher (inbound s)) + prefixes os /\
  (fc_chunk (length_cipher (inbound s)) < 2 ^ 32 -> fc_chunk (length_cipher (inbound s)) + prefixes os < 2 ^ 32) /\
  (fc_wf (length_cipher (inbound s)) -> fc_wf (length_cipher (inbound s'))).
Proof.
  unfold prefixes. induction os as [|o os IH]; intros s rs s' H; cbn [steps filter] in *.
  { injection H as _ <-. rewrite len_nil. repeat split; auto; lia. }
  apply bind_ret_inv in H. destruct H as ([x s1] & St & H). apply bind_ret_inv in H. destruct H as ([xs s2] & Q & H). injection H as _ <-.
  apply IH in Q. destruct Q as (Q1 & Q2 & Q3).
  destruct o as [pt buf t aad|pt t aad|lb|ct buf aad|ct aad|ct aad]; cbn [step] in St.
  - apply bind_ret_inv in St. destruct St as ([[r c] b] & D & St). injection St as _ <-. exact (conj Q1 (conj Q2 Q3)).
  - apply bind_ret_inv in St. destruct St as ([r c] & D & St). injection St as _ <-. exact (conj Q1 (conj Q2 Q3)).
  - apply bind_ret_inv in St. destruct St as ([r c] & D & St). injection St as _ <-. cbn [with_in inbound] in *. rewrite len_cons.
    apply packet_len_counts in D; [|exact Ho]. destruct D as (D1 & D2 & D3). split; [lia|]. split; [lia|auto].
  - apply bind_ret_inv in St. destruct St as ([[r c] b] & D & St). injection St as _ <-. apply decrypt_length in D. cbn [with_in inbound] in *. rewrite D in *. auto.
  - apply bind_ret_inv in St. destruct St as ([[r c] b] & D & St). injection St as _ <-. apply decrypt_in_place_length in D. cbn [with_in inbound] in *. rewrite D in *. auto.
  - apply bind_ret_inv in St. destruct St as ([r c] & D & St). injection St as _ <-. apply decrypt_to_vec_length in D. cbn [with_in inbound] in *. rewrite D in *. auto.
Qed.
End Spent.

(** ** C118 *)

(** In a build with overflow checks a session decrypts at most 2^32 - 1 length prefixes, in any order of calls and whether or not the packets
    authenticate; after that many the next panics, whatever its bytes are.  Fewer calls than that return. *)
Theorem C118_how_many : forall (E : Env) (EL : EnvLaws E) m r os,
  overflow_checks = true ->
  (forall rs s, steps (session_new m r) os = Ret (rs, s) -> prefixes os < 2 ^ 32 /\ (prefixes os = 2 ^ 32 - 1 <-> spent_in (inbound s))) /\
  (Forall op_ok os -> len os < 2 ^ 32 -> exists rs s, steps (session_new m r) os = Ret (rs, s)).
Proof.
  intros E EL m r os Ho. split.
  - intros rs s H. destruct (steps_count Ho _ _ _ _ H) as (Q & L & W).
    assert (Z : fc_chunk (length_cipher (inbound (session_new m r))) = 0) by (destruct r; reflexivity). rewrite Z in *. rewrite N.add_0_l in *.
    specialize (L eq_refl). split; [exact L|]. split.
    + intros P lb. unfold decrypt_packet_len. rewrite crypt_spent; [reflexivity|exact Ho|congruence].
    + intros S. specialize (S (zeros 3)). destruct (N.eq_dec (prefixes os) (2 ^ 32 - 1)) as [|Ne]; [assumption|exfalso].
      destruct (fc_crypt_ret (length_cipher (inbound s)) (zeros 3)) as (o & lc & C & _).
      { intros _. split; [apply W; destruct r; reflexivity|]. rewrite Q. change (2 ^ 32) with 4294967296 in *. lia. }
      unfold decrypt_packet_len in S. rewrite C in S. cbn [bind] in S. apply fc_crypt_inv in C. destruct C as [-> _].
      assert (L3 : len (xor_with (keystream (fc_key (length_cipher (inbound s))) (fc_nonce (length_cipher (inbound s)))
                    (fc_block (length_cipher (inbound s))) (len (zeros 3))) (zeros 3)) = 3) by (rewrite len_xor_with, len_zeros; reflexivity).
      destruct (index_ok _ 0 ltac:(rewrite L3; reflexivity)) as (b0 & I0 & _). destruct (index_ok _ 1 ltac:(rewrite L3; reflexivity)) as (b1 & I1 & _).
      destruct (index_ok _ 2 ltac:(rewrite L3; reflexivity)) as (b2 & I2 & _). rewrite I0, I1, I2 in S. discriminate.
  - intros F L. apply session_no_panic; auto.
Qed.
Print Assumptions C118_how_many.

(** The blocking reader: with three bytes it panics, before it reads any of the packet; without, the transport's error as before. *)
Theorem C118_blocking : forall (E : Env) rd, spent_in (sr_cipher rd) ->
  (forall lb sr, session_read_exact Sync (sr_reader rd) 3 = (Ok lb, sr) -> sync_read rd = Panic) /\
  (forall x rd' o, sync_read rd = Ret (x, rd', o) -> (exists k, x = Err (from_io k)) /\ sr_cipher rd' = sr_cipher rd /\ o = None).
Proof.
  intros E [c sr] S. cbn [sr_cipher sr_reader] in *. unfold sync_read. cbn [sr_cipher sr_reader]. change NUM_LENGTH_BYTES with 3. split.
  - intros lb sr' ->. now rewrite S.
  - intros x rd' o H. destruct (session_read_exact Sync sr 3) as [[lb|k] sr'].
    + rewrite S in H. discriminate.
    + injection H as <- <- <-. eauto.
Qed.
Print Assumptions C118_blocking.

(** The asynchronous reader between two packets: a poll that completes the three bytes panics; every other leaves the cipher and the place
    as they were and gives no payload, so that this holds of all polls and cancellations. *)
Theorem C118_async : forall (E : Env) rd f lb n, spent_in (tr_cipher rd) -> tr_state rd = ReadingLength lb n -> f <> AtPayload ->
  (forall sr' lb' n', fill (fill_fuel (tr_reader rd)) (tr_reader rd) lb n = Ret (Filled, sr', lb', n') -> poll_read f rd = Panic) /\
  (forall x rd' f', poll_read f rd = Ret (x, rd', f') ->
     (x = NotReady \/ exists e, x = Ready (Err e)) /\ tr_cipher rd' = tr_cipher rd /\ f' <> AtPayload /\ exists lb' n', tr_state rd' = ReadingLength lb' n').
Proof.
  intros E [c sr st] f lb n S T F. cbn [tr_cipher tr_reader tr_state] in *. subst st.
  assert (Q : poll_read f (TReader c sr (ReadingLength lb n)) = phase_length c sr lb n) by (destruct f; [reflexivity|reflexivity|now destruct F]).
  rewrite Q. unfold phase_length. split.
  - intros sr' lb' n' ->. cbn [bind]. now rewrite S.
  - intros x rd' f' H. apply bind_ret_inv in H. destruct H as ([[[y sr'] lb'] n'] & _ & H). destruct y.
    + rewrite S in H. discriminate.
    + injection H as <- <- <-. cbn. repeat split; eauto; discriminate.
    + injection H as <- <- <-. cbn. repeat split; eauto; discriminate.
Qed.
Print Assumptions C118_async.

Lemma prefixes_repeat lb n : prefixes (repeat (ODecryptLen lb) n) = N.of_nat n.
Proof. unfold prefixes. induction n as [|n IH]; [reflexivity|]. cbn [repeat filter]. rewrite len_cons, IH. lia. Qed.

(** "No bytes of the peer make a reader panic": they do after 2^32 - 1 packets. *)
Theorem C118_never_panics_refuted :
  ~ forall (E : Env) (EL : EnvLaws E) m r os rs s b, Forall op_ok os -> steps (session_new m r) os = Ret (rs, s) ->
      sync_read (SyncReader (inbound s) (session_reader Sync [] [Chunk b])) <> Panic.
Proof.
  intros H. remember (N.to_nat (2 ^ 32 - 1)) as n eqn:Qn.
  assert (Ln : N.of_nat n = 2 ^ 32 - 1) by (rewrite Qn; apply N2Nat.id). clear Qn.
  set (os := repeat (ODecryptLen (zeros 3)) n).
  assert (F : Forall op_ok os) by (apply Forall_forall; intros o I; apply repeat_spec in I; subst o; reflexivity).
  destruct (C118_how_many (toy true) (toy_laws true) sample_km Initiator os eq_refl) as [A B].
  destruct (B F) as (rs & s & St); [unfold len, os; rewrite repeat_length, Ln; reflexivity|].
  destruct (A rs s St) as [_ [Sp _]]. unfold os in Sp. rewrite prefixes_repeat in Sp. specialize (Sp Ln).
  apply (H (toy true) (toy_laws true) sample_km Initiator os rs s (zeros 3) F St).
  destruct (C118_blocking (toy true) (SyncReader (inbound s) (session_reader Sync [] [Chunk (zeros 3)])) Sp) as [X _].
  eapply X. reflexivity.
Qed.
Print Assumptions C118_never_panics_refuted.

(** A reader with one packet left: it reads that packet; then two bytes and the end of the stream are an error, three bytes a panic, in both drivers. *)
Example C118_example :
  let c := Cipher (FsChaCha (counting 1 32) 0 (2 ^ 32 - 2)) (FsPoly (counting 2 32) (2 ^ 32 - 2)) in
  match @encrypt_to_vec (toy true) c [x01; x02] Genuine None with
  | Ret (p, _) =>
    match @sync_read (toy true) (SyncReader c (session_reader Sync [] [Chunk p; Chunk [x07; x08]])) with
    | Ret (Ok pl, rd, _) =>
        payload_view pl = Ret (Genuine, [x01; x02]) /\
        match @sync_read (toy true) rd with Ret (Err e, rd', None) => e = from_io UnexpectedEof /\ sr_cipher rd' = sr_cipher rd | _ => False end
    | _ => False
    end /\
    match @sync_read (toy true) (SyncReader c (session_reader Sync [] [Chunk p; Chunk [x07; x08; x09]])) with
    | Ret (Ok _, rd, _) => @sync_read (toy true) rd = Panic
    | _ => False
    end /\
    match @tokio_read (toy true) (TReader c (session_reader Tokio [] [Chunk p; Chunk [x07; x08]; Pending; Chunk [x09]]) init_reading_length) with
    | Ret (Ok _, rd) => match @poll_read (toy true) FreshFuture rd with Ret (NotReady, rd', f) => @poll_read (toy true) f rd' = Panic | _ => False end
    | _ => False
    end
  | _ => False
  end.
Proof. vm_compute. repeat split. Qed.
Print Assumptions C118_example.
