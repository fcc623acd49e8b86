(** * Property C91: bits of an encrypted length can be flipped *)
From Coq Require Import List NArith Bool Lia.
From Coq.Strings Require Import Byte.
From Verif Require Import Base BaseFacts Env FsChacha Cipher CipherFacts CipherProofs Histories Handshake Transport TransportProofs Io Futures Sessions
  IoProofs IoRunProofs SessionProofs FuturesProofs ReaderProofs SpecIo SpecIntegrity IntegrityProofs Toy PropsCipher PropsHandshake PropsIo PropsIntegrity.
Import ListNotations.
Local Open Scope N_scope.

(** ** Vocabulary *)

(** Somebody on the way XORs three bytes to the length bytes of a packet. *)
Definition tampered (mask pkt : bytes) : bytes := xor_with mask (take 3 pkt) ++ drop 3 pkt.

(** The three bytes that turn the length [from] into [to].  They take no key: the size of a packet on the wire tells [from]. *)
Definition mask_for (from to : N) : bytes := xor_with (le_bytes 3 from) (le_bytes 3 to).

(** ** Proofs *)

Lemma bxor_swap a b c : bxor a (bxor b c) = bxor b (bxor a c).
Proof.
  unfold bxor. destruct (Byte.to_bits a) as (a0 & a1 & a2 & a3 & a4 & a5 & a6 & a7), (Byte.to_bits b) as (b0 & b1 & b2 & b3 & b4 & b5 & b6 & b7),
    (Byte.to_bits c) as (c0 & c1 & c2 & c3 & c4 & c5 & c6 & c7). rewrite !Byte.to_bits_of_bits. 
  assert (S : forall x y z, xorb x (xorb y z) = xorb y (xorb x z)) by (intros [|] [|] [|]; reflexivity).
  rewrite (S a0), (S a1), (S a2), (S a3), (S a4), (S a5), (S a6), (S a7). reflexivity.
Qed.

Lemma xor_swap : forall d a b, xor_with a (xor_with b d) = xor_with b (xor_with a d).
Proof.
  induction d as [|x d IH]; intros a b; [destruct a, b; reflexivity|].
  destruct a as [|y a], b as [|z b]; cbn [xor_with]; try reflexivity. rewrite bxor_swap, IH. reflexivity.
Qed.

Lemma mask_turns from to : xor_with (mask_for from to) (le_bytes 3 from) = le_bytes 3 to.
Proof.
  unfold mask_for. rewrite xor_with_comm by (rewrite len_xor_with; rewrite !len_le_bytes; reflexivity). apply xor_with_invol.
Qed.

Section WithLaws.
Context {E : Env} {EL : EnvLaws E}.

Lemma tampered_len c pt t aad p c' mask : encrypt_to_vec c pt t aad = Ret (p, c') -> len mask = 3 ->
  decrypt_packet_len c (take 3 (tampered mask p)) =
    Ret (le_val (xor_with mask (le_bytes 3 (len pt))) + 17, Cipher (length_cipher c') (packet_cipher c)).
Proof.
  intros H Lm. apply encrypt_vec_inv in H. destruct H as (lb & ct & tag & -> & L1 & _ & _ & _ & _ & _ & Hc).
  unfold tampered. assert (T : take 3 (lb ++ ct ++ tag) = lb) by (apply take_app_exact; now symmetry). rewrite T.
  assert (Lx : len (xor_with mask lb) = 3) by (rewrite len_xor_with; exact L1).
  rewrite take_app_exact by (now symmetry). rewrite decrypt_packet_len_closed by assumption.
  apply fc_crypt_inv in Hc. destruct Hc as (-> & Hc). rewrite Hc by (rewrite Lx; symmetry; apply len_le_bytes).
  cbn [bind]. rewrite xor_swap, xor_with_invol. reflexivity.
Qed.

Lemma tampered_drop mask p : 3 <= len p -> drop 3 (tampered mask p) = drop 3 p.
Proof. intros L. unfold tampered. apply drop_app_exact. rewrite len_xor_with, len_take. lia. Qed.

Lemma sent_size c pt t aad p c' : encrypt_to_vec c pt t aad = Ret (p, c') -> len p = len pt + 20.
Proof.
  intros H. apply encrypt_vec_inv in H. destruct H as (lb & ct & tag & -> & L1 & L2 & L3 & _). rewrite !len_app. lia.
Qed.

Lemma relabelled c pt t aad p c' n more : encrypt_to_vec c pt t aad = Ret (p, c') -> n < 2 ^ 24 ->
  let wire := tampered (mask_for (len pt) n) p ++ more in
  decrypt_packet_len c (take 3 wire) = Ret (n + 17, Cipher (length_cipher c') (packet_cipher c)) /\
  len wire = len pt + 20 + len more.
Proof.
  intros H Ln wire. pose proof (sent_size _ _ _ _ _ _ H) as Lp.
  assert (Lt : len (tampered (mask_for (len pt) n) p) = len pt + 20).
  { unfold tampered. rewrite len_app, len_xor_with, len_take, len_drop. lia. }
  split; [|unfold wire; rewrite len_app; lia].
  unfold wire. rewrite take_app_le by lia.
  rewrite (tampered_len _ _ _ _ _ _ _ H) by (unfold mask_for; rewrite len_xor_with; apply len_le_bytes).
  rewrite mask_turns, le_val_le_bytes. change (256 ^ N.of_nat 3) with (2 ^ 24). rewrite N.mod_small by assumption. reflexivity.
Qed.

Lemma short_alloc r wire e x r' a n c1 :
  session_stream Sync (sr_reader r) = (wire, e) -> decrypt_packet_len (sr_cipher r) (take 3 wire) = Ret (n, c1) -> 3 <= len wire ->
  sync_read r = Ret (x, r', a) -> a = Some n.
Proof.
  intros St D L H. destruct r as [c sr]. cbn [sr_cipher sr_reader] in *. unfold sync_read in H. cbn [sr_cipher sr_reader] in H.
  change NUM_LENGTH_BYTES with 3 in H. destruct (session_read_exact_stream Sync sr 3 wire e St) as [I1 _].
  destruct (I1 L) as (sr1 & R & _). rewrite R, D in H. cbn [bind] in H.
  destruct (session_read_exact Sync sr1 n) as [[b|k] sr2]; [|injection H as _ _ <-; reflexivity].
  apply bind_ret_inv in H. destruct H as ([[[t q]|y] c2] & _ & H); [|injection H as _ _ <-; reflexivity].
  apply bind_ret_inv in H. destruct H as (pl & _ & H). injection H as _ _ <-. reflexivity.
Qed.

End WithLaws.

(** ** C91 *)

(** Without any key: the receiver takes the length that was sent, with the bits of the mask flipped. *)
Theorem C91_flipped : forall (E : Env) (EL : EnvLaws E) c pt t aad pkt c' mask,
  encrypt_to_vec c pt t aad = Ret (pkt, c') -> len mask = 3 ->
  decrypt_packet_len c (take 3 (tampered mask pkt)) =
    Ret (le_val (xor_with mask (le_bytes 3 (len pt))) + 17, Cipher (length_cipher c') (packet_cipher c)).
Proof. exact @tampered_len. Qed.
Print Assumptions C91_flipped.

(** So whoever knows the size of a packet chooses any length in its place. *)
Theorem C91_chosen : forall (E : Env) (EL : EnvLaws E) c pt t aad pkt c' n,
  encrypt_to_vec c pt t aad = Ret (pkt, c') -> n < 2 ^ 24 ->
  decrypt_packet_len c (take 3 (tampered (mask_for (len pkt - 20) n) pkt)) = Ret (n + 17, Cipher (length_cipher c') (packet_cipher c)) /\
  drop 3 (tampered (mask_for (len pkt - 20) n) pkt) = drop 3 pkt.
Proof.
  intros E EL c pt t aad pkt c' n H L. pose proof (sent_size _ _ _ _ _ _ H) as Lp. replace (len pkt - 20) with (len pt) by lia.
  destruct (relabelled _ _ _ _ _ _ n [] H L) as (D & _). rewrite app_nil_r in D. split; [exact D|]. apply tampered_drop. lia.
Qed.
Print Assumptions C91_chosen.

(** The blocking reader allocates the chosen size at once; and neither reader returns anything, whatever comes behind, before so many
    bytes have come: what it gives is what the end of the stream gives, and polls give no payload. *)
Theorem C91_waits : forall (E : Env) (EL : EnvLaws E) c pt t aad pkt c' n more e k,
  encrypt_to_vec c pt t aad = Ret (pkt, c') -> n < 2 ^ 24 -> len pt + len more < n ->
  counted k c -> room k ->
  let wire := tampered (mask_for (len pt) n) pkt ++ more in
  (forall sr, session_stream Sync sr = (wire, e) ->
     exists r', sync_read (SyncReader c sr) = Ret (Err (end_error e), r', Some (n + 17))) /\
  (forall l pos s, session_stream Tokio (TokioReader l pos s) = (wire, e) ->
     exists r', tokio_read (TReader c (TokioReader l pos s) init_reading_length) = Ret (Err (from_io (tokio_end e)), r')) /\
  (forall sr acts xs r f, session_content sr = wire ->
     run_schedule acts FreshFuture (TReader c sr init_reading_length) = Ret (xs, r, f) -> payloads_of xs = []).
Proof.
  intros E EL c pt t aad pkt c' n more e k H L Lm C R wire.
  destruct (relabelled _ _ _ _ _ _ n more H L) as (D & Lw). fold wire in D, Lw.
  assert (Cut : cut_short c wire) by (right; eexists _, _; split; [exact D|rewrite len_drop; lia]).
  destruct (C31_established E EL c wire e k Cut C R) as (S1 & S2). split; [|split; [exact S2|]].
  - intros sr St. destruct (S1 sr St) as (r' & a & Q). exists r'. rewrite Q. repeat f_equal.
    refine (short_alloc (SyncReader c sr) wire e _ r' a _ _ St D _ Q). lia.
  - intros sr acts xs r f Sc Q. destruct (C35_in_order E EL acts c sr xs r f Q) as (c1 & rest & Rv & _). rewrite Sc in Rv.
    destruct (payloads_of xs) as [|p ps]; [reflexivity|]. exfalso. cbn [length repeat recv_all] in Rv.
    destruct (cut_short_none c None wire Cut) as (c2 & rs & Rn). rewrite Rn in Rv. discriminate Rv.
Qed.
Print Assumptions C91_waits.

(** Once they have come, a wrong length makes the read fail, or there is a forgery. *)
Theorem C91_noticed : forall (E : Env) (EL : EnvLaws E) m r pre c pkts0 t x pkt c' n more e k,
  send_all (outbound (session_new m r)) pre = Ret (pkts0, c) -> len pre + 1 < 2 ^ 64 ->
  encrypt_to_vec c x t None = Ret (pkt, c') -> n < 2 ^ 24 -> n <= len x + len more -> n <> len x -> len x < 2 ^ 24 ->
  counted k c -> room k ->
  let wire := tampered (mask_for (len x) n) pkt ++ more in
  let forged := forged_between (send_packet_key m r) (pre ++ [Msg t None x]) (pkts0 ++ [pkt]) (len pre) (len pre + 1) wire in
  (forall sr, session_stream Sync sr = (wire, e) ->
     (exists y r' a, sync_read (SyncReader c sr) = Ret (Err (Internal y), r', a)) \/ forged) /\
  (forall l pos s, session_stream Tokio (TokioReader l pos s) = (wire, e) ->
     (exists r', tokio_read (TReader c (TokioReader l pos s) init_reading_length) = Ret (Err (Internal Decryption), r')) \/ forged).
Proof.
  intros E EL m r pre c pkts0 t x pkt c' n more e k S0 Lp H L Lm Ne Lx C R wire forged.
  destruct (relabelled _ _ _ _ _ _ n more H L) as (D & Lw). fold wire in D, Lw.
  assert (NoCut : ~ cut_short c wire).
  { intros [Q|(n' & c1 & D' & Q)]; [lia|]. rewrite D in D'. injection D' as <- _. rewrite len_drop in Q. lia. }
  assert (Acc : forall v c1 rest, recv_one c None wire = Ret (Some v, c1, rest) -> forged).
  { intros v c1 rest Rv.
    assert (S1 : send_all c [Msg t None x] = Ret ([pkt], c')) by (cbn [send_all m_contents m_type m_aad]; rewrite H; reflexivity).
    assert (Ra : recv_all c [None] wire = Ret (Some [v], c1, rest)) by (cbn [recv_all]; rewrite Rv; reflexivity).
    destruct (C65_bytes E EL m r pre [Msg t None x] c pkts0 [pkt] c' [None] wire [v] c1 rest S0 S1) as [(j & body & Lj & Oc & F)|(_ & _ & W & _)].
    - change (len [Msg t None x]) with 1. exact Lp.
    - exact Ra.
    - cbn [length] in Lj. assert (j = 0%nat) by lia. subst j. cbn [nth] in F. change (N.of_nat 0) with 0 in F. rewrite N.add_0_r in F.
      exists (len pre), body. split; [lia|]. split; assumption.
    - exfalso. cbn [length firstn List.concat app] in W. rewrite app_nil_r in W.
      destruct (packet_len_exact c x t None pkt c' Lx H) as (c2 & D2 & _).
      rewrite W in D. pose proof (sent_size _ _ _ _ _ _ H) as Sz. rewrite take_app_le in D by lia. rewrite D in D2.
      injection D2 as Q _. rewrite len_drop in Q. lia. }
  split.
  - intros sr St. destruct (sync_read_total (SyncReader c sr) k C R) as (y & r' & a & Q & _).
    pose proof (sync_read_sound (SyncReader c sr) _ _ _ _ _ St Q) as M. destruct y as [p|[k1 s1|z]]; cbn [sync_meaning sr_cipher] in M.
    + right. destruct M as (hd & ct & rest & _ & Rv & _). exact (Acc _ _ _ Rv).
    + exfalso. exact (NoCut (proj1 M)).
    + left. exists z, r', a. exact Q.
  - intros l pos s St. destruct (tokio_read_meaning _ _ _ _ _ (fresh_within c l pos s wire e St) C R) as (y & r' & Q & M).
    destruct y as [p|[k1 s1|z]]; cbn [read_meaning poll_meaning] in M.
    + right. destruct M as (hd & ct & c1 & rest & _ & Rv & _). exact (Acc _ _ _ Rv).
    + exfalso. exact (NoCut (proj1 M)).
    + left. exists r'. destruct M as (_ & -> & _). exact Q.
Qed.
Print Assumptions C91_noticed.

(** An altered length is not noticed once the packet has arrived, nor with the honest packets behind it. *)
Theorem C91_noticed_at_once_refuted :
  ~ forall (E : Env) (EL : EnvLaws E) c pt t pkt c' lb more e sr,
      encrypt_to_vec c pt t None = Ret (pkt, c') -> len lb = 3 -> lb <> take 3 pkt ->
      session_stream Sync sr = (lb ++ drop 3 pkt ++ more, e) ->
      exists y r' a, sync_read (SyncReader c sr) = Ret (Err (Internal y), r', a).
Proof.
  intros H.
  destruct (@encrypt_to_vec (toy true) toy_in [x01; x02; x03] Genuine None) as [[pkt c']| |] eqn:En; [|vm_compute in En; discriminate En..].
  specialize (H (toy true) (toy_laws true) toy_in [x01; x02; x03] Genuine pkt c'
    (xor_with (mask_for 3 (2 ^ 24 - 1)) (take 3 pkt)) [x05; x06] Closed
    (ChainReader [] true [Chunk (tampered (mask_for 3 (2 ^ 24 - 1)) pkt ++ [x05; x06])]) En).
  destruct H as (y & r' & a & Q).
  - vm_compute in En. injection En as <- _. reflexivity.
  - vm_compute in En. injection En as <- _. intros Q. vm_compute in Q. discriminate Q.
  - unfold tampered. rewrite <- app_assoc. vm_compute in En. injection En as <- _. reflexivity.
  - vm_compute in En. injection En as <- _. vm_compute in Q. discriminate Q.
Qed.
Print Assumptions C91_noticed_at_once_refuted.

(** Three bytes flipped on the way: the blocking reader allocates 16 MiB for a packet of 3 bytes and takes what follows for its body;
    with a smaller length both readers fail at once. *)
Example C91_example :
  let pkt := take 23 two_packets in
  let read mask := @sync_read (toy true) (SyncReader toy_in (ChainReader [] true [Chunk (tampered mask pkt ++ drop 23 two_packets)])) in
  (match read (mask_for 3 (2 ^ 24 - 1)) with
   | Ret (Err (Io UnexpectedEof RetryV1), r, Some a) => a = 16777232 /\ session_content (sr_reader r) = []
   | _ => False
   end) /\
  (match read (mask_for 3 2) with Ret (Err (Internal Decryption), r, Some 19) => session_content (sr_reader r) = drop 22 two_packets | _ => False end) /\
  (match read (mask_for 3 3) with Ret (Ok p, _, _) => p = Decrypted [x00; x01; x02; x03] | _ => False end) /\
  mask_for 3 (2 ^ 24 - 1) = [xfc; xff; xff].
Proof. vm_compute. repeat split. Qed.
