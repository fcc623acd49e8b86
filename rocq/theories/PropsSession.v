(** * Properties C58, C59 and C61: sessions that are not split, the parts handed back, oversized decoys *)
From Coq Require Import List NArith Bool Lia.
From Coq.Strings Require Import Byte.
From Verif Require Import Base BaseFacts Env FsChacha Spec Cipher Histories CipherProofs Handshake SpecHandshake HsDriver HandshakeProofs
  Transport Io SpecIo Futures
  TransportProofs FuturesProofs Sessions IoRunProofs SessionProofs EndpointProofs ReaderProofs Toy PropsHandshake PropsIo
  Traffic SpecTraffic TrafficProofs SpecUnsplit UnsplitProofs OversizeProofs.
Import ListNotations.
Local Open Scope N_scope.

(** ** C58 *)
(** Blocking: any interleaving of reads and writes gives what the two halves give on their own. *)
Theorem C58_blocking : forall (E : Env) us p rs r ws w,
  read_many (use_reads us) (RSync (fst (protocol_split p))) = Ret (rs, r) ->
  write_many Sync (snd (protocol_split p)) (use_writes us) = Ret (ws, w) ->
  exists gs p', unsplit us p = Ret (gs, p') /\
    r = RSync (fst (protocol_split p')) /\ w = snd (protocol_split p') /\
    got_reads gs = rs /\ got_writes gs = ws /\ Forall2 answers_use us gs.
Proof.
  intros E us p rs r ws w Hr Hw. destruct (unsplit_is_split us p rs r ws w Hr Hw) as (gs & r' & -> & U & G1 & G2 & F).
  exists gs, (Protocol r' w). now repeat split.
Qed.
Print Assumptions C58_blocking.

(** Asynchronous: the reader is polled and cancelled as if it were alone. *)
Theorem C58_async_reads : forall (E : Env) us p gs b p',
  async_unsplit us NotBorrowed p = Ret (Some (gs, b, p')) ->
  run_schedule (reader_part us) FreshFuture (fst (tokio_protocol_split p)) =
    Ret (got_reads gs, fst (tokio_protocol_split p'), read_borrow b).
Proof. intros E us p gs b p' H. exact (async_reader us NotBorrowed p gs b p' H). Qed.
Print Assumptions C58_async_reads.

(** The writer sends as if it were alone, as long as no write is dropped half way. *)
Theorem C58_async_writes : forall (E : Env) (EL : EnvLaws E) us p gs b p',
  async_unsplit us NotBorrowed p = Ret (Some (gs, b, p')) -> writes_kept us NotBorrowed p ->
  (forall f, b <> ByWrite f) ->
  write_many Tokio (snd (tokio_protocol_split p)) (begun_writes us) =
    Ret (got_writes gs, snd (tokio_protocol_split p')).
Proof.
  intros E EL us p gs b p' H K B. destruct (async_writer us NotBorrowed p gs b p' H K) as (ys & W & G).
  cbn [settle fst snd app] in W, G.
  assert (settle b (t_writer p') = ([], t_writer p')) as Sb by (destruct b; try reflexivity; now destruct (B f)).
  rewrite Sb in W, G. cbn [fst snd] in W, G. rewrite app_nil_r in G. now rewrite <- G.
Qed.
Print Assumptions C58_async_writes.

(** Whatever is polled, dropped and written meanwhile, the payloads read are the packets of the peer in order. *)
Theorem C58_in_order : forall (E : Env) (EL : EnvLaws E) us c sr w gs b p',
  async_unsplit us NotBorrowed (TokioProtocol (TReader c sr init_reading_length) w) = Ret (Some (gs, b, p')) ->
  exists c' rest,
    recv_all c (repeat None (length (payloads_of (got_reads gs)))) (session_content sr) =
      Ret (Some (map seen (payloads_of (got_reads gs))), c', rest).
Proof.
  intros E EL us c sr w gs b p' H. apply C58_async_reads in H.
  destruct (C35_in_order _ _ _ _ _ _ _ _ H) as (c' & rest & Q & _). eauto.
Qed.
Print Assumptions C58_in_order.

Theorem C58_no_panic : forall (E : Env) (EL : EnvLaws E) us c sr w k,
  counted k c -> counted k (pw_cipher w) -> (overflow_checks = true -> k + len us + 1 < 2 ^ 32) ->
  Forall sound_payload (begun_writes us) ->
  exists y, async_unsplit us NotBorrowed (TokioProtocol (TReader c sr init_reading_length) w) = Ret y.
Proof.
  intros E EL us c sr w k C Cw R F.
  apply (async_total us NotBorrowed (TokioProtocol (TReader c sr init_reading_length) w) c (session_content sr) k);
    cbn [t_reader t_writer read_borrow]; try assumption; [apply fresh_stands|exact I|].
  clear -F. induction us as [|u us IH]; constructor.
  - destruct u; cbn; try exact I. inversion F; subst. assumption.
  - apply IH. destruct u; cbn in F; try assumption. now inversion F.
Qed.
Print Assumptions C58_no_panic.

(** Without the exception for dropped writes the second statement is false: the packet is torn. *)
Theorem C58_dropped_write_refuted :
  ~ forall (E : Env) (EL : EnvLaws E) us p gs b p',
      async_unsplit us NotBorrowed p = Ret (Some (gs, b, p')) -> (forall f, b <> ByWrite f) ->
      exists xs, write_many Tokio (snd (tokio_protocol_split p)) (begun_writes us) = Ret (xs, snd (tokio_protocol_split p')).
Proof.
  intros H.
  pose (p := TokioProtocol (TReader toy_in (TokioReader [] 0 []) init_reading_length)
               (PWriter toy_in (Writer [Accept 5; WPending] [] []))).
  destruct (@async_unsplit (toy true) [StartWrite (genuine [x01]); DropFuture] NotBorrowed p) as [[[[gs b] p']|]| |] eqn:Q;
    try (vm_compute in Q; discriminate).
  destruct (H (toy true) (toy_laws true) _ _ _ _ _ Q) as (xs & W).
  - vm_compute in Q. injection Q as <- <- <-. discriminate.
  - vm_compute in Q. injection Q as <- <- <-. vm_compute in W. discriminate.
Qed.
Print Assumptions C58_dropped_write_refuted.

(** Blocking, then asynchronous with a write between two polls of reads, one of them dropped. *)
Example C58_example :
  match @unsplit (toy true) [UseWrite (genuine [x01; x02; x03]); UseRead; UseWrite (decoy []); UseRead]
          (Protocol (SyncReader toy_in (ChainReader (take 9 two_packets) false [Chunk (drop 9 two_packets)]))
             (PWriter toy_in fresh)),
        @async_unsplit (toy true)
          [PollRead; DropFuture; StartWrite (genuine [x01; x02; x03]); PollWrite; PollRead; PollRead; StartWrite (decoy []);
           PollRead; PollRead] NotBorrowed
          (TokioProtocol (TReader toy_in (TokioReader [] 0 [Chunk (take 9 two_packets); Pending; Chunk (drop 9 two_packets); Pending])
             init_reading_length) (PWriter toy_in (Writer [Accept 5; WPending] [] []))) with
  | Ret (gs, p), Ret (Some (gs', b, p')) =>
      gs = [GotWrite (Ok tt); GotRead (Ok (Decrypted [x00; x01; x02; x03])); GotWrite (Ok tt); GotRead (Ok (Decrypted [x80]))] /\
      written (pw_writer (p_writer p)) = two_packets /\
      gs' = [GotWrite (Ok tt); GotRead (Ok (Decrypted [x00; x01; x02; x03])); GotRead (Ok (Decrypted [x80]));
             GotWrite (Ok tt); GotRead (Err (Io ConnectionAborted RetryV1))] /\
      written (pw_writer (t_writer p')) = two_packets /\ b = NotBorrowed
  | _, _ => False
  end.
Proof. vm_compute. repeat split. Qed.

(** ** C59 *)
(** [ProtocolReader::into_inner] after reads that succeeded: the cipher and the session reader stand at
    the same packet, the first one not read. *)
Theorem C59_reader : forall (E : Env) (EL : EnvLaws E) n c sr wire e qs r,
  session_stream Sync sr = (wire, e) ->
  read_many n (RSync (SyncReader c sr)) = Ret (map Ok qs, RSync r) ->
  let '(c', sr') := sync_reader_into_inner r in
  exists rest, recv_all c (repeat None n) wire = Ret (Some (map seen qs), c', rest) /\
    session_stream Sync sr' = (rest, e) /\ length qs = n.
Proof.
  intros E EL n. induction n as [|n IH]; intros c sr wire e qs r S H.
  - cbn in H. injection H as H1 H2. destruct qs; [|discriminate]. subst r. cbn. eauto.
  - cbn [read_many read_any] in H. apply bind_ret_inv in H. destruct H as ([x r1] & Q & H).
    apply bind_ret_inv in Q. destruct Q as ([[y r2] a] & Q & Q'). injection Q' as <- <-.
    apply bind_ret_inv in H. destruct H as ([xs r3] & H & Hx). injection Hx as Hx ->.
    destruct qs as [|q qs]; [discriminate|]. cbn [map] in Hx. injection Hx as -> ->.
    destruct (C33_reads_sound _ _ _ _ _ _ _ _ _ S Q) as (t & ct & rest & V & R & S' & _).
    destruct r2 as [c2 sr2]. cbn [sr_cipher sr_reader] in *.
    specialize (IH _ _ _ _ _ _ S' H). destruct (sync_reader_into_inner r) as [c' sr'].
    destruct IH as (rest' & R' & S'' & L). exists rest'. cbn [repeat recv_all]. rewrite R. cbn [bind]. rewrite R'. cbn [bind].
    split; [|split; [assumption|cbn; lia]]. cbn [map]. now rewrite (view_seen _ _ V).
Qed.
Print Assumptions C59_reader.

(** [ProtocolWriter::into_inner] after writes that succeeded: packets encrypted with the cipher and appended to
    the transport continue the session; the peer reads all of them. *)
Theorem C59_writer : forall (E : Env) (EL : EnvLaws E) fl pls p p' ms pks c2,
  write_many fl p pls = Ret (map (fun _ => Ok tt) pls, p') ->
  Forall (fun pl => len (snd (seen pl)) < 2 ^ 24) pls -> Forall (fun m => len (m_contents m) < 2 ^ 24) ms ->
  let '(c', w') := writer_into_inner p' in
  send_all c' ms = Ret (pks, c2) ->
  exists sent, written w' = written (pw_writer p) ++ sent /\
   recv_all (pw_cipher p) (repeat None (length pls) ++ map m_aad ms) (sent ++ List.concat pks) =
      Ret (Some (map seen pls ++ map (fun m => (m_type m, m_contents m)) ms), c2, []).
Proof.
  intros E EL fl pls. induction pls as [|pl pls IH]; intros p p' ms pks c2 H F Fm.
  - cbn in H. injection H as <-. cbn. intros Sn. exists []. rewrite app_nil_r. split; [reflexivity|].
    cbn [app]. rewrite <- (app_nil_r (List.concat pks)). now apply recv_all_sent.
  - cbn [write_many] in H. apply bind_ret_inv in H. destruct H as ([x p1] & Q & H).
    apply bind_ret_inv in H. destruct H as ([xs p2] & H & Hx). cbn [map] in Hx. injection Hx as -> -> ->.
    inversion F as [|? ? F1 F2]; subst.
    destruct (C38_one_packet _ _ _ _ _ _ Q) as (t & ct & pkt & V & L & W & R).
    assert (seen pl = (t, ct)) as Sp by exact (view_seen _ _ V).
    specialize (IH _ _ ms pks c2 H F2 Fm). destruct (writer_into_inner p') as [c' w'].
    intros Sn. destruct (IH Sn) as (sent & W' & R'). exists (pkt ++ sent). rewrite W', W, app_assoc. split; [reflexivity|].
    rewrite Sp in F1. specialize (R F1). cbn [length repeat app recv_all].
    rewrite <- app_assoc, (recv_one_frame _ _ _ _ _ _ (sent ++ List.concat pks) R). cbn [bind app]. rewrite R'. cbn [bind map app].
    now rewrite Sp.
Qed.
Print Assumptions C59_writer.

(** Raw reads on the session reader, with any buffers: leftover of the handshake, then the transport, each byte once. *)
Theorem C59_raw_reads : forall sizes sr xs sr',
  Forall (fun n => 0 < n) sizes -> raw_reads sizes sr = (xs, sr') ->
  session_content sr = delivered xs ++ session_content sr'.
Proof.
  induction sizes as [|n sizes IH]; intros sr xs sr' F H; cbn [raw_reads] in H.
  - injection H as <- <-. reflexivity.
  - inversion F as [|? ? F1 F2]; subst. destruct (session_read sr n) as [x sr1] eqn:Q.
    destruct (raw_reads sizes sr1) as [ys sr2] eqn:Q2. injection H as <- <-.
    rewrite (session_read_content _ _ _ _ F1 Q), (IH _ _ _ F2 Q2). cbn [delivered flat_map].
    now rewrite app_assoc.
Qed.
Print Assumptions C59_raw_reads.

Theorem C59_raw_polls : forall sizes l pos s xs sr',
  Forall (fun n => 0 < n) sizes -> raw_polls sizes (TokioReader l pos s) = (xs, sr') ->
  session_content (TokioReader l pos s) = delivered (completed xs) ++ session_content sr'.
Proof.
  induction sizes as [|n sizes IH]; intros l pos s xs sr' F H; cbn [raw_polls] in H.
  - injection H as <- <-. reflexivity.
  - inversion F as [|? ? F1 F2]; subst.
    destruct (poll_session (TokioReader l pos s) n) as [x sr1] eqn:Q.
    destruct (raw_polls sizes sr1) as [ys sr2] eqn:Q2. injection H as <- <-.
    assert (exists pos1 s1, sr1 = TokioReader l pos1 s1) as (pos1 & s1 & ->).
    { unfold poll_session in Q. destruct (pos <? len l); [|destruct (poll_script s n)]; injection Q as _ <-; eauto. }
    pose proof (IH _ _ _ _ _ F2 Q2) as Hc. destruct x as [x|].
    + assert (session_read (TokioReader l pos (match s with Pending :: _ => s | _ => s end)) n = (x, TokioReader l pos1 s1)) as Q'.
      { unfold poll_session in Q. unfold session_read. destruct (pos <? len l).
        - injection Q as <- <- <-. now destruct s as [|[]].
        - destruct s as [|[bs|k|] s]; cbn [poll_script] in Q.
          + injection Q as <- <- <-. reflexivity.
          + destruct (read (Chunk bs :: s) n) as [r s']. injection Q as <- <- <-. reflexivity.
          + injection Q as <- <- <-. reflexivity.
          + discriminate. }
      assert ((match s with Pending :: _ => s | _ => s end) = s) as Es by now destruct s as [|[]].
      rewrite Es in Q'. rewrite (session_read_content _ _ _ _ F1 Q'), Hc. cbn [completed delivered flat_map app].
      fold (completed ys). now rewrite app_assoc.
    + cbn [completed delivered flat_map app]. fold (completed ys). fold (delivered (completed ys)). rewrite <- Hc.
      unfold poll_session in Q. destruct (pos <? len l); [discriminate|]. destruct s as [|[bs|k|] s]; cbn [poll_script] in Q.
      * discriminate.
      * destruct (read (Chunk bs :: s) n); discriminate.
      * discriminate.
      * injection Q as <- <-. reflexivity.
Qed.
Print Assumptions C59_raw_polls.

(** The leftover is delivered without waiting for the transport, and no read returns 0 bytes before the
    transport does. *)
Theorem C59_leftover_first : forall sr n,
  0 < n -> session_leftover sr <> [] ->
  exists bs sr', session_read sr n = (Data bs, sr') /\ bs <> [] /\ bs = take n (session_leftover sr) /\
    session_inner sr' = session_inner sr.
Proof.
  intros sr n Hn L. destruct (session_read sr n) as [x sr'] eqn:Q.
  assert (exists bs, x = Data bs) as (bs & ->).
  { destruct sr as [cur [|] s|l pos s]; cbn in L; try easy.
    - destruct cur; [easy|]. cbn in Q. injection Q as <- _. eauto.
    - unfold session_read in Q. destruct (N.ltb_spec pos (len l)).
      + injection Q as <- _. eauto.
      + destruct L. now apply drop_all. }
  destruct (C28_reader_delivers _ _ _ _ Hn Q) as (_ & _ & D). destruct (D L) as [-> I].
  exists (take n (session_leftover sr)), sr'. repeat split; try assumption.
  intros Z. apply (f_equal len) in Z. rewrite len_take in Z. change (len []) with 0 in Z.
  destruct (session_leftover sr) as [|b l]; [easy|]. rewrite len_cons in Z. lia.
Qed.
Print Assumptions C59_leftover_first.

(** One packet is read, the rest is taken over by hand. *)
Example C59_example :
  match @read_many (toy true) 1 (RSync (SyncReader toy_in (ChainReader (take 30 two_packets) false [Chunk (drop 30 two_packets)]))),
        @write_many (toy true) Sync (PWriter toy_in fresh) [genuine [x01; x02; x03]] with
  | Ret (xs, RSync r), Ret (ys, p) =>
      let '(c, sr) := sync_reader_into_inner r in
      let '(c', w') := writer_into_inner p in
      fst (raw_reads [3; 100; 1; 10; 10] sr) =
        [Data (take 3 (drop 23 two_packets)); Data (take 4 (drop 26 two_packets)); Data (take 1 (drop 30 two_packets));
         Data (take 10 (drop 31 two_packets)); Data (drop 41 two_packets)] /\
      match @send_all (toy true) c' [Msg Decoy None []] with
      | Ret (pks, _) => written w' ++ List.concat pks = two_packets
      | _ => False
      end
  | _, _ => False
  end.
Proof. vm_compute. repeat split. Qed.

(** ** C61 *)
(** Decoys in the handshake: the sender takes any size below 2^24, the receiver refuses a packet of more than
    4000014 bytes.  Whatever its side does before and after, the honest receiver of such a decoy gives up, having
    allocated only the buffers of the decoys before it. *)
Theorem C61_oversized_decoy : forall (E : Env) (EL : EnvLaws E) magic r sk sk' g d ds1 big ds2,
  EcdhAgrees E -> len magic = 4 ->
  sk_valid sk = true -> sk_valid sk' = true ->
  (debug_assertions = true -> sk <> zeros 32 /\ sk' <> zeros 32) ->
  len (garbage_bytes g) <= 4095 ->
  Forall (fun x => len x + 17 <= 4000014) ds1 ->
  4000014 < len big + 17 -> len big < 2 ^ 24 ->
  (overflow_checks = true -> len ds1 + len ds2 + 2 < 2 ^ 32 /\ len (decoy_list d) + 1 < 2 ^ 32) ->
  take 4 (ellswift_of sk) <> magic -> take 4 (ellswift_of sk') <> magic ->
  exists h h' w m,
    party_start magic r sk g = Ret (Ok (h, ellswift_of sk ++ garbage_bytes g)) /\
    party_key h (ellswift_of sk') (Some (ds1 ++ big :: ds2)) = Ret (Ok (h', w)) /\
    (let '(ski, skr) := in_order r sk sk' in
     keys_from (bip_prk magic (bip_secret (ellswift_of ski) (ellswift_of skr) ski PartyA)) m) /\
    (first_at (terminator m r) (garbage_bytes g ++ terminator m r) (len (garbage_bytes g)) ->
     forall fl gr s wr e more,
       len (garbage_bytes gr) <= 4095 -> healthy wr ->
       flatten fl s = (ellswift_of sk ++ garbage_bytes g ++ w ++ more, e) -> calm fl s ->
       exists o, io_handshake fl magic (opp r) sk' gr d s wr = Ret o /\
         ho_result o = Err (Internal PacketTooBig) /\
         ho_allocs o = map (fun x => len x + 17) ds1).
Proof. exact @oversized_decoy. Qed.
Print Assumptions C61_oversized_decoy.

(** The sender itself completes its handshake, with any decoys, and learns nothing of this. *)
Theorem C61_sender_unaware : forall (E : Env) (EL : EnvLaws E) magic r sk sk' g d gr dr,
  EcdhAgrees E -> len magic = 4 ->
  sk_valid sk = true -> sk_valid sk' = true ->
  (debug_assertions = true -> sk <> zeros 32 /\ sk' <> zeros 32) ->
  len (garbage_bytes g) <= 4095 -> len (garbage_bytes gr) <= 4095 ->
  Forall (fun x => len x + 17 <= 4000014) (decoy_list dr) ->
  (overflow_checks = true -> len (decoy_list d) + 1 < 2 ^ 32 /\ len (decoy_list dr) + 1 < 2 ^ 32) ->
  take 4 (ellswift_of sk) <> magic -> take 4 (ellswift_of sk') <> magic ->
  exists k k' w m,
    party_start magic (opp r) sk' gr = Ret (Ok (k, ellswift_of sk' ++ garbage_bytes gr)) /\
    party_key k (ellswift_of sk) dr = Ret (Ok (k', w)) /\
    (let '(ski, skr) := in_order r sk sk' in
     keys_from (bip_prk magic (bip_secret (ellswift_of ski) (ellswift_of skr) ski PartyA)) m) /\
    (first_at (terminator m (opp r)) (garbage_bytes gr ++ terminator m (opp r)) (len (garbage_bytes gr)) ->
     forall fl s wr e more, healthy wr ->
       flatten fl s = ((ellswift_of sk' ++ garbage_bytes gr) ++ w ++ more, e) -> calm fl s ->
       exists rd p, connect fl magic r sk g d s wr = Ret (Ok (rd, p))).
Proof. exact @sender_unaware. Qed.
Print Assumptions C61_sender_unaware.

Lemma first_at_start t : first_at t t 0.
Proof.
  split; [|intros j Hj; lia]. unfold occurs_at. change (drop 0 t) with t. split; [lia|]. apply take_all. lia.
Qed.

(** Both together in the toy environment: a decoy of four million bytes. *)
Theorem C61_accepted_is_acceptable_refuted :
  ~ forall (E : Env) (EL : EnvLaws E) magic r sk sk' g ds h f h' w fl s wr e o,
      EcdhAgrees E -> len magic = 4 -> sk_valid sk = true -> sk_valid sk' = true ->
      Forall (fun d => len d < 2 ^ 24) ds ->
      party_start magic r sk g = Ret (Ok (h, f)) ->
      party_key h (ellswift_of sk') (Some ds) = Ret (Ok (h', w)) ->
      flatten fl s = (f ++ w, e) -> calm fl s -> healthy wr ->
      io_handshake fl magic (opp r) sk' None None s wr = Ret o ->
      ho_result o <> Err (Internal PacketTooBig).
Proof.
  intros H.
  assert (exists big : bytes, len big = 4000000) as (big & Z) by (exists (zeros 4000000); exact (len_zeros 4000000)).
  destruct (@C61_oversized_decoy (toy true) (toy_laws true) mainnet Initiator ska skb None None [[x01]] big [])
    as (h & h' & w & m & St & K & KF & Q).
  - apply toy_ecdh.
  - reflexivity.
  - vm_compute. reflexivity.
  - vm_compute. reflexivity.
  - intros _. split; vm_compute; discriminate.
  - vm_compute. discriminate.
  - constructor; [vm_compute; discriminate|constructor].
  - rewrite Z. reflexivity.
  - rewrite Z. reflexivity.
  - intros _. split; reflexivity.
  - vm_compute. discriminate.
  - vm_compute. discriminate.
  - cbn [garbage_bytes app] in *. specialize (Q (first_at_start _)).
    set (f := @ellswift_of (toy true) ska ++ []) in *.
    assert (exists b l, @ellswift_of (toy true) ska = b :: l) as (b & l & Eb) by (vm_compute; eauto).
    destruct (Q Sync None [Chunk (f ++ w)] fresh Closed []) as (o & Ho & Ro & _).
    + vm_compute. discriminate.
    + split; constructor.
    + unfold f. rewrite Eb. cbn [flatten app]. now rewrite !app_nil_r.
    + intros _. constructor; [discriminate|constructor].
    + refine (H (toy true) (toy_laws true) mainnet Initiator ska skb None ([[x01]] ++ [big]) h f h' w Sync _ fresh Closed o
        (toy_ecdh true) eq_refl eq_refl eq_refl _ St K _ _ _ Ho Ro).
      * repeat constructor. rewrite Z. reflexivity.
      * unfold f. rewrite Eb. cbn [flatten app]. now rewrite app_nil_r.
      * intros _. constructor; [discriminate|constructor].
      * split; constructor.
Qed.
Print Assumptions C61_accepted_is_acceptable_refuted.

(** The same in small: the length of the second decoy replaced by one over the cap. *)
Example C61_example :
  match @party_start (toy true) mainnet Initiator ska None with
  | Ret (Ok (h, f)) =>
      match @party_key (toy true) h (@ellswift_of (toy true) skb) (Some [[x01]; zeros 300]) with
      | Ret (Ok (_, w)) =>
          (* 16 bytes of terminator, 21 of the first decoy, then the length of the second one *)
          match @io_handshake (toy true) Tokio mainnet Responder skb None None
                  [Chunk (f ++ take 37 w ++ [x00; xff; xff])] fresh,
                @io_handshake (toy true) Tokio mainnet Responder skb None None [Chunk (f ++ w)] fresh with
          | Ret o, Ret o' =>
              ho_result o = Err (Internal PacketTooBig) /\ ho_allocs o = [18] /\
              (exists x, ho_result o' = Ok x) /\ ho_allocs o' = [18; 317; 17]
          | _, _ => False
          end
      | _ => False
      end
  | _ => False
  end.
Proof. vm_compute. repeat split. eexists. reflexivity. Qed.
