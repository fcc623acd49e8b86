(** * PropsIntegrity: what an attacker who controls the bytes on the wire can achieve (C65, C66) *)
From Coq Require Import List NArith Bool Lia.
From Coq.Strings Require Import Byte.
From Verif Require Import Base BaseFacts Env FsChacha Spec FsChachaProofs Cipher CipherProofs Histories Handshake
  SpecHandshake HsDriver HandshakeProofs HsRunProofs Transport Io SpecIo Futures Sessions IoProofs FuturesProofs
  IoRunProofs SessionProofs ReaderProofs EndpointProofs OversizeProofs SpecIntegrity IntegrityProofs Toy PropsHandshake PropsIo.
Import ListNotations.
Local Open Scope N_scope.

(** ** C65 *)
(** The packet API: whatever bodies and associated data are offered to the three decryption calls, in
    whatever order and between whatever other calls. *)
Theorem C65_calls : forall (E : Env) (EL : EnvLaws E) m r ms pkts out os rs s',
  send_all (outbound (session_new m r)) ms = Ret (pkts, out) -> len ms < 2 ^ 64 ->
  steps (session_new m (opp r)) os = Ret (rs, s') ->
  let got := all_accepted os rs in
  got = firstn (length got) (map (fun x => (aad_of x, view x)) ms) \/
  exists o aad body i, In o os /\ offered o = Some (aad, body) /\ i < len got /\
    forgery (send_packet_key m r) ms pkts i aad body.
Proof.
  intros E EL m r ms pkts out os rs s' S L H.
  assert (packet_cipher (inbound (session_new m (opp r))) = fp_at (send_packet_key m r) 0) as Pc
    by (destruct r; reflexivity).
  destruct (calls_integrity _ _ _ (sent_honest _ _ _ _ _ L S) os _ 0 rs s' Pc H) as [Q|(o & a & b & j & I1 & I2 & I3 & I4)].
  - now left.
  - right. exists o, a, b, j. split; [assumption|]. split; [assumption|]. split; [lia|assumption].
Qed.
Print Assumptions C65_calls.

(** Packets received in a row.  Without a forgery not only the contents are the sender's: every byte
    consumed is, including the length bytes, which no tag covers. *)
Theorem C65_bytes : forall (E : Env) (EL : EnvLaws E) m r pre ms c pkts0 pkts out aads wire vs c' rest,
  send_all (outbound (session_new m r)) pre = Ret (pkts0, c) ->
  send_all c ms = Ret (pkts, out) -> len pre + len ms < 2 ^ 64 ->
  recv_all c aads wire = Ret (Some vs, c', rest) ->
  (exists j body, (j < length aads)%nat /\ occurs body wire /\
     forgery (send_packet_key m r) (pre ++ ms) (pkts0 ++ pkts) (len pre + N.of_nat j)
       (match nth j aads None with Some a => a | None => [] end) body) \/
  (length aads <= length ms)%nat /\ vs = firstn (length aads) (map view ms) /\
  wire = List.concat (firstn (length aads) pkts) ++ rest /\
  send_all c (firstn (length aads) ms) = Ret (firstn (length aads) pkts, c').
Proof.
  intros E EL m r pre ms c pkts0 pkts out aads wire vs c' rest S0 S1 L H.
  assert (S := send_all_join _ _ _ _ _ _ _ S0 S1).
  assert (len (pre ++ ms) < 2 ^ 64) as L' by (rewrite len_app; assumption).
  assert (Ho := sent_honest _ _ _ _ _ L' S).
  assert (length pkts0 = length pre) as L0 by exact (send_all_length _ _ _ _ S0).
  assert (packet_cipher c = fp_at (send_packet_key m r) (len pre)) as Pc.
  { rewrite session_out_at in S0. apply send_all_bodies in S0; [exact (proj1 S0)|lia]. }
  assert (forall A (l1 l2 : list A) n, length l1 = n -> skipn n (l1 ++ l2) = l2) as Sk.
  { intros A l1 l2 n <-. induction l1; [reflexivity|assumption]. }
  destruct (stream_integrity _ _ _ Ho aads c wire vs c' rest (len pre) out Pc) as
    [(j & body & J)|(us & ps & I1 & I2 & I3 & _ & I4 & I5 & I6 & _)].
  - rewrite !Sk by (unfold len; lia). exact S1.
  - exact H.
  - left. exists j, body. destruct J as (J1 & J2 & J3). split; [assumption|]. split; [assumption|].
    unfold aad_or_default in J3. exact J3.
  - right. rewrite !Sk in * by (unfold len; lia). subst ps.
    split.
    { rewrite I2, map_length in I3. rewrite <- I3. rewrite firstn_length. lia. }
    rewrite firstn_map. auto.
Qed.
Print Assumptions C65_bytes.

(** Reads of an established session, by either driver, over any transport, also after failed reads:
    the receiver is where the sender was after [pre]. *)
Theorem C65_reads : forall (E : Env) (EL : EnvLaws E) m r pre ms c0 pkts0 pkts out fl c sr n xs rd,
  send_all (outbound (session_new m r)) pre = Ret (pkts0, c0) ->
  send_all c0 ms = Ret (pkts, out) -> len pre + len ms < 2 ^ 64 ->
  packet_cipher c = packet_cipher c0 ->
  read_many n (established fl c sr) = Ret (xs, rd) ->
  let got := map seen (payloads_of xs) in
  got = firstn (length got) (map view ms) \/
  forged_between (send_packet_key m r) (pre ++ ms) (pkts0 ++ pkts) (len pre) (len pre + len got)
    (session_content sr).
Proof.
  intros E EL m r pre ms c0 pkts0 pkts out fl c sr n xs rd S0 S1 L Hc H.
  destruct (after_prefix _ _ _ _ _ _ _ _ S0 S1 L) as (Ho & Pc & Sk). rewrite Pc in Hc.
  pose proof (reads_integrity _ _ _ Ho fl c sr n xs rd _ Hc H) as Q. rewrite Sk in Q. exact Q.
Qed.
Print Assumptions C65_reads.

(** The same for any polls and cancellations of the asynchronous reader. *)
Theorem C65_polls : forall (E : Env) (EL : EnvLaws E) m r pre ms c0 pkts0 pkts out acts c sr xs rd f,
  send_all (outbound (session_new m r)) pre = Ret (pkts0, c0) ->
  send_all c0 ms = Ret (pkts, out) -> len pre + len ms < 2 ^ 64 ->
  packet_cipher c = packet_cipher c0 ->
  run_schedule acts FreshFuture (TReader c sr init_reading_length) = Ret (xs, rd, f) ->
  let got := map seen (payloads_of xs) in
  got = firstn (length got) (map view ms) \/
  forged_between (send_packet_key m r) (pre ++ ms) (pkts0 ++ pkts) (len pre) (len pre + len got)
    (session_content sr).
Proof.
  intros E EL m r pre ms c0 pkts0 pkts out acts c sr xs rd f S0 S1 L Hc H.
  destruct (after_prefix _ _ _ _ _ _ _ _ S0 S1 L) as (Ho & Pc & Sk). rewrite Pc in Hc.
  pose proof (polls_integrity _ _ _ Ho acts c sr xs rd f _ Hc H) as Q. rewrite Sk in Q. exact Q.
Qed.
Print Assumptions C65_polls.

(** The sender's three messages in the toy environment; the attacker removes the second packet, swaps
    the first two, repeats the first, flips any one bit (here of the second byte of the contents), or
    puts its own packet in place of the second. *)
Definition toy_pkts : list bytes := Eval vm_compute in
  match @send_all (toy true) toy_in [Msg Genuine None [x01; x02; x03]; Msg Decoy None [x09]; Msg Genuine None [x04]] with
  | Ret (ps, _) => ps
  | _ => []
  end.
Definition own_pkts : list bytes := Eval vm_compute in
  match @send_all (toy true) toy_in [Msg Genuine None [x01; x02; x03]; Msg Genuine None [x66]] with
  | Ret (ps, _) => ps
  | _ => []
  end.
Definition toy_reads (wire : bytes) : list (packet_type * bytes) :=
  match @read_many (toy true) 3 (established Sync toy_in (ChainReader [] true [Chunk wire])) with
  | Ret (xs, _) => map seen (payloads_of xs)
  | _ => []
  end.
Example C65_example :
  let p i := nth i toy_pkts [] in
  toy_reads (p 0%nat ++ p 1%nat ++ p 2%nat) = [(Genuine, [x01; x02; x03]); (Decoy, [x09]); (Genuine, [x04])] /\
  toy_reads (p 0%nat ++ p 2%nat) = [(Genuine, [x01; x02; x03])] /\
  toy_reads (p 1%nat ++ p 0%nat ++ p 2%nat) = [] /\
  toy_reads (p 0%nat ++ p 0%nat ++ p 1%nat) = [(Genuine, [x01; x02; x03])] /\
  toy_reads (take 5 (p 0%nat) ++ [x00] ++ drop 6 (p 0%nat) ++ p 1%nat) = [] /\
  toy_reads (List.concat own_pkts) = [(Genuine, [x01; x02; x03]); (Genuine, [x66])].
Proof. vm_compute. repeat split. Qed.

(** The last of these is a forgery: in the toy environment anybody can compute the tag. *)
Example C65_example_forged :
  @forged_between (toy true) (send_packet_key sample_km Responder)
    [Msg Genuine None [x01; x02; x03]; Msg Decoy None [x09]; Msg Genuine None [x04]] toy_pkts 1 2
    (List.concat own_pkts).
Proof.
  exists 1, (drop 3 (nth 1 own_pkts [])). split; [lia|]. split.
  - exists (nth 0 own_pkts [] ++ take 3 (nth 1 own_pkts [])), []. vm_compute. reflexivity.
  - split.
    + exists (take 2 (drop 3 (nth 1 own_pkts []))). vm_compute. reflexivity.
    + intros (x & p & H1 & H2 & _ & H3). vm_compute in H2. injection H2 as <-. vm_compute in H3. discriminate.
Qed.

(** ** C66 *)
(** A handshake and the session after it.  The honest peer of role [opp r] sends its key, its garbage
    and the rest of its handshake, then the messages [ms].  Whatever bytes arrive behind its key, a
    handshake that completes used exactly its bytes, and what is read afterwards is what it sent, in
    order, up to some point; or there is a forgery among the bytes. *)
Theorem C66_session : forall (E : Env) (EL : EnvLaws E) magic r sk sk' g d gr dr,
  EcdhAgrees E -> len magic = 4 ->
  sk_valid sk = true -> sk_valid sk' = true ->
  (debug_assertions = true -> sk <> zeros 32 /\ sk' <> zeros 32) ->
  len (garbage_bytes g) <= 4095 -> len (garbage_bytes gr) <= 4095 ->
  (overflow_checks = true -> len (decoy_list d) + 1 < 2 ^ 32 /\ len (decoy_list dr) + 1 < 2 ^ 32) ->
  take 4 (ellswift_of sk) <> magic -> take 4 (ellswift_of sk') <> magic ->
  exists k k' m ps,
    party_start magic (opp r) sk' gr = Ret (Ok (k, ellswift_of sk' ++ garbage_bytes gr)) /\
    party_key k (ellswift_of sk) dr = Ret (Ok (k', terminator m (opp r) ++ List.concat ps)) /\
    (let '(ski, skr) := in_order r sk sk' in
     keys_from (bip_prk magic (bip_secret (ellswift_of ski) (ellswift_of skr) ski PartyA)) m) /\
    send_all (outbound (session_new m (opp r))) (handshake_msgs (garbage_bytes gr) (decoy_list dr)) =
      Ret (ps, outbound (sv_cipher (hs_state k'))) /\
    forall ms pkts out fl s wr o i oc sr received,
      send_all (outbound (sv_cipher (hs_state k'))) ms = Ret (pkts, out) ->
      len (decoy_list dr) + 1 + len ms < 2 ^ 64 ->
      content s = ellswift_of sk' ++ received ->
      io_handshake fl magic r sk g d s wr = Ret o -> ho_result o = Ok (i, oc, sr) ->
      let kP := send_packet_key m (opp r) in
      let sent := handshake_msgs (garbage_bytes gr) (decoy_list dr) ++ ms in
      let hs := len (decoy_list dr) + 1 in
      let genuine_or_forged xs :=
        let got := map seen (payloads_of xs) in
        got = firstn (length got) (map view ms) \/
        forged_between kP sent (ps ++ pkts) hs (hs + len got) (session_content sr) in
      forged_handshake kP sent (ps ++ pkts) hs (terminator m (opp r)) received \/
      received = garbage_bytes gr ++ terminator m (opp r) ++ List.concat ps ++ session_content sr /\
      i = outbound (sv_cipher (hs_state k')) /\
      (forall n xs rd, read_many n (established fl i sr) = Ret (xs, rd) -> genuine_or_forged xs) /\
      (forall acts xs rd f, run_schedule acts FreshFuture (TReader i sr init_reading_length) = Ret (xs, rd, f) ->
         genuine_or_forged xs).
Proof. exact @session_integrity. Qed.
Print Assumptions C66_session.

(** The responder's bytes of [sample_wires]: 64 bytes of key, 40 of garbage, terminator, packets.
    Unaltered; one byte of garbage altered; one byte of garbage removed; in the toy environment, whose tag is a
    weighted sum, garbage altered so that the sum stays. *)
Example C66_example :
  let b := snd sample_wires in
  let hs bytes := match @io_handshake (toy true) Tokio mainnet Initiator ska (Some (repeat x2a 300)) (Some [[x01]; zeros 70])
                          [Chunk bytes] fresh with
                  | Ret o => match ho_result o with Ok _ => None | Err e => Some e end
                  | _ => Some (Internal PacketTooBig) end in
  hs b = None /\
  hs (take 70 b ++ [x2c] ++ drop 71 b) = Some (Internal Decryption) /\
  hs (take 70 b ++ drop 71 b) = Some (Internal Decryption) /\
  hs (take 70 b ++ [x2e; x2a] ++ drop 72 b) = None.
Proof. vm_compute. repeat split. Qed.
