(** * OversizeProofs: a decoy the sender accepts and the receiver refuses *)
From Coq Require Import List NArith Bool Lia.
From Coq.Strings Require Import Byte.
From Verif Require Import Base BaseFacts Env FsChacha Spec Cipher Histories CipherFacts CipherProofs Handshake
  SpecHandshake HsDriver HandshakeProofs HsRunProofs Transport Io SpecIo Futures Sessions
  TransportProofs IoProofs FuturesProofs IoRunProofs SessionProofs EndpointProofs.
Import ListNotations.
Local Open Scope N_scope.

Section Oversize.
Context {E : Env} {EL : EnvLaws E}.

(** One party of a handshake, for either role. *)
Lemma half magic r sk sk' g d m :
  EcdhAgrees E -> len magic = 4 -> sk_valid sk = true -> sk_valid sk' = true ->
  (debug_assertions = true -> sk <> zeros 32) ->
  len (garbage_bytes g) <= 4095 -> (overflow_checks = true -> len (decoy_list d) + 1 < 2 ^ 32) ->
  take 4 (ellswift_of sk') <> magic ->
  (let '(ski, skr) := in_order r sk sk' in
   keys_from (bip_prk magic (bip_secret (ellswift_of ski) (ellswift_of skr) ski PartyA)) m) ->
  exists h h' ps oc,
    party_start magic r sk g = Ret (Ok (h, ellswift_of sk ++ garbage_bytes g)) /\
    party_key h (ellswift_of sk') d = Ret (Ok (h', terminator m r ++ List.concat ps)) /\
    send_all (outbound (session_new m r)) (version_msgs g (decoy_list d)) = Ret (ps, oc) /\
    remote_garbage_terminator (hs_state h') = terminator m (opp r) /\
    inbound (sv_cipher (hs_state h')) = inbound (session_new m r) /\
    outbound (sv_cipher (hs_state h')) = oc.
Proof.
  intros EA Hm Vs Vs' Hz Hg Ho M KF.
  pose proof (start_ok magic r sk g Vs Hz Hg) as Hs.
  destruct (key_ok magic r (EcdhPoint sk (ellswift_of sk)) g (ellswift_of sk') d Hm (ellswift_len _) M Ho)
    as (m2 & ps & oc & KF2 & S & K).
  assert (m2 = m) as ->.
  { destruct r; cbn [in_order elligator_swift secret_key party_of] in *.
    - exact (keys_from_unique _ _ _ KF2 KF).
    - unfold bip_secret in KF2. rewrite <- (EA sk' sk Vs' Vs) in KF2. exact (keys_from_unique _ _ _ KF2 KF). }
  do 4 eexists. split; [exact Hs|]. split; [exact K|]. split; [exact S|]. repeat split.
Qed.

Lemma send_all_app ms1 : forall ms2 c ps c', send_all c (ms1 ++ ms2) = Ret (ps, c') ->
  exists ps1 c1 ps2, send_all c ms1 = Ret (ps1, c1) /\ send_all c1 ms2 = Ret (ps2, c') /\ ps = ps1 ++ ps2.
Proof.
  induction ms1 as [|m ms1 IH]; intros ms2 c ps c' H; cbn [app send_all] in *.
  - exists [], c, ps. auto.
  - apply bind_ret_inv in H. destruct H as ([p c1] & Q & H). rewrite Q. cbn [bind].
    apply bind_ret_inv in H. destruct H as ([ps' c2] & H & Hx). injection Hx as <- <-.
    destruct (IH _ _ _ _ H) as (ps1 & c3 & ps2 & S1 & S2 & ->). rewrite S1. cbn [bind]. eauto 6.
Qed.

(** The decoys before the last messages. *)
Lemma version_msgs_split g ds1 big ds2 : exists ms1 a ms2,
  version_msgs g (ds1 ++ big :: ds2) = ms1 ++ Msg Decoy a big :: ms2 /\
  map m_aad ms1 = first_aads g (length ds1) /\
  map (fun m => (m_type m, m_contents m)) ms1 = map (fun d => (Decoy, d)) ds1.
Proof.
  revert g. induction ds1 as [|d ds1 IH]; intros g; cbn [app version_msgs].
  - exists [], g, (version_msgs None ds2). repeat split.
  - destruct (IH None) as (ms1 & a & ms2 & -> & A & T). exists (Msg Decoy g d :: ms1), a, ms2.
    split; [reflexivity|]. cbn [map m_aad m_type m_contents length first_aads]. rewrite A, T. split; [|reflexivity].
    f_equal. destruct (length ds1); reflexivity.
Qed.

(** The length at the front of a packet. *)
Lemma packet_announces c x t a pkt c' : len x < 2 ^ 24 -> encrypt_to_vec c x t a = Ret (pkt, c') ->
  exists c1, decrypt_packet_len c (take 3 pkt) = Ret (len x + 17, c1) /\ 3 <= len pkt.
Proof.
  intros L H. pose proof (encrypt_vec_len _ _ _ _ _ _ H) as Lp.
  pose proof (recv_all_sent [Msg t a x] c [pkt] c' []) as R. cbn [map m_aad m_type m_contents send_all recv_all List.concat] in R.
  rewrite H in R. cbn [bind] in R. specialize (R ltac:(constructor; [exact L|constructor]) eq_refl).
  rewrite !app_nil_r in R. apply bind_ret_inv in R. destruct R as ([[[p|] c2] rs] & R & R2); [|discriminate].
  cbn [bind] in R2. injection R2 as -> -> ->. unfold recv_one in R.
  destruct (len pkt <? 3) eqn:L3; [discriminate|]. apply bind_ret_inv in R. destruct R as ([n c1] & D & R).
  exists c1. split; [|lia]. rewrite D. do 2 f_equal.
  destruct (len (drop 3 pkt) <? n) eqn:Ln; [discriminate|].
  apply bind_ret_inv in R. destruct R as ([[[ty|e] c3] buf] & _ & R); [|discriminate]. injection R as _ _ _ R.
  apply (f_equal len) in R. rewrite !len_drop in R. change (len []) with 0 in R. rewrite len_drop in Ln. lia.
Qed.

Theorem oversized_decoy magic r sk sk' g d (ds1 : list bytes) (big : bytes) (ds2 : list bytes) :
  EcdhAgrees E -> len magic = 4 ->
  sk_valid sk = true -> sk_valid sk' = true ->
  (debug_assertions = true -> sk <> zeros 32 /\ sk' <> zeros 32) ->
  len (garbage_bytes g) <= 4095 ->
  Forall (fun x => len x + 17 <= 4000014) ds1 ->
  4000014 < len big + 17 -> len big < 2 ^ 24 ->
  (overflow_checks = true -> len ds1 + len ds2 + 2 < 2 ^ 32 /\ len (decoy_list d) + 1 < 2 ^ 32) ->
  take 4 (ellswift_of sk) <> magic -> take 4 (ellswift_of sk') <> magic ->
  exists h h' w m,
    party_start magic r sk g = Ret (Ok (h, ellswift_of sk ++ garbage_bytes g)) /\
    party_key h (ellswift_of sk') (Some (ds1 ++ big :: ds2)) = Ret (Ok (h', w)) /\
    (let '(ski, skr) := in_order r sk sk' in
     keys_from (bip_prk magic (bip_secret (ellswift_of ski) (ellswift_of skr) ski PartyA)) m) /\
    (first_at (terminator m r) (garbage_bytes g ++ terminator m r) (len (garbage_bytes g)) ->
     forall fl gr s wr e more,
       len (garbage_bytes gr) <= 4095 -> healthy wr ->
       flatten fl s = (ellswift_of sk ++ garbage_bytes g ++ w ++ more, e) -> calm fl s ->
       exists o, io_handshake fl magic (opp r) sk' gr d s wr = Ret o /\
         ho_result o = Err (Internal PacketTooBig) /\
         ho_allocs o = map (fun x => len x + 17) ds1).
Proof.
  intros EA Hm Vs Vs' Hz Hg F1 B1 B2 Ho M M'.
  assert (exists m, let '(ski, skr) := in_order r sk sk' in
     keys_from (bip_prk magic (bip_secret (ellswift_of ski) (ellswift_of skr) ski PartyA)) m) as (m & KF).
  { destruct r; cbn [in_order].
    - destruct (key_ok magic Initiator (EcdhPoint sk (ellswift_of sk)) None (ellswift_of sk') None Hm (ellswift_len _) M')
        as (m & _ & _ & KF & _); [intros _; reflexivity|]. exists m. exact KF.
    - destruct (key_ok magic Initiator (EcdhPoint sk' (ellswift_of sk')) None (ellswift_of sk) None Hm (ellswift_len _) M)
        as (m & _ & _ & KF & _); [intros _; reflexivity|]. exists m. exact KF. }
  destruct (half magic r sk sk' g (Some (ds1 ++ big :: ds2)) m EA Hm Vs Vs' (fun Q => proj1 (Hz Q)) Hg) as
    (h & h' & ps & oc & St & K & S & Tr & _ & _); try assumption.
  { intros Q. specialize (Ho Q). cbn [decoy_list]. rewrite len_app, len_cons. lia. }
  exists h, h', (terminator m r ++ List.concat ps), m. split; [exact St|]. split; [exact K|]. split; [exact KF|].
  intros Fi fl gr s wr e more Hgr Hw Fl C.
  destruct (half magic (opp r) sk' sk gr d m EA Hm Vs' Vs (fun Q => proj2 (Hz Q)) Hgr) as
    (k & k' & ps' & oc' & St' & K' & _ & Tr' & In' & _); try assumption.
  { intros Q. now specialize (Ho Q). }
  { destruct r; exact KF. }
  assert (opp (opp r) = r) as OO by now destruct r. rewrite OO in Tr'.
  cbn [decoy_list] in S.
  assert (Sg : send_all (outbound (session_new m r)) (version_msgs (some_nonempty (garbage_bytes g)) (ds1 ++ big :: ds2)) = Ret (ps, oc)).
  { rewrite <- S. apply send_version_aad. destruct g as [[|x g]|]; reflexivity. }
  destruct (version_msgs_split (some_nonempty (garbage_bytes g)) ds1 big ds2) as (ms1 & a & ms2 & Ev & A & T).
  rewrite Ev in Sg. destruct (send_all_app _ _ _ _ _ Sg) as (ps1 & c1 & ps2 & S1 & S2 & ->).
  cbn [send_all] in S2. apply bind_ret_inv in S2. destruct S2 as ([pkt c2] & En & S2).
  apply bind_ret_inv in S2. destruct S2 as ([ps3 c3] & S3 & S2). injection S2 as <- <-.
  cbn [m_contents m_type m_aad] in En. destruct (packet_announces _ _ _ _ _ _ B2 En) as (c4 & D & Lp).
  assert (Forall (fun x => len (m_contents x) < 2 ^ 24) ms1) as Sz.
  { apply Forall_forall. intros x Hx. apply (in_map (fun m => (m_type m, m_contents m))) in Hx. rewrite T in Hx.
    apply in_map_iff in Hx. destruct Hx as (y & Q & Hy). injection Q as _ <-. rewrite Forall_forall in F1.
    specialize (F1 _ Hy). lia. }
  pose proof (recv_all_sent ms1 _ ps1 c1 [] Sz S1) as R. rewrite A, T, app_nil_r in R.
  assert (inbound (session_new m (opp r)) = outbound (session_new m r)) as Mi.
  { destruct (mirror m r) as [<- _]. reflexivity. }
  destruct (pure_handshake_oversize fl magic (opp r) sk' gr d e wr k (ellswift_of sk' ++ garbage_bytes gr) k' (terminator m (opp r) ++ List.concat ps') (ellswift_of sk) (garbage_bytes g)
    (List.concat ps1) (map (fun x => (Decoy, x)) ds1) c1 (take 3 pkt) (len big + 17) c4
    (drop 3 pkt ++ List.concat ps3 ++ more)) as (w' & Q); try eassumption.
  - apply ellswift_len.
  - rewrite Tr'. exact Fi.
  - rewrite map_length, In', Mi. exact R.
  - apply Forall_forall. intros x Hx. apply in_map_iff in Hx. destruct Hx as (y & <- & _). reflexivity.
  - apply Forall_forall. intros x Hx. apply in_map_iff in Hx. destruct Hx as (y & <- & Hy).
    unfold fits. change MAX_PACKET_SIZE_FOR_ALLOCATION with 4000014. rewrite Forall_forall in F1. now apply F1.
  - rewrite len_take. lia.
  - assert (flatten fl s = (ellswift_of sk ++ garbage_bytes g ++ remote_garbage_terminator (hs_state k') ++
              List.concat ps1 ++ take 3 pkt ++ drop 3 pkt ++ List.concat ps3 ++ more, e)) as Fl'.
    { rewrite Fl, Tr'. f_equal. do 2 f_equal. rewrite concat_app. cbn [List.concat]. rewrite <- !app_assoc. do 2 f_equal.
      now rewrite (app_assoc (take 3 pkt)), take_drop. }
    destruct (ret_view _ _ _ _ _ _ _ _ _ _ _ Hm Fl' C Q) as (o & H & V). exists o. split; [assumption|].
    unfold hs_view in V. injection V as V _ Va. rewrite map_map in Va. cbn [snd] in Va.
    split; [|assumption]. destruct (ho_result o) as [[[i' o''] sr']|y]; cbn [stream_view] in V; congruence.
Qed.

(** The sender of whatever decoys completes its own handshake. *)
Theorem sender_unaware magic r sk sk' g d gr dr :
  EcdhAgrees E -> len magic = 4 ->
  sk_valid sk = true -> sk_valid sk' = true ->
  (debug_assertions = true -> sk <> zeros 32 /\ sk' <> zeros 32) ->
  len (garbage_bytes g) <= 4095 -> len (garbage_bytes gr) <= 4095 ->
  Forall (fun x => len x + 17 <= 4000014) (decoy_list dr) ->
  (overflow_checks = true -> len (decoy_list d) + 1 < 2 ^ 32 /\ len (decoy_list dr) + 1 < 2 ^ 32) ->
  take 4 (ellswift_of sk) <> magic -> take 4 (ellswift_of sk') <> magic ->
  exists k k' w m,
    party_start magic (opp r) sk' gr = Ret (Ok (k, ellswift_of sk' ++ garbage_bytes gr)) /\
    party_key k (ellswift_of sk) dr = Ret (Ok (k', w)) /\
    (let '(ski, skr) := in_order r sk sk' in
     keys_from (bip_prk magic (bip_secret (ellswift_of ski) (ellswift_of skr) ski PartyA)) m) /\
    (first_at (terminator m (opp r)) (garbage_bytes gr ++ terminator m (opp r)) (len (garbage_bytes gr)) ->
     forall fl s wr e more, healthy wr ->
       flatten fl s = ((ellswift_of sk' ++ garbage_bytes gr) ++ w ++ more, e) -> calm fl s ->
       exists rd p, connect fl magic r sk g d s wr = Ret (Ok (rd, p))).
Proof.
  intros EA Hm Vs Vs' Hz Hg Hgr Fd Ho M M'.
  assert (exists m, let '(ski, skr) := in_order r sk sk' in
     keys_from (bip_prk magic (bip_secret (ellswift_of ski) (ellswift_of skr) ski PartyA)) m) as (m & KF).
  { destruct r; cbn [in_order].
    - destruct (key_ok magic Initiator (EcdhPoint sk (ellswift_of sk)) None (ellswift_of sk') None Hm (ellswift_len _) M')
        as (m & _ & _ & KF & _); [intros _; reflexivity|]. exists m. exact KF.
    - destruct (key_ok magic Initiator (EcdhPoint sk' (ellswift_of sk')) None (ellswift_of sk) None Hm (ellswift_len _) M)
        as (m & _ & _ & KF & _); [intros _; reflexivity|]. exists m. exact KF. }
  destruct (half magic r sk sk' g d m EA Hm Vs Vs' (fun Q => proj1 (Hz Q)) Hg (fun Q => proj1 (Ho Q)) M' KF) as
    (h & h' & ps & oc & St & K & S & Tr & In & _).
  destruct (half magic (opp r) sk' sk gr dr m EA Hm Vs' Vs (fun Q => proj2 (Hz Q)) Hgr (fun Q => proj2 (Ho Q)) M) as
    (k & k' & ps' & oc' & St' & K' & S' & Tr' & In' & _).
  { destruct r; exact KF. }
  exists k, k', (terminator m (opp r) ++ List.concat ps'), m. split; [exact St'|]. split; [exact K'|]. split; [exact KF|].
  intros Fi fl s wr e more Hw Fl C.
  assert (forall rr, len (terminator m rr) = 16) as TL.
  { intros rr. destruct (in_order r sk sk'). eapply terminator_len, KF. }
  assert (inbound (session_new m r) = outbound (session_new m (opp r))) as Mi.
  { destruct (mirror m (opp r)) as [Q _]. rewrite Q. now destruct r. }
  set (c := (ellswift_of sk' ++ garbage_bytes gr) ++ (terminator m (opp r) ++ List.concat ps') ++ more) in *.
  assert (take 64 c = ellswift_of sk' /\ drop 64 c = garbage_bytes gr ++ terminator m (opp r) ++ List.concat ps' ++ more) as [T D].
  { unfold c. rewrite <- !app_assoc, take_app_exact, drop_app_exact by (now rewrite ellswift_len). auto. }
  rewrite <- T in K.
  destruct (one_side fl magic r sk g d s wr e h _ c h' (terminator m r ++ List.concat ps) oc' more [] Hm Hw St) as (rd & p & Q & _); try eassumption; eauto.
  - unfold c. rewrite !len_app, ellswift_len. lia.
  - rewrite D, <- Tr. eapply completes_ok; try eassumption; rewrite ?Tr; try assumption; [apply TL|].
    rewrite In, Mi. exact S'.
Qed.

End Oversize.
