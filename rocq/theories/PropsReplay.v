(** * Property C94: a recording of a peer played to an endpoint *)
From Coq Require Import List NArith Bool Lia.
From Coq.Strings Require Import Byte.
From Verif Require Import Base BaseFacts Env Toy FsChacha Spec FsChachaProofs Cipher CipherFacts Histories CipherProofs Handshake SpecHandshake
  HsDriver HandshakeProofs HsRunProofs Transport Io SpecIo Sessions TransportProofs IoProofs IoRunProofs EndpointProofs IntegrityProofs
  SessionProofs PropsHandshake PropsIo PropsMiddle SpecReplay.
Import ListNotations.
Local Open Scope N_scope.

Section WithEnv.
Context {E : Env} {EL : EnvLaws E}.

(** What an endpoint whose handshake began and went past the key was given. *)
Lemma start_facts magic r sk g h fa : party_start magic r sk g = Ret (Ok (h, fa)) ->
  sk_valid sk = true /\ (debug_assertions = true -> sk <> zeros 32) /\ len (garbage_bytes g) <= 4095 /\
  h = Handshake magic r (SentKey (EcdhPoint sk (ellswift_of sk)) g) /\ fa = bip_first_flight sk (garbage_bytes g).
Proof.
  intros ST.
  assert (sk_valid sk = true /\ (debug_assertions = true -> sk <> zeros 32) /\ len (garbage_bytes g) <= 4095) as (Hv & Hz & Hg).
  { pose proof ST as Q. apply start_inv in Q. destruct Q as (h0 & HN & SK). unfold hs_new in HN.
    destruct (debug_assertions && bytes_eqb sk (zeros 32))%bool eqn:Z; [discriminate|].
    destruct (sk_valid sk); [|discriminate]. injection HN as <-. split; [reflexivity|]. split.
    - intros D. rewrite D in Z. now apply bytes_eqb_neq in Z.
    - destruct (N.le_gt_cases (len (garbage_bytes g)) 4095) as [L|L]; [assumption|].
      destruct (send_key_contract (Handshake magic r (Initialized (EcdhPoint sk (ellswift_of sk)))) g
        (zeros (send_key_len g)) (ellswift_len sk)) as (C1 & _).
      rewrite C1 in SK by assumption. discriminate. }
  pose proof (start_ok magic r sk g Hv Hz Hg) as ST'. rewrite ST in ST'. injection ST' as -> ->. auto 6.
Qed.

Lemma key_facts magic r sk g their d h' wa : len magic = 4 -> len their = 64 ->
  party_key (Handshake magic r (SentKey (EcdhPoint sk (ellswift_of sk)) g)) their d = Ret (Ok (h', wa)) ->
  take 4 their <> magic /\
  exists m ps oc, keys_of magic r sk their m /\ send_all (outbound (session_new m r)) (version_msgs g (decoy_list d)) = Ret (ps, oc) /\
    h' = Handshake magic r (SentVersion (CipherSession (session_id m) (inbound (session_new m r)) oc) (terminator m (opp r))) /\
    wa = terminator m r ++ List.concat ps.
Proof.
  intros Hm Ht PK. apply key_inv in PK. destruct PK as (h2 & RK & SV).
  set (h1 := Handshake magic r (SentKey (EcdhPoint sk (ellswift_of sk)) g)) in *.
  destruct (receive_key_v1 h1 their Ht Hm) as [K1 K2].
  destruct (bytes_eq_dec (take 4 their) (hs_magic h1)) as [V|V]; [apply K1 in V; congruence|]. split; [exact V|].
  destruct (K2 V) as (m & Q & KF). rewrite Q in RK. injection RK as <-. exists m.
  assert (keys_of magic r sk their m) as KF' by (unfold keys_of; clear - KF; exact KF).
  assert (TL : forall q, len (terminator m q) = 16).
  { intros q. clear - KF'. unfold keys_of in KF'. destruct (in_order r (ellswift_of sk) their) as [ei er]. exact (terminator_len _ _ q KF'). }
  destruct (N.lt_ge_cases (len (zeros (send_version_len d))) (36 + decoys_len (decoy_list d))) as [L|L].
  { rewrite send_version_small in SV by assumption. discriminate. }
  rewrite send_version_eq in SV; [|exact (TL r)|assumption].
  apply bind_ret_inv in SV. destruct SV as ([ps oc] & SA & SV).
  rewrite (drop_all (36 + decoys_len (decoy_list d)) (zeros (send_version_len d))), app_nil_r in SV by (rewrite len_zeros, send_version_len_eq; reflexivity).
  injection SV as <- <-. exists ps, oc.
  split; [exact KF'|]. split; [exact SA|]. split; [destruct r; reflexivity|].
  reflexivity.
Qed.

Lemma in_key_at m r : packet_cipher (inbound (session_new m r)) = fp_at (send_packet_key m (opp r)) 0.
Proof. destruct r; reflexivity. Qed.

(** Whatever completed a handshake began, behind the garbage, with the terminator and a packet tagged under the keys of the receiver. *)
Lemma completes_tagged m r h' received ic rest :
  remote_garbage_terminator (hs_state h') = terminator m (opp r) -> inbound (sv_cipher (hs_state h')) = inbound (session_new m r) ->
  completes h' received ic rest ->
  exists garbage lb ct more, len garbage <= 4095 /\ len lb = 3 /\
    received = garbage ++ terminator m (opp r) ++ lb ++
      (ct ++ mac (bip_packet_key (send_packet_key m (opp r)) 0) (bip_packet_nonce 0) garbage ct) ++ more.
Proof.
  intros Tm In (garbage & packets & ds & x & Rc & Lg & _ & R & _). rewrite Tm in Rc. rewrite In in R. cbn [recv_all] in R.
  apply bind_ret_inv in R. destruct R as ([[[v|] c1] w1] & R1 & R); [|discriminate].
  apply recv_one_opens in R1. destruct R1 as (lb & body & cl & Pk & Ll & _ & Pc & Op). rewrite in_key_at in Pc.
  destruct Op as (mb & tg & pt & pc & Bd & _ & D & _). apply fp_decrypt_some in D. destruct D as (Ht & _).
  rewrite Pc, fp_nonce_at in Ht. cbn [fp_key fp_at] in Ht. exists garbage, lb, mb, (w1 ++ rest). split; [exact Lg|]. split; [exact Ll|].
  assert (aad_or_default (some_nonempty garbage) = garbage) as Ga by (destruct garbage; reflexivity).
  rewrite Ga in Ht. change (N.to_nat (0 / 224)) with 0%nat in Ht. rewrite Rc, Pk, Bd, <- Ht, <- !app_assoc. reflexivity.
Qed.

End WithEnv.

(** ** C94 *)
(** An endpoint with whatever key that completes on whatever it is given found, in there, its own terminator and a packet with a tag
    under its own key: a recording of other sessions has both by coincidence only. *)
Theorem C94_by_coincidence : forall (E : Env) (EL : EnvLaws E) fl magic r sk g d s w o i oc sr,
  len magic = 4 -> io_handshake fl magic r sk g d s w = Ret o -> ho_result o = Ok (i, oc, sr) ->
  exists m garbage lb ct more, keys_of magic r sk (take 64 (content s)) m /\ len garbage <= 4095 /\ len lb = 3 /\
    drop 64 (content s) = garbage ++ terminator m (opp r) ++ lb ++
      (ct ++ mac (bip_packet_key (send_packet_key m (opp r)) 0) (bip_packet_nonce 0) garbage ct) ++ more.
Proof.
  intros E EL fl magic r sk g d s w o i oc sr Hm H R.
  destruct (handshake_content fl magic r sk g d s w o i oc sr Hm H R) as (h & fa & h' & wa & their & received & ST & Lt & PK & Ct & Cm & _).
  destruct (start_facts _ _ _ _ _ _ ST) as (_ & _ & _ & -> & _). destruct (key_facts _ _ _ _ _ _ _ _ Hm Lt PK) as (_ & m & ps & oc' & K & _ & -> & _).
  pose proof (fun A B => completes_tagged m r _ _ _ _ A B Cm) as G. destruct (G eq_refl eq_refl) as (garbage & lb & ct & more & G1). exists m, garbage, lb, ct, more.
  rewrite Ct, take_app_exact, drop_app_exact by (now symmetry). split; [exact K|exact G1].
Qed.
Print Assumptions C94_by_coincidence.

(** Without the terminator in the recording the endpoint reads up to 4111 bytes of it, or waits. *)
Theorem C94_fresh_key : forall (E : Env) (EL : EnvLaws E) fl magic r sk g d w their m back s e,
  len magic = 4 -> sk_valid sk = true -> (debug_assertions = true -> sk <> zeros 32) ->
  len (garbage_bytes g) <= 4095 -> (overflow_checks = true -> len (decoy_list d) + 1 < 2 ^ 32) -> healthy w ->
  len their = 64 -> take 4 their <> magic -> keys_of magic r sk their m ->
  flatten fl s = (their ++ back, e) -> calm fl s ->
  (forall i, i <= 4095 -> ~ occurs_at (terminator m (opp r)) back i) ->
  exists o, io_handshake fl magic r sk g d s w = Ret o /\
    ho_result o = Err (if 4111 <=? len back then Internal NoGarbageTerminator else end_error e).
Proof.
  intros E EL fl magic r sk g d w their m back s e Hm Hv Hz Hg Ho Hw Lt V1 K F C No.
  destruct (key_ok magic r (EcdhPoint sk (ellswift_of sk)) g their d Hm Lt V1 Ho) as (m' & ps & oc & KF & SA & PK).
  cbn [elligator_swift secret_key] in KF.
  assert (m' = m) as ->.
  { unfold keys_of in K. destruct (in_order r (ellswift_of sk) their) as [ei er]. exact (keys_from_unique _ _ _ KF K). }
  assert (TL : forall q, len (terminator m q) = 16).
  { intros q. clear - K. unfold keys_of in K. destruct (in_order r (ellswift_of sk) their) as [ei er]. exact (terminator_len _ _ q K). }
  pose proof (start_ok magic r sk g Hv Hz Hg) as ST. apply start_inv in ST. destruct ST as (h0 & HN & SK).
  apply key_inv in PK. destruct PK as (h2 & RK & SV).
  pose proof (handshake_stream fl magic r sk g d s w _ _ Hm F C) as P.
  unfold pure_handshake in P. rewrite HN in P. cbn [bind] in P. unfold pure_hs in P. rewrite SK in P. cbn [bind] in P.
  destruct (write_flush_healthy fl w (bip_first_flight sk (garbage_bytes g)) Hw) as (w1 & W1 & H1 & O1). rewrite W1 in P.
  replace (len (their ++ back) <? 64) with false in P by (symmetry; apply N.ltb_ge; rewrite len_app; lia).
  rewrite take_app_exact in P by (now symmetry). rewrite RK in P. cbn [bind] in P. rewrite SV in P. cbn [bind] in P.
  destruct (write_flush_healthy fl w1 (terminator m r ++ List.concat ps) H1) as (w2 & W2 & H2 & O2). rewrite W2 in P.
  rewrite drop_app_exact in P by (now symmetry). cbn zeta in P.
  set (h3 := Handshake magic r (SentVersion _ _)) in P.
  assert (run_map (hs_view fl) (io_handshake fl magic r sk g d s w) =
    Ret (Err (if 4111 <=? len back then Internal NoGarbageTerminator else end_error e), w2, [])) as P'.
  { rewrite P. destruct (N.ltb_spec (len back) 16) as [L|L].
    { rewrite (proj2 (N.leb_gt _ _)) by lia. reflexivity. }
    destruct (receive_garbage_cases h3 back (TL (opp r))) as [(i & Hi & [O _] & Q)|[(_ & L' & Q)|(_ & L' & Q)]].
    - exfalso. now apply (No i Hi).
    - rewrite Q. cbn [bind]. rewrite (proj2 (N.leb_le _ _) L'). reflexivity.
    - rewrite Q. cbn [bind]. rewrite (proj2 (N.leb_gt _ _) L'). reflexivity. }
  clear P. unfold run_map in P'. apply bind_ret_inv in P'. destruct P' as (o & R & Q). exists o. split; [exact R|].
  unfold hs_view in Q. injection Q as Q1 _ _. destruct (ho_result o) as [[[i oc'] sr]|x]; [discriminate|]. cbn in Q1. now injection Q1 as ->.
Qed.
Print Assumptions C94_fresh_key.

(** With the same key the recording completes, whatever garbage and decoys the endpoint sends now: the same cipher for what follows, the
    same bytes left for it.  Everything it sends is encrypted under the keys of the recorded session, from their beginning. *)
Theorem C94_same_key : forall (E : Env) (EL : EnvLaws E) fl magic r sk g d s w o i oc sr c e g' d' s' w',
  len magic = 4 -> flatten fl s = (c, e) -> calm fl s ->
  io_handshake fl magic r sk g d s w = Ret o -> ho_result o = Ok (i, oc, sr) ->
  len (garbage_bytes g') <= 4095 -> (overflow_checks = true -> len (decoy_list d') + 1 < 2 ^ 32) -> healthy w' ->
  flatten fl s' = (c, e) -> calm fl s' ->
  exists o' oc' sr' m ps ps',
    io_handshake fl magic r sk g' d' s' w' = Ret o' /\ ho_result o' = Ok (i, oc', sr') /\ session_stream fl sr' = session_stream fl sr /\
    keys_of magic r sk (take 64 c) m /\
    send_all (outbound (session_new m r)) (version_msgs g (decoy_list d)) = Ret (ps, oc) /\
    send_all (outbound (session_new m r)) (version_msgs g' (decoy_list d')) = Ret (ps', oc') /\
    written (ho_writer o) = written w ++ ellswift_of sk ++ garbage_bytes g ++ terminator m r ++ List.concat ps /\
    written (ho_writer o') = written w' ++ ellswift_of sk ++ garbage_bytes g' ++ terminator m r ++ List.concat ps'.
Proof.
  intros E EL fl magic r sk g d s w o i oc sr c e g' d' s' w' Hm F C H R Hg' Ho' Hw' F' C'.
  pose proof (handshake_stream fl magic r sk g d s w _ _ Hm F C) as P. rewrite H in P. cbn [run_map bind] in P. unfold hs_view in P. rewrite R in P. cbn [stream_view] in P.
  destruct (session_stream fl sr) as [rest e1] eqn:St. symmetry in P. apply pure_handshake_ok in P; [|exact Hm].
  destruct P as (-> & h & fa & h' & wa & ST & L64 & PK & Cm & Eo & Wr).
  destruct (start_facts _ _ _ _ _ _ ST) as (Hv & Hz & Hg & -> & ->).
  assert (len (take 64 c) = 64) as Lt by (rewrite len_take; lia).
  destruct (key_facts _ _ _ _ _ _ _ _ Hm Lt PK) as (V1 & m & ps & oc0 & K & SA & -> & ->). cbn [hs_state sv_cipher outbound] in Eo. subst oc0.
  destruct (key_ok magic r (EcdhPoint sk (ellswift_of sk)) g' (take 64 c) d' Hm Lt V1 Ho') as (m' & ps' & oc' & KF & SA' & PK').
  cbn [elligator_swift secret_key] in KF.
  assert (m' = m) as ->.
  { unfold keys_of in K. destruct (in_order r (ellswift_of sk) (take 64 c)) as [ei er]. exact (keys_from_unique _ _ _ KF K). }
  pose proof (start_ok magic r sk g' Hv Hz Hg') as ST'.
  match type of PK' with _ = Ret (Ok (?h3, _)) => assert (completes h3 (drop 64 c) i rest) as Cm' by exact Cm end.
  destruct (pure_handshake_complete fl magic r sk g' d' c e w' i rest _ _ _ _ Hm Hw' ST' L64 PK' Cm') as (w2 & a & _ & P').
  pose proof (handshake_stream fl magic r sk g' d' s' w' _ _ Hm F' C') as P2. rewrite P' in P2. unfold run_map in P2.
  apply bind_ret_inv in P2. destruct P2 as (o' & R' & Q). unfold hs_view in Q. cbn [hs_state sv_cipher outbound] in Q. injection Q as Q1 Q2 Q3.
  destruct (ho_result o') as [[[i' oc''] sr']|x] eqn:Ro; [|discriminate]. cbn [stream_view] in Q1. injection Q1 as -> -> Q1.
  apply pure_handshake_ok in P'; [|exact Hm]. destruct P' as (_ & h1 & fa' & h1' & wa' & ST1 & _ & PK1 & _ & _ & Wr').
  rewrite ST' in ST1. injection ST1 as <- <-. rewrite PK' in PK1. injection PK1 as <- <-.
  exists o', oc', sr', m, ps, ps'. split; [exact R'|]. split; [exact Ro|]. split; [exact Q1|]. split; [exact K|]. split; [exact SA|]. split; [exact SA'|].
  rewrite Q2, Wr, Wr'. unfold bip_first_flight. rewrite <- !app_assoc. split; reflexivity.
Qed.
Print Assumptions C94_same_key.

(** So nothing but the key is fresh. *)
Theorem C94_replay_refused_refuted :
  ~ forall (E : Env) (EL : EnvLaws E) magic r sk g g' c o o',
      len magic = 4 -> g' <> g ->
      io_handshake Sync magic r sk g None [Chunk c] fresh = Ret o -> (exists x, ho_result o = Ok x) ->
      io_handshake Sync magic r sk g' None [Chunk c] fresh = Ret o' -> exists e, ho_result o' = Err e.
Proof.
  intros H. pose (c := snd sample_wires). pose (g := Some (repeat x2a 300)).
  destruct (@io_handshake (toy true) Sync mainnet Initiator ska g None [Chunk c] fresh) as [o| |] eqn:R; try (vm_compute in R; discriminate R).
  destruct (@io_handshake (toy true) Sync mainnet Initiator ska None None [Chunk c] fresh) as [o'| |] eqn:R'; try (vm_compute in R'; discriminate R').
  destruct (H (toy true) (toy_laws true) mainnet Initiator ska g None c o o' eq_refl ltac:(discriminate) R) as (e & Q).
  - vm_compute in R. injection R as <-. eexists. reflexivity.
  - exact R'.
  - vm_compute in R'. injection R' as <-. discriminate Q.
Qed.
Print Assumptions C94_replay_refused_refuted.

(** The recording played to another key, and to the same key with other garbage: there the message of 40 bytes is read again. *)
Example C94_example :
  match @wires (toy_keyed true) (Some (repeat x2a 300)) (Some (repeat x2b 40)) None None [] [(Genuine, counting 5 40)] with
  | Some (_, c) =>
    match @io_handshake (toy_keyed true) Sync mainnet Initiator (counting 9 32) None None [Chunk c] fresh,
          @io_handshake (toy_keyed true) Sync mainnet Initiator ska (Some [x01]) (Some [[x05]]) [Chunk c] fresh with
    | Ret o1, Ret o2 => ho_result o1 = Err eof /\
      match ho_result o2 with
      | Ok (i, _, sr) => match @sync_read (toy_keyed true) (SyncReader i sr) with Ret (Ok (Decrypted (_ :: p)), _, _) => p = counting 5 40 | _ => False end
      | Err _ => False
      end
    | _, _ => False
    end
  | None => False
  end.
Proof. vm_compute. repeat split. Qed.
Print Assumptions C94_example.
