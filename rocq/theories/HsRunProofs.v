(** * HsRunProofs: whole handshakes (C20, C24-C26) *)
From Coq Require Import List NArith Bool Lia ZArith.
From Coq.Strings Require Import Byte.
From Coq Require Import ZifyBool ZifyNat ZifyN.
From Verif Require Import Base BaseFacts Env FsChacha Spec FsChachaProofs Cipher CipherFacts
  Histories CipherProofs Handshake SpecHandshake HsDriver HandshakeProofs.
Import ListNotations.
Local Open Scope N_scope.

Section WithEnv.
Context {E : Env} {EL : EnvLaws E}.

(** ** One packet of the version phase (C24) *)

Theorem receive_version_accepts h ct :
  let c := inbound (rg_cipher (hs_state h)) in
  let key := fp_key (packet_cipher c) in let nonce := fp_nonce (packet_cipher c) in
  let aad := garbage_bytes (remote_garbage (hs_state h)) in
  (overflow_checks = true -> fp_ctr (packet_cipher c) + 1 < 2 ^ 64) ->
  (exists v b, receive_version h ct = Ret (Ok v, b)) <->
  (exists hd contents, ct = rfc_aead key nonce aad (hd :: contents)).
Proof.
  intros c key nonce aad Hr.
  assert (aad = aad_or_default (remote_garbage (hs_state h))) as Ha by
    (unfold aad; now destruct (remote_garbage (hs_state h))).
  unfold receive_version. fold c. split.
  - intros (v & b & H). apply bind_ret_inv in H. destruct H as ([[x ic] b'] & D & H).
    destruct x as [[t pt]|e]; [|discriminate].
    apply accepted_is_encryption in D. destruct D as (D & (hd & l & -> & _) & _).
    exists hd, l. fold key nonce in D. now rewrite Ha.
  - intros (hd & l & ->). rewrite Ha.
    set (ct := rfc_aead _ _ _ _).
    assert (17 <= len ct) as L.
    { unfold ct, rfc_aead. rewrite len_app, len_xor_with, mac_len, len_cons. lia. }
    destruct (accept_iff c ct (remote_garbage (hs_state h)) Hr L) as [_ K].
    destruct K as (t & pt & c' & b & K).
    { unfold ct, rfc_aead. set (q := xor_with _ _). rewrite len_app, mac_len.
      replace (len q + 16 - 16) with (len q) by lia.
      rewrite drop_app_exact, take_app_exact by reflexivity. reflexivity. }
    rewrite K. cbn [bind]. destruct t; eauto.
Qed.

(** What an accepted packet leads to. *)
Theorem receive_version_outcome h ct v b :
  let c := inbound (rg_cipher (hs_state h)) in
  let key := fp_key (packet_cipher c) in let nonce := fp_nonce (packet_cipher c) in
  let aad := garbage_bytes (remote_garbage (hs_state h)) in
  receive_version h ct = Ret (Ok v, b) ->
  exists hd contents ic,
    ct = rfc_aead key nonce aad (hd :: contents) /\
    fp_rekey (packet_cipher c) aad = Ret (packet_cipher ic) /\
    length_cipher ic = length_cipher c /\
    let s := CipherSession (id (rg_cipher (hs_state h))) ic (outbound (rg_cipher (hs_state h))) in
    v = if byte_eqb hd x80
        then DecoyPacket (Handshake (hs_magic h) (hs_role h) (ReceivedGarbage s None))
        else Complete s.
Proof.
  intros c key nonce aad H.
  assert (aad = aad_or_default (remote_garbage (hs_state h))) as Ha by
    (unfold aad; now destruct (remote_garbage (hs_state h))).
  unfold receive_version in H. fold c in H.
  apply bind_ret_inv in H. destruct H as ([[x ic] b'] & D & H).
  destruct x as [[t pt]|e]; [|discriminate].
  apply accepted_is_encryption in D. destruct D as (D & (hd & l & -> & Ht) & _ & _ & Hl & Hp).
  exists hd, l, ic. rewrite Ha. repeat split; auto.
  unfold from_byte, DECOY_BYTE in Ht. destruct (byte_eqb hd x80); subst t; injection H as <- _; reflexivity.
Qed.

Theorem receive_version_error h ct e b :
  receive_version h ct = Ret (Err e, b) ->
  (e = CiphertextTooSmall /\ len ct < 17) \/ (e = Decryption /\ 17 <= len ct).
Proof.
  unfold receive_version. intros H. apply bind_ret_inv in H. destruct H as ([[x ic] b'] & D & H).
  destruct x as [[[|] pt]|e']; [discriminate|discriminate|]. injection H as -> _.
  destruct (N.lt_ge_cases (len ct) 17) as [L|L].
  - rewrite decrypt_in_place_small in D by assumption. injection D as -> _ _. auto.
  - right. split; [|assumption]. destruct (split_tag ct L) as (m & tg & -> & L1 & L2 & L3).
    rewrite decrypt_in_place_closed in D by assumption.
    apply bind_ret_inv in D. destruct D as ([[pt|] pc] & _ & D); [discriminate|]. now injection D.
Qed.

(** ** The version phase as a whole *)

Lemma versions_inv fuel h wire c rest :
  party_versions (S fuel) h wire = Ret (Ok c, rest) ->
  exists p ic rest', recv_one (inbound (rg_cipher (hs_state h))) (remote_garbage (hs_state h)) wire =
    Ret (Some p, ic, rest').
Proof.
  intros H. unfold recv_one. cbn [party_versions] in H.
  destruct (len wire <? 3) eqn:L3; [discriminate|].
  unfold hs_decrypt_packet_len in H.
  destruct (decrypt_packet_len _ _) as [[n c1]| |] eqn:D; cbn [bind] in *; try discriminate.
  assert (17 <= n) as Hn.
  { apply packet_len_range in D; [lia|]. rewrite len_take. lia. }
  destruct (len (drop 3 wire) <? n) eqn:Ln; [discriminate|].
  unfold receive_version in H. cbn [hs_state remote_garbage rg_cipher inbound] in H.
  set (ct := take n (drop 3 wire)) in *.
  assert (len ct = n) as Hct by (unfold ct; rewrite len_take; lia).
  pose proof (decrypt_agree c1 ct (zeros (n - 16)) (remote_garbage (hs_state h))) as A.
  specialize (A ltac:(lia) ltac:(rewrite len_zeros; lia)).
  destruct (decrypt_in_place c1 ct _) as [[[x c2] b]| |] eqn:P; cbn [bind] in *; try discriminate.
  destruct x as [[t pt]|e]; [|discriminate].
  destruct A as [A _]. rewrite A. cbn [bind]. eauto.
Qed.

Lemma recv_one_len c a wire p c' rest :
  recv_one c a wire = Ret (Some p, c', rest) -> len rest + 20 <= len wire.
Proof.
  unfold recv_one. destruct (len wire <? 3) eqn:L3; [discriminate|].
  destruct (decrypt_packet_len _ _) as [[n c1]| |] eqn:D; cbn [bind]; try discriminate.
  assert (17 <= n) as Hn.
  { apply packet_len_range in D; [lia|]. rewrite len_take. lia. }
  destruct (len (drop 3 wire) <? n) eqn:Ln; [discriminate|].
  destruct (decrypt _ _ _ _) as [[[[t|e] c2] b]| |]; cbn [bind]; try discriminate.
  intros H; injection H as <- <- <-. autorewrite with len in *. lia.
Qed.

Theorem versions_iff : forall fuel h wire s rest,
  (length wire < fuel)%nat ->
  party_versions fuel h wire = Ret (Ok s, rest) <->
  exists ds x ic,
    Forall is_decoy_packet ds /\
    recv_all (inbound (rg_cipher (hs_state h)))
      (remote_garbage (hs_state h) :: repeat None (length ds)) wire =
      Ret (Some (ds ++ [(Genuine, x)]), ic, rest) /\
    s = CipherSession (id (rg_cipher (hs_state h))) ic (outbound (rg_cipher (hs_state h))).
Proof.
  induction fuel as [|fuel IH]; intros h wire s rest Hf; [lia|]. split.
  - intros H. destruct (versions_inv _ _ _ _ _ H) as ([t x] & ic & rest' & R).
    rewrite (versions_step _ _ _ _ _ _ R) in H. cbn [fst] in H.
    pose proof (recv_one_len _ _ _ _ _ _ R) as RL. unfold len in RL.
    destruct t.
    + injection H as <- <-. exists [], x, ic. split; [constructor|]. split; [|reflexivity].
      cbn [recv_all length repeat app]. rewrite R. reflexivity.
    + apply IH in H; [|lia]. destruct H as (ds & y & ic' & Hd & Ha & ->).
      exists ((Decoy, x) :: ds), y, ic'. split; [now constructor|]. split; [|reflexivity].
      cbn [length repeat app]. cbn [recv_all]. rewrite R. cbn [bind].
      cbn [with_inbound hs_state rg_cipher inbound remote_garbage] in Ha.
      cbn [recv_all] in Ha. rewrite Ha. reflexivity.
  - intros (ds & x & ic & Hd & Ha & ->). cbn [recv_all] in Ha.
    apply bind_ret_inv in Ha. destruct Ha as ([[[[t y]|] ic1] rest1] & R & Ha); [|discriminate].
    rewrite (versions_step _ _ _ _ _ _ R). cbn [fst].
    pose proof (recv_one_len _ _ _ _ _ _ R) as RL. unfold len in RL.
    destruct ds as [|[t' d] ds]; cbn [length repeat recv_all app] in Ha.
    + cbn [bind] in Ha. injection Ha as -> -> <- <-. reflexivity.
    + inversion Hd as [|? ? H1 H2]; subst. unfold is_decoy_packet in H1. cbn [fst] in H1. subst t'.
      apply bind_ret_inv in Ha. destruct Ha as ([[o ic2] rest2] & Ha & Hb).
      destruct o as [l|]; [|discriminate]. injection Hb as -> <- K3 K4 K5. subst.
      apply IH; [lia|]. exists ds, x, ic. split; [assumption|].
      split; [|reflexivity]. exact Ha.
Qed.

(** The garbage of a completed handshake was authenticated. *)
Theorem garbage_authenticated h wire s rest :
  let c := inbound (sv_cipher (hs_state h)) in
  len (remote_garbage_terminator (hs_state h)) = 16 ->
  party_finish h wire = Ret (Ok s, rest) ->
  exists i n ic hd contents,
    i <= 4095 /\ first_at (remote_garbage_terminator (hs_state h)) wire i /\
    decrypt_packet_len c (take 3 (drop (i + 16) wire)) = Ret (n, ic) /\
    take n (drop (i + 19) wire) =
    rfc_aead (fp_key (packet_cipher c)) (fp_nonce (packet_cipher c)) (take i wire) (hd :: contents).
Proof.
  intros c Ht H. unfold party_finish in H.
  destruct (receive_garbage_cases h wire Ht) as [(i & Hi & F & K)|[(_ & _ & K)|(_ & _ & K)]];
    rewrite K in H; cbn [bind] in H; try discriminate.
  cbn [found] in H. destruct (versions_inv _ _ _ _ _ H) as (p & ic & rest' & R).
  cbn [hs_state rg_cipher remote_garbage] in R. fold c in R. unfold recv_one in R.
  destruct (len (drop (i + 16) wire) <? 3) eqn:L3; [discriminate|].
  destruct (decrypt_packet_len _ _) as [[n c1]| |] eqn:D; cbn [bind] in R; try discriminate.
  assert (17 <= n /\ packet_cipher c1 = packet_cipher c) as [Hn Hp].
  { apply packet_len_range in D; [intuition lia|]. rewrite len_take. lia. }
  destruct (len (drop 3 _) <? n) eqn:Ln; [discriminate|].
  set (ct := take n (drop 3 (drop (i + 16) wire))) in *.
  assert (len ct = n) as Hct by (unfold ct; rewrite len_take; lia).
  pose proof (decrypt_agree c1 ct (zeros (n - 16)) (some_nonempty (take i wire))) as A.
  specialize (A ltac:(lia) ltac:(rewrite len_zeros; lia)).
  destruct (decrypt_in_place c1 ct _) as [[[x c2] b]| |] eqn:P; [| rewrite A in R; discriminate | contradiction].
  destruct x as [[t pt]|e].
  2:{ destruct A as [(b' & A) _]. rewrite A in R. discriminate. }
  apply accepted_is_encryption in P. destruct P as (P & (hd & l & -> & _) & _).
  exists i, n, c1, hd, l. repeat split; try assumption; try apply F.
  rewrite Hp in P. replace (aad_or_default (some_nonempty (take i wire))) with (take i wire) in P
    by now destruct (take i wire).
  rewrite P. unfold ct. rewrite drop_drop. do 2 f_equal. lia.
Qed.

(** ** No panic on remote input (C26) *)

Lemma versions_ret : forall fuel h wire k,
  (length wire < fuel)%nat -> counted k (inbound (rg_cipher (hs_state h))) ->
  (overflow_checks = true -> 10 * k + len wire + 20 < 10 * 2 ^ 32) ->
  exists r rest, party_versions fuel h wire = Ret (r, rest).
Proof.
  change (2 ^ 32) with 4294967296.
  induction fuel as [|fuel IH]; intros h wire k Hf Hc Hk; [lia|]. cbn [party_versions].
  destruct (len wire <? 3) eqn:L3; [eauto|]. unfold hs_decrypt_packet_len.
  set (c := rg_cipher (hs_state h)) in *.
  destruct (N.lt_ge_cases (len wire) 20) as [L|L].
  - destruct (decrypt_len_ret k (inbound c) (take 3 wire)) as (n & c1 & D & _);
      [rewrite len_take; lia|assumption| |].
    { intros Ho. specialize (Hk Ho). change (2 ^ 32) with 4294967296. lia. }
    rewrite D. cbn [bind]. apply packet_len_range in D; [|rewrite len_take; lia].
    destruct (len (drop 3 wire) <? n) eqn:Ln; [eauto|].
    rewrite len_drop in Ln. lia.
  - destruct (decrypt_len_ret k (inbound c) (take 3 wire)) as (n & c1 & D & Hc1);
      [rewrite len_take; lia|assumption| |].
    { intros Ho. specialize (Hk Ho). change (2 ^ 32) with 4294967296. lia. }
    rewrite D. cbn [bind]. apply packet_len_range in D; [|rewrite len_take; lia].
    destruct (len (drop 3 wire) <? n) eqn:Ln; [eauto|]. rewrite len_drop in Ln.
    unfold receive_version. cbn [hs_state rg_cipher inbound remote_garbage].
    destruct (decrypt_in_place_ret (k + 1) c1 (take n (drop 3 wire)) (remote_garbage (hs_state h)) Hc1)
      as (x & c2 & b & P & Hc2).
    { intros Ho. specialize (Hk Ho). change (2 ^ 32) with 4294967296. lia. }
    rewrite P. cbn [bind].
    destruct x as [[[|] pt]|e]; cbn [bind]; [eauto| |eauto].
    apply (IH _ _ (k + 2)).
    + unfold drop. rewrite !skipn_length. unfold len in *. lia.
    + cbn [hs_state rg_cipher inbound]. replace (k + 2) with (k + 1 + 1) by lia. assumption.
    + intros Ho. specialize (Hk Ho). rewrite !len_drop. lia.
Qed.

Theorem finish_no_panic h wire :
  len (remote_garbage_terminator (hs_state h)) = 16 ->
  counted 0 (inbound (sv_cipher (hs_state h))) ->
  (overflow_checks = true -> len wire < 2 ^ 35) ->
  exists r rest, party_finish h wire = Ret (r, rest).
Proof.
  intros Ht Hc Hk. unfold party_finish.
  destruct (receive_garbage_cases h wire Ht) as [(i & Hi & F & ->)|[(_ & _ & ->)|(_ & _ & ->)]];
    cbn [bind found]; eauto.
  apply (versions_ret _ _ _ 0).
  - unfold drop. rewrite skipn_length. lia.
  - exact Hc.
  - intros Ho. specialize (Hk Ho). rewrite len_drop.
    change (2 ^ 35) with 34359738368 in Hk. change (2 ^ 32) with 4294967296. lia.
Qed.

(** ** Honest parties *)

Lemma start_ok magic r sk g :
  sk_valid sk = true -> (debug_assertions = true -> sk <> zeros 32) ->
  len (garbage_bytes g) <= 4095 ->
  party_start magic r sk g =
  Ret (Ok (Handshake magic r (SentKey (EcdhPoint sk (ellswift_of sk)) g),
           bip_first_flight sk (garbage_bytes g))).
Proof.
  intros Hv Hz Hg. unfold party_start, hs_new.
  replace (debug_assertions && bytes_eqb sk (zeros 32))%bool with false.
  2:{ destruct debug_assertions; [|reflexivity]. symmetry. apply bytes_eqb_neq. auto. }
  rewrite Hv. cbn [bind].
  set (h := Handshake magic r (Initialized (EcdhPoint sk (ellswift_of sk)))).
  destruct (send_key_contract h g (zeros (send_key_len g)) (ellswift_len sk)) as (_ & _ & C & L).
  rewrite C by (rewrite ?L, ?len_zeros; lia). cbn [bind].
  rewrite drop_all by (rewrite len_zeros, L; lia). rewrite app_nil_r. reflexivity.
Qed.

Lemma terminator_len prk m r : keys_from prk m -> len (terminator m r) = 16.
Proof. intros (_&_&_&_&_&_&_&_&_&_&_&L1&L2). destruct r; assumption. Qed.

Lemma key_ok magic r pt g their d :
  let h := Handshake magic r (SentKey pt g) in
  let ds := decoy_list d in
  len magic = 4 -> len their = 64 -> take 4 their <> magic ->
  (overflow_checks = true -> len ds + 1 < 2 ^ 32) ->
  exists m ps oc,
    (let '(ei, er) := in_order r (elligator_swift pt) their in
     keys_from (bip_prk magic (bip_secret ei er (secret_key pt) (party_of r))) m) /\
    send_all (outbound (session_new m r)) (version_msgs g ds) = Ret (ps, oc) /\
    party_key h their d =
    Ret (Ok (Handshake magic r
               (SentVersion (CipherSession (session_id m) (inbound (session_new m r)) oc)
                  (terminator m (opp r))), terminator m r ++ List.concat ps)).
Proof.
  cbn zeta. intros Hm Ht Hv Ho. unfold party_key.
  destruct (receive_key_v1 (Handshake magic r (SentKey pt g)) their Ht Hm) as [_ K].
  destruct (K Hv) as (m & -> & KF). cbn [bind hs_magic hs_role hs_state sk_local_garbage sk_point] in *.
  assert (forall rr, len (terminator m rr) = 16) as TL.
  { intros rr. destruct (in_order r (elligator_swift pt) their). eapply terminator_len, KF. }
  destruct (session_counted m r) as [_ SC].
  destruct (send_all_ret (version_msgs g (decoy_list d)) 0 _ SC) as (ps & oc & S & _).
  { rewrite version_msgs_len. rewrite N.add_0_l. exact Ho. }
  exists m, ps, oc. split; [assumption|]. split; [assumption|].
  rewrite send_version_eq by
    (cbn [hs_state session_keys hs_role]; rewrite ?TL, ?send_version_len_eq, ?len_zeros; lia || reflexivity).
  cbn [hs_state session_keys hs_role rk_local_garbage hs_magic]. rewrite S. cbn [bind].
  rewrite drop_all by (rewrite len_zeros, send_version_len_eq; lia). rewrite app_nil_r.
  destruct r; reflexivity.
Qed.

Lemma encrypt_aad_eq c pt t a1 a2 :
  aad_or_default a1 = aad_or_default a2 -> encrypt_to_vec c pt t a1 = encrypt_to_vec c pt t a2.
Proof. intros H. rewrite !encrypt_to_vec_closed, H. reflexivity. Qed.

Lemma send_version_aad c a1 a2 ds :
  aad_or_default a1 = aad_or_default a2 ->
  send_all c (version_msgs a1 ds) = send_all c (version_msgs a2 ds).
Proof.
  intros H. destruct ds; cbn [version_msgs send_all m_contents m_type m_aad];
    now rewrite (encrypt_aad_eq _ _ _ _ _ H).
Qed.

Lemma version_msgs_aads g ds : map m_aad (version_msgs g ds) = g :: repeat None (length ds).
Proof.
  revert g; induction ds as [|d ds IH]; intros g; [reflexivity|].
  cbn [version_msgs map m_aad length repeat]. now rewrite IH.
Qed.

Lemma version_msgs_got g ds :
  map (fun m => (m_type m, m_contents m)) (version_msgs g ds) =
  map (fun d => (Decoy, d)) ds ++ [(Genuine, [])].
Proof.
  revert g; induction ds as [|d ds IH]; intros g; [reflexivity|].
  cbn [version_msgs map m_type m_contents app]. now rewrite IH.
Qed.

Lemma finish_ok h g ds ps oc' rest :
  let t := remote_garbage_terminator (hs_state h) in
  let c := sv_cipher (hs_state h) in
  len t = 16 -> len (garbage_bytes g) <= 4095 ->
  Forall (fun d => len d < 2 ^ 24) ds ->
  first_at t (garbage_bytes g ++ t) (len (garbage_bytes g)) ->
  send_all (inbound c) (version_msgs g ds) = Ret (ps, oc') ->
  party_finish h (garbage_bytes g ++ t ++ List.concat ps ++ rest) =
  Ret (Ok (CipherSession (id c) oc' (outbound c)), rest).
Proof.
  cbn zeta. intros Ht Hg Hd F S. unfold party_finish.
  set (t := remote_garbage_terminator (hs_state h)) in *. set (gb := garbage_bytes g) in *.
  assert (F' := first_at_app _ _ (List.concat ps ++ rest) _ F). rewrite <- app_assoc in F'.
  rewrite (receive_garbage_found h _ _ Ht Hg F'). cbn [bind found].
  assert (Hw : drop (len gb + 16) (gb ++ t ++ List.concat ps ++ rest) = List.concat ps ++ rest).
  { rewrite app_assoc. apply drop_app_exact. rewrite len_app, Ht. lia. }
  rewrite Hw. rewrite take_app_exact by reflexivity.
  apply versions_iff.
  - rewrite !app_length. lia.
  - cbn [hs_state rg_cipher remote_garbage].
    exists (map (fun d => (Decoy, d)) ds), [], oc'. split; [|split].
    + apply Forall_forall. intros x Hx. apply in_map_iff in Hx. destruct Hx as (d & <- & _).
      reflexivity.
    + rewrite map_length.
      pose proof (recv_all_sent (version_msgs (some_nonempty gb) ds)
                    (inbound (sv_cipher (hs_state h))) ps oc' rest) as Q.
      rewrite version_msgs_aads, version_msgs_got in Q. apply Q.
      * clear -Hd. generalize (some_nonempty gb). induction Hd as [|d ds H1 H2 IH]; intros a.
        -- repeat constructor.
        -- constructor; [assumption|apply IH].
      * rewrite <- S. apply send_version_aad. unfold gb.
        destruct g as [[|x g]|]; reflexivity.
    + reflexivity.
Qed.

(** C20 *)
Theorem same_keys magic ska skb ga gb :
  EcdhAgrees E -> len magic = 4 -> sk_valid ska = true -> sk_valid skb = true ->
  take 4 (ellswift_of ska) <> magic -> take 4 (ellswift_of skb) <> magic ->
  let ha := Handshake magic Initiator (SentKey (EcdhPoint ska (ellswift_of ska)) ga) in
  let hb := Handshake magic Responder (SentKey (EcdhPoint skb (ellswift_of skb)) gb) in
  exists m,
    receive_key ha (ellswift_of skb) = Ret (Ok (Handshake magic Initiator (ReceivedKey m ga))) /\
    receive_key hb (ellswift_of ska) = Ret (Ok (Handshake magic Responder (ReceivedKey m gb))).
Proof.
  intros EA Hm Va Vb Ma Mb ha hb.
  destruct (receive_key_v1 ha (ellswift_of skb) (ellswift_len _) Hm) as [_ Ka].
  destruct (receive_key_v1 hb (ellswift_of ska) (ellswift_len _) Hm) as [_ Kb].
  destruct (Ka Mb) as (m1 & E1 & F1). destruct (Kb Ma) as (m2 & E2 & F2).
  cbn [ha hb in_order hs_role hs_state sk_point elligator_swift secret_key hs_magic sk_local_garbage party_of] in *.
  unfold bip_secret in *. rewrite <- (EA ska skb Va Vb) in F2.
  rewrite (keys_from_unique _ _ _ F2 F1) in E2. eauto.
Qed.

(** C25 *)
Theorem honest_handshake magic ska skb ga gb da db resta restb :
  EcdhAgrees E -> len magic = 4 ->
  sk_valid ska = true -> sk_valid skb = true ->
  (debug_assertions = true -> ska <> zeros 32 /\ skb <> zeros 32) ->
  len (garbage_bytes ga) <= 4095 -> len (garbage_bytes gb) <= 4095 ->
  Forall (fun d => len d < 2 ^ 24) (decoy_list da) ->
  Forall (fun d => len d < 2 ^ 24) (decoy_list db) ->
  (overflow_checks = true -> len (decoy_list da) + 1 < 2 ^ 32 /\ len (decoy_list db) + 1 < 2 ^ 32) ->
  take 4 (ellswift_of ska) <> magic -> take 4 (ellswift_of skb) <> magic ->
  exists ha fa hb fb ha' wa hb' wb m,
    party_start magic Initiator ska ga = Ret (Ok (ha, fa)) /\
    party_start magic Responder skb gb = Ret (Ok (hb, fb)) /\
    party_key ha (take 64 fb) da = Ret (Ok (ha', wa)) /\
    party_key hb (take 64 fa) db = Ret (Ok (hb', wb)) /\
    keys_from (bip_prk magic (bip_secret (ellswift_of ska) (ellswift_of skb) ska PartyA)) m /\
    (first_at (initiator_garbage_terminator m)
       (garbage_bytes ga ++ initiator_garbage_terminator m) (len (garbage_bytes ga)) ->
     first_at (responder_garbage_terminator m)
       (garbage_bytes gb ++ responder_garbage_terminator m) (len (garbage_bytes gb)) ->
     exists ca cb,
       party_finish ha' (drop 64 fb ++ wb ++ resta) = Ret (Ok ca, resta) /\
       party_finish hb' (drop 64 fa ++ wa ++ restb) = Ret (Ok cb, restb) /\
       id ca = session_id m /\ id cb = session_id m /\
       outbound ca = inbound cb /\ outbound cb = inbound ca).
Proof.
  intros EA Hm Va Vb Hz Hga Hgb Hda Hdb Ho Ma Mb.
  assert (Hs1 := start_ok magic Initiator ska ga Va (fun H => proj1 (Hz H)) Hga).
  assert (Hs2 := start_ok magic Responder skb gb Vb (fun H => proj2 (Hz H)) Hgb).
  assert (T : forall sk g, take 64 (bip_first_flight sk g) = ellswift_of sk).
  { intros. apply take_app_exact. now rewrite ellswift_len. }
  assert (D : forall sk g, drop 64 (bip_first_flight sk g) = g).
  { intros. apply drop_app_exact. now rewrite ellswift_len. }
  destruct (key_ok magic Initiator (EcdhPoint ska (ellswift_of ska)) ga (ellswift_of skb) da
              Hm (ellswift_len _) Mb (fun H => proj1 (Ho H))) as (m & psa & oca & KFa & Sa & Ka).
  destruct (key_ok magic Responder (EcdhPoint skb (ellswift_of skb)) gb (ellswift_of ska) db
              Hm (ellswift_len _) Ma (fun H => proj2 (Ho H))) as (m2 & psb & ocb & KFb & Sb & Kb).
  cbn [in_order elligator_swift secret_key party_of] in KFa, KFb.
  unfold bip_secret in KFb. rewrite <- (EA ska skb Va Vb) in KFb.
  rewrite (keys_from_unique _ _ _ KFb KFa) in *. clear KFb m2.
  do 9 eexists. split; [exact Hs1|]. split; [exact Hs2|].
  rewrite !T, !D. split; [exact Ka|]. split; [exact Kb|]. split; [exact KFa|].
  intros Fa Fb.
  eexists _, _.
  split; [|split].
  - rewrite <- app_assoc.
    match goal with |- party_finish ?h _ = _ =>
      change (terminator m Responder) with (remote_garbage_terminator (hs_state h));
      eapply (finish_ok h gb (decoy_list db) psb ocb)
    end; cbn [hs_state remote_garbage_terminator sv_cipher inbound opp terminator]; try assumption.
    apply (terminator_len _ m Responder KFa).
  - rewrite <- app_assoc.
    match goal with |- party_finish ?h _ = _ =>
      change (terminator m Initiator) with (remote_garbage_terminator (hs_state h));
      eapply (finish_ok h ga (decoy_list da) psa oca)
    end; cbn [hs_state remote_garbage_terminator sv_cipher inbound opp terminator]; try assumption.
    apply (terminator_len _ m Initiator KFa).
  - repeat split.
Qed.

End WithEnv.

Section More.
Context {E : Env} {EL : EnvLaws E}.

(** C26 *)
Theorem no_panic_remote magic r pt g d their wire :
  let h := Handshake magic r (SentKey pt g) in
  len magic = 4 -> len their = 64 ->
  (overflow_checks = true -> len (decoy_list d) + 1 < 2 ^ 32 /\ len wire < 2 ^ 35) ->
  exists x, party_key h their d = Ret x /\
    forall h' w, x = Ok (h', w) -> exists y rest, party_finish h' wire = Ret (y, rest).
Proof.
  cbn zeta. intros Hm Ht Ho.
  destruct (bytes_eq_dec (take 4 their) magic) as [V|V].
  - unfold party_key.
    destruct (receive_key_v1 (Handshake magic r (SentKey pt g)) their Ht Hm) as [[_ K] _].
    rewrite (K V). cbn [bind]. eexists. split; [reflexivity|]. discriminate.
  - destruct (key_ok magic r pt g their d Hm Ht V (fun H => proj1 (Ho H)))
      as (m & ps & oc & KF & _ & K).
    rewrite K. eexists. split; [reflexivity|]. intros h' w Q. injection Q as <- <-.
    apply finish_no_panic.
    + destruct (in_order r (elligator_swift pt) their). exact (terminator_len _ m (opp r) KF).
    + cbn [hs_state sv_cipher inbound]. apply session_counted.
    + intros H. apply (Ho H).
Qed.

(** The individual functions, in any state whose counters have room. *)
Theorem no_panic_calls :
  (forall h their, len their = 64 -> len (hs_magic h) = 4 -> exists x, receive_key h their = Ret x) /\
  (forall h buf, len (remote_garbage_terminator (hs_state h)) = 16 ->
     exists x, receive_garbage h buf = Ret x) /\
  (forall h lb k, len lb = 3 -> counted k (inbound (rg_cipher (hs_state h))) -> room k ->
     exists x, hs_decrypt_packet_len h lb = Ret x) /\
  (forall h ct k, counted k (inbound (rg_cipher (hs_state h))) -> room k ->
     exists x, receive_version h ct = Ret x).
Proof.
  repeat split.
  - intros h their Ht Hm. destruct (receive_key_v1 h their Ht Hm) as [[_ K1] K2].
    destruct (bytes_eq_dec (take 4 their) (hs_magic h)) as [V|V]; [eauto|].
    destruct (K2 V) as (m & K & _). eauto.
  - intros h buf Ht. destruct (garbage_total h buf Ht) as (x & H & _). eauto.
  - intros h lb k Hl Hc Hr. unfold hs_decrypt_packet_len.
    destruct (decrypt_len_ret k _ lb Hl Hc Hr) as (n & c' & D & _). rewrite D. cbn [bind]. eauto.
  - intros h ct k Hc Hr. unfold receive_version.
    destruct (decrypt_in_place_ret k _ ct (remote_garbage (hs_state h)) Hc Hr)
      as ([[[|] pt]|e] & c' & b & D & _); rewrite D; cbn [bind]; eauto.
Qed.

(** After an honest handshake everything round-trips, both ways. *)
Theorem after_handshake (ca cb : cipher_session) ms pkts c' rest :
  outbound ca = inbound cb ->
  Forall (fun m => len (m_contents m) < 2 ^ 24) ms ->
  send_all (outbound ca) ms = Ret (pkts, c') ->
  recv_all (inbound cb) (map m_aad ms) (List.concat pkts ++ rest) =
  Ret (Some (map (fun m => (m_type m, m_contents m)) ms), c', rest).
Proof. intros <-. apply recv_all_sent. Qed.

End More.
