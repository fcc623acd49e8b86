(** * PairProofs: two endpoints with an attacker between them *)
From Coq Require Import List NArith Arith Bool Lia ZifyBool ZifyN.
From Coq.Strings Require Import Byte.
From Verif Require Import Base BaseFacts Env FsChacha Spec Cipher CipherFacts Histories CipherProofs Handshake
  SpecHandshake HsDriver HandshakeProofs HsRunProofs
  Transport Io Futures SpecIo Sessions TransportProofs IoProofs FuturesProofs IoRunProofs SessionProofs EndpointProofs
  OversizeProofs SpecIntegrity IntegrityProofs
  Traffic TrafficIo TrafficFutures SpecTraffic TrafficProofs TrafficIoProofs TrafficFuturesProofs TrafficSessionProofs
  SpecPair.
Import ListNotations.
Local Open Scope N_scope.

Lemma prefix_firstn {A} (l1 l2 : list A) : l1 = firstn (length l1) l2 -> prefix_of l1 l2.
Proof. intros ->. exists (skipn (length l1) l2). now rewrite firstn_skipn. Qed.

Lemma prefix_filter {A} (f : A -> bool) l1 l2 : prefix_of l1 l2 -> prefix_of (filter f l1) (filter f l2).
Proof. intros (r & ->). exists (filter f r). apply filter_app. Qed.

Lemma encrypted_app pls1 xs1 qs1 pls2 xs2 qs2 :
  encrypted pls1 xs1 qs1 -> encrypted pls2 xs2 qs2 -> encrypted (pls1 ++ pls2) (xs1 ++ xs2) (qs1 ++ qs2).
Proof. intros H H2. induction H; cbn [app]; [assumption|constructor; assumption..]. Qed.

Lemma occurs_nil w : occurs [] w.
Proof. exists [], w. reflexivity. Qed.

Lemma occurs_prefix b w u : occurs b w -> occurs b (w ++ u).
Proof. intros (x & y & ->). exists x, (y ++ u). now rewrite <- !app_assoc. Qed.

Section Pair.
Context {E : Env} {EL : EnvLaws E}.

(** One write encrypts one message, whatever becomes of it. *)
Lemma write_any_sends fl p pl x p' : write_any fl p pl = Ret (x, p') ->
  exists pkt, send_all (pw_cipher p) [as_msg (seen pl)] = Ret ([pkt], pw_cipher p').
Proof.
  intros H. destruct (write_any_sound _ _ _ _ _ H) as (t & c & pkt & n & V & En & _).
  exists pkt. apply view_seen in V. rewrite V. cbn [as_msg fst snd send_all m_type m_aad m_contents].
  rewrite En. reflexivity.
Qed.

Lemma write_many_sends fl : forall pls p xs p', write_many fl p pls = Ret (xs, p') ->
  exists pkts, send_all (pw_cipher p) (wire_of pls) = Ret (pkts, pw_cipher p').
Proof.
  induction pls as [|pl pls IH]; intros p xs p' H; cbn [write_many] in H.
  - injection H as <- <-. exists []. reflexivity.
  - apply bind_ret_inv in H. destruct H as ([x p1] & W & H).
    apply bind_ret_inv in H. destruct H as ([xs1 p2] & Ws & H). injection H as <- <-.
    destruct (write_any_sends _ _ _ _ _ W) as (pkt & S1). destruct (IH _ _ _ Ws) as (pkts & S2).
    exists (pkt :: pkts). exact (send_all_join [_] _ _ _ _ _ _ S1 S2).
Qed.

(** What a shaped endpoint encrypts. *)
Lemma serves_sends fl p bs rs p' c : serves fl p bs rs p' -> Forall (block_ok c) bs ->
  exists ms pkts qs, send_all (pw_cipher p) ms = Ret (pkts, pw_cipher p') /\ (length ms <= packets bs)%nat /\
    encrypted (map fst rs) (map snd rs) qs /\ genuine_only (map view ms) = genuine_only (map seen qs).
Proof.
  assert (Vm : forall v, view (as_msg v) = v) by (intros [? ?]; reflexivity).
  assert (Dv : forall d, shaper_decoy_payload d -> genuine_only [seen d] = []).
  { intros d B. apply shaper_decoy_seen in B. destruct B as (n & B & _). now rewrite B. }
  intros H. induction H as [p|p bs rs p1 d x p2 H IH W1|p bs rs p1 pl x p2 H IH W1|p bs rs p1 d pl p2 x p3 H IH W1 W2|p bs rs p1 d pl e p2 H IH W1];
    [intros _; exists [], [], []; repeat split; [cbn; lia|constructor]
    |intros F; apply Forall_app in F; destruct F as [F1 F2]; destruct (IH F1) as (ms & pkts & qs & S0 & L & En & G);
     inversion F2 as [|? ? B _]; subst; cbn [block_ok] in B; clear IH;
     unfold packets in *; rewrite flat_map_app, app_length; rewrite ?map_app; cbn [map flat_map block_payloads app length fst snd]..].
  - destruct (write_any_sends _ _ _ _ _ W1) as (k1 & S1). destruct B as [_ B].
    exists (ms ++ [as_msg (seen d)]), (pkts ++ [k1]), qs. split; [exact (send_all_join _ _ _ _ _ _ _ S0 S1)|].
    split; [rewrite app_length; cbn; lia|]. split; [assumption|].
    rewrite map_app, genuine_only_app, G. cbn [map]. rewrite Vm, (Dv _ B). apply app_nil_r.
  - destruct (write_any_sends _ _ _ _ _ W1) as (k1 & S1).
    exists (ms ++ [as_msg (seen pl)]), (pkts ++ [k1]), (qs ++ [pl]). split; [exact (send_all_join _ _ _ _ _ _ _ S0 S1)|].
    split; [rewrite app_length; cbn; lia|]. split; [apply encrypted_app; [assumption|repeat constructor]|].
    rewrite !map_app, !genuine_only_app, G. cbn [map]. now rewrite Vm.
  - destruct (write_any_sends _ _ _ _ _ W1) as (k1 & S1). destruct (write_any_sends _ _ _ _ _ W2) as (k2 & S2).
    destruct B as [_ B].
    exists ((ms ++ [as_msg (seen d)]) ++ [as_msg (seen pl)]), ((pkts ++ [k1]) ++ [k2]), (qs ++ [pl]).
    split; [exact (send_all_join _ _ _ _ _ _ _ (send_all_join _ _ _ _ _ _ _ S0 S1) S2)|].
    split; [rewrite !app_length; cbn; lia|]. split; [apply encrypted_app; [assumption|repeat constructor]|].
    rewrite !map_app, !genuine_only_app, G. cbn [map]. rewrite !Vm, (Dv _ B). now rewrite app_nil_r.
  - destruct (write_any_sends _ _ _ _ _ W1) as (k1 & S1). destruct B as [_ B].
    exists (ms ++ [as_msg (seen d)]), (pkts ++ [k1]), qs. split; [exact (send_all_join _ _ _ _ _ _ _ S0 S1)|].
    split; [rewrite app_length; cbn; lia|]. split.
    { rewrite <- (app_nil_r qs). apply encrypted_app; [assumption|repeat constructor]. }
    rewrite map_app, genuine_only_app, G. cbn [map]. rewrite Vm, (Dv _ B). apply app_nil_r.
Qed.

Lemma handshake_msgs_len g ds : len (handshake_msgs g ds) = len ds + 1.
Proof. rewrite <- version_handshake. apply version_msgs_len. Qed.

(** The connection of [ska], role [r], reading; the connection of [skb] writing. *)
Theorem pair_integrity magic r ska skb ga gb da db :
  EcdhAgrees E -> len magic = 4 ->
  sk_valid ska = true -> sk_valid skb = true ->
  (debug_assertions = true -> ska <> zeros 32 /\ skb <> zeros 32) ->
  len (garbage_bytes ga) <= 4095 -> len (garbage_bytes gb) <= 4095 ->
  (overflow_checks = true -> len (decoy_list da) + 1 < 2 ^ 32 /\ len (decoy_list db) + 1 < 2 ^ 32) ->
  take 4 (ellswift_of ska) <> magic -> take 4 (ellswift_of skb) <> magic ->
  exists m,
    (let '(ski, skr) := in_order r ska skb in
     keys_from (bip_prk magic (bip_secret (ellswift_of ski) (ellswift_of skr) ski PartyA)) m) /\
    forall fla flb sa sb wa wb ra pa rb pb received reply,
      content sa = ellswift_of skb ++ received -> content sb = ellswift_of ska ++ reply ->
      connect fla magic r ska ga da sa wa = Ret (Ok (ra, pa)) ->
      connect flb magic (opp r) skb gb db sb wb = Ret (Ok (rb, pb)) ->
      let hs := handshake_msgs (garbage_bytes gb) (decoy_list db) in
      exists ps, send_all (outbound (session_new m (opp r))) hs = Ret (ps, pw_cipher pb) /\
        forall ms pkts out, send_all (pw_cipher pb) ms = Ret (pkts, out) -> len hs + len ms < 2 ^ 64 ->
        forall xs, reads ra xs ->
          let got := map seen (payloads_of xs) in
          prefix_of got (map view ms) \/
          forged_below (len hs + len got) (send_packet_key m (opp r)) (hs ++ ms) (ps ++ pkts) received.
Proof.
  intros EA Hm Va Vb Hz Hga Hgb Hov Ma Mb.
  destruct (session_integrity magic r ska skb ga da gb db EA Hm Va Vb Hz Hga Hgb Hov Ma Mb) as
    (k & k' & m & ps & St & K & KF & Sh & SI).
  exists m. split; [exact KF|].
  intros fla flb sa sb wa wb ra pa rb pb received reply Ca Cb Ha Hb hs.
  rewrite connect_handshake in Ha, Hb.
  apply bind_ret_inv in Ha. destruct Ha as (oa & Ha & Ra). apply bind_ret_inv in Hb. destruct Hb as (ob & Hb & Rb).
  destruct (ho_result oa) as [[[ia oca] sra]|] eqn:Hoa; [|discriminate]. injection Ra as <- <-.
  destruct (ho_result ob) as [[[ib ocb] srb]|] eqn:Hob; [|discriminate]. injection Rb as <- <-.
  destruct (handshake_content _ _ _ _ _ _ _ _ _ _ _ _ Hm Hb Hob) as
    (h1 & fa & h1' & w1 & their & rest & St1 & Lt & K1 & C1 & _ & Oc & _).
  rewrite St in St1. injection St1 as <- _.
  assert (their = ellswift_of ska) as ->.
  { rewrite C1 in Cb. assert (len their = len (ellswift_of ska)) as Q by (now rewrite ellswift_len).
    apply app_inj_len in Cb; [exact (proj1 Cb)|exact Q]. }
  rewrite K in K1. injection K1 as <- _. cbn [pw_cipher]. rewrite Oc.
  exists ps. split; [exact Sh|]. intros ms pkts out Sm L xs Rd. set (got := map seen (payloads_of xs)).
  assert (len hs = len (decoy_list db) + 1) as Lh by (apply handshake_msgs_len).
  rewrite Lh in *.
  assert (G : forall tail, (exists u, received = u ++ tail) ->
    got = firstn (length got) (map view ms) \/
    forged_between (send_packet_key m (opp r)) (hs ++ ms) (ps ++ pkts) (len (decoy_list db) + 1)
      (len (decoy_list db) + 1 + len got) tail ->
    prefix_of got (map view ms) \/
    forged_below (len (decoy_list db) + 1 + len got) (send_packet_key m (opp r)) (hs ++ ms) (ps ++ pkts) received).
  { intros tail (u & Qu) [P|(i & body & I1 & I2 & I3)].
    - left. now apply prefix_firstn.
    - right. exists i, [], body. split; [lia|]. split; [apply occurs_nil|]. split; [rewrite Qu; now apply occurs_suffix|assumption]. }
  destruct (SI ms pkts out fla sa wa oa ia oca sra received Sm L Ca Ha Hoa) as
    [(gar & tail & i & body & -> & _ & I2 & I3 & I4)|(Rc & Ic & R1 & R2)].
  - right. exists i, (if i =? 0 then gar else []), body. split; [lia|]. split.
    { destruct (i =? 0); [exists [], (terminator m (opp r) ++ tail); reflexivity|apply occurs_nil]. }
    split; [apply occurs_suffix, occurs_suffix, I3|exact I4].
  - destruct Rd as [(n & rd' & Rn)|(t & acts & t' & f & Qt & Rn)].
    + eapply G; [|exact (R1 _ _ _ Rn)]. rewrite Rc. rewrite !app_assoc. eauto.
    + destruct fla; cbn [established] in Qt; [discriminate|]. injection Qt as <-.
      eapply G; [|exact (R2 _ _ _ _ Rn)]. rewrite Rc. rewrite !app_assoc. eauto.
Qed.

(** Both endpoints shaped. *)
Context {G : Type} {R : Rng G} {RL : RngLaws G R}.

Lemma shaped_connect_inv fl magic r rnd c (g : G) s w ga da sh recs rd ep :
  shaper_handshake (Shaper c g) = (ga, da, sh, recs) ->
  shaped_connect fl magic r rnd c g s w = Ret (Ok (rd, ep)) ->
  exists p, connect fl magic r rnd ga da s w = Ret (Ok (rd, p)) /\
    (ep = Blocking (shared_new p sh recs) \/ ep = Tasked (task_new p sh recs)).
Proof.
  intros Hs H. destruct fl; cbn [connect shaped_connect] in *; unfold shaped_new, tokio_shaped_new in H; rewrite Hs in H.
  - destruct (protocol_new magic r rnd ga da s w) as [[q|y]| |]; cbn [bind] in *; try discriminate.
    destruct (protocol_split q) as [rd' wr]. injection H as <- <-. eauto.
  - destruct (tokio_protocol_new magic r rnd ga da s w) as [[q|y]| |]; cbn [bind] in *; try discriminate.
    injection H as <- <-. eauto.
Qed.

Lemma shaper_handshake_limits c (g : G) gg d sh recs : shaper_handshake (Shaper c g) = (gg, d, sh, recs) ->
  len (garbage_bytes gg) <= 4095 /\ len (decoy_list d) <= 3 /\ sh_config sh = c.
Proof.
  intros H. apply shaper_handshake_spec in H. destruct H as (H0 & H1 & H2 & _).
  cbn [sh_config] in *. split; [|split; [|assumption]].
  - destruct (padding_strategy c); [subst gg; cbn; lia|]. destruct H1 as (x & -> & L). exact L.
  - destruct (decoy_strategy c); [subst d; cbn; lia|]. destruct H2 as (l & -> & L & _). exact L.
Qed.

Lemma view_wire pls : map view (wire_of pls) = map seen pls.
Proof.
  unfold wire_of. rewrite !map_map. apply map_ext. intros a. unfold view, as_msg. cbn. now destruct (seen a).
Qed.

Theorem shaped_pair_integrity magic r ska skb ca cb (ga gb : G) :
  EcdhAgrees E -> len magic = 4 ->
  sk_valid ska = true -> sk_valid skb = true ->
  (debug_assertions = true -> ska <> zeros 32 /\ skb <> zeros 32) ->
  take 4 (ellswift_of ska) <> magic -> take 4 (ellswift_of skb) <> magic ->
  let '(garbb, db, _, _) := shaper_handshake (Shaper cb gb) in
  let hs := handshake_msgs (garbage_bytes garbb) (decoy_list db) in
  exists m,
    (let '(ski, skr) := in_order r ska skb in
     keys_from (bip_prk magic (bip_secret (ellswift_of ski) (ellswift_of skr) ski PartyA)) m) /\
    forall fla flb sa sb wa wb ra epa rb epb received reply,
      content sa = ellswift_of skb ++ received -> content sb = ellswift_of ska ++ reply ->
      shaped_connect fla magic r ska ca ga sa wa = Ret (Ok (ra, epa)) ->
      shaped_connect flb magic (opp r) skb cb gb sb wb = Ret (Ok (rb, epb)) ->
      forall acts epb', becomes epb acts epb' -> activity_sound acts ->
      4 + effort acts < 2 ^ (if overflow_checks then 32 else 64) ->
      exists ms pkts qs,
        send_all (outbound (session_new m (opp r))) (hs ++ ms) = Ret (pkts, pw_cipher (shaped_writer epb')) /\
        encrypted (firstn (length (results epb')) (requests acts)) (results epb') qs /\
        genuine_only (map view ms) = genuine_only (map seen qs) /\
        forall xs, reads ra xs ->
          let got := map seen (payloads_of xs) in
          prefix_of (genuine_only got) (genuine_only (map seen qs)) \/
          forged_below (len hs + len got) (send_packet_key m (opp r)) (hs ++ ms) pkts received.
Proof.
  intros EA Hm Va Vb Hz Ma Mb.
  destruct (shaper_handshake (Shaper ca ga)) as [[[garba da] sha] reca] eqn:Ha.
  destruct (shaper_handshake (Shaper cb gb)) as [[[garbb db] shb] recb] eqn:Hb. intros hs.
  destruct (shaper_handshake_limits _ _ _ _ _ _ Ha) as (La1 & La2 & _).
  destruct (shaper_handshake_limits _ _ _ _ _ _ Hb) as (Lb1 & Lb2 & Cb).
  destruct (pair_integrity magic r ska skb garba garbb da db EA Hm Va Vb Hz La1 Lb1) as (m & KF & P); try assumption.
  { intros _. change (2 ^ 32) with 4294967296. lia. }
  exists m. split; [exact KF|].
  intros fla flb sa sb wa wb ra epa rb epb received reply Csa Csb Xa Xb acts epb' B So Lm.
  destruct (shaped_connect_inv _ _ _ _ _ _ _ _ _ _ _ _ _ _ Ha Xa) as (pa & Xa' & _).
  destruct (shaped_connect_inv _ _ _ _ _ _ _ _ _ _ _ _ _ _ Hb Xb) as (pb & Xb' & Eb).
  destruct (P fla flb sa sb wa wb ra pa rb pb received reply Csa Csb Xa' Xb') as (ps & S0 & P').
  assert (len hs = len (decoy_list db) + 1) as Lh by (apply handshake_msgs_len).
  assert (counted 4 (pw_cipher pb)) as Cn.
  { destruct (send_all_ret hs 0 _ (proj2 (session_counted m (opp r)))) as (ps' & oc & S' & C').
    { rewrite Lh. intros _. change (2 ^ 32) with 4294967296. lia. }
    unfold hs in S'. rewrite S0 in S'. injection S' as <- <-. eapply counted_mono; [|exact C']. lia. }
  destruct (becomes_serves _ _ _ _ _ _ _ Eb B Cn) as (fl & bs & rs & Sv & Fb & Pk & M1 & M2).
  { intros Q. rewrite Q in Lm. exact Lm. }
  { exact So. }
  destruct (serves_sends _ _ _ _ _ _ Sv Fb) as (ms & pkts & qs & Sm & Lms & En & Ge).
  rewrite M1, M2 in En.
  exists ms, (ps ++ pkts), qs. split; [exact (send_all_join _ _ _ _ _ _ _ S0 Sm)|].
  split; [exact En|]. split; [exact Ge|]. intros xs Rd.
  destruct (P' ms pkts _ Sm) with (xs := xs) as [Pr|F]; [|exact Rd| |right; exact F].
  - change (len (handshake_msgs (garbage_bytes garbb) (decoy_list db))) with (len hs). rewrite Lh.
    assert (len ms <= effort acts) as Le by (unfold len; lia).
    destruct overflow_checks; change (2 ^ 32) with 4294967296 in *; change (2 ^ 64) with 18446744073709551616 in *; lia.
  - left. rewrite <- Ge. now apply prefix_filter.
Qed.

End Pair.
