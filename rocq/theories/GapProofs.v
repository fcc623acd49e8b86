(** * GapProofs: where in the received bytes the packets stand that a reader accepts *)
From Coq Require Import List NArith Bool Lia.
From Coq.Strings Require Import Byte.
From Verif Require Import Base BaseFacts Env FsChacha Spec FsChachaProofs Cipher CipherProofs Histories Handshake
  SpecHandshake HsDriver HandshakeProofs HsRunProofs Transport Io SpecIo Futures Sessions IoProofs FuturesProofs
  IoRunProofs SessionProofs ReaderProofs EndpointProofs OversizeProofs SpecIntegrity IntegrityProofs
  Traffic TrafficIo TrafficFutures SpecTraffic TrafficProofs TrafficSessionProofs SpecPair PairProofs SpecGap.
Import ListNotations.
Local Open Scope N_scope.

(** The bodies are found one after the other, each behind at least three bytes. *)
Inductive embedded : list bytes -> bytes -> Prop :=
| embedded_nil w : embedded [] w
| embedded_cons gap b bs w : 3 <= len gap -> embedded bs w -> embedded (b :: bs) (gap ++ b ++ w).

Lemma embedded_behind u bs w : embedded bs w -> embedded bs (u ++ w).
Proof.
  intros H. destruct H as [w|gap b bs w L H]; [constructor|].
  rewrite app_assoc. constructor; [rewrite len_app; lia|assumption].
Qed.

Lemma length_of_cons i p pkts : length_of (S i) (p :: pkts) = len p + length_of i pkts.
Proof. unfold length_of. cbn [firstn List.concat]. apply len_app. Qed.

Lemma embedded_nth : forall pkts n wire i pkt,
  embedded (map (drop 3) (firstn n pkts)) wire -> (i < n)%nat -> nth_error pkts i = Some pkt ->
  stands_behind (length_of i pkts + 3) (drop 3 pkt) wire.
Proof.
  induction pkts as [|p pkts IH]; intros [|n] wire i pkt H Hi Hn; [lia|destruct i; discriminate|lia|].
  cbn [firstn map] in H. inversion H as [|gap b bs w L H1]; subst. destruct i as [|i]; cbn [nth_error] in Hn.
  - injection Hn as ->. exists gap, w. split; [reflexivity|]. unfold length_of. cbn. lia.
  - destruct (IH n w i pkt H1) as (before & after & -> & Lb); [lia|assumption|].
    exists (gap ++ drop 3 p ++ before), after. split; [now rewrite <- !app_assoc|].
    rewrite length_of_cons, !len_app. assert (len p <= 3 + len (drop 3 p)) by (rewrite len_drop; lia). lia.
Qed.

Section WithLaws.
Context {E : Env} {EL : EnvLaws E}.

(** Packets in a row. *)
Lemma recv_embedded kP ms pkts : honest kP ms pkts ->
  forall n c wire vs c' rest i,
  packet_cipher c = fp_at kP i ->
  recv_all c (repeat None n) wire = Ret (Some vs, c', rest) ->
  vs = map view (firstn n (skipn (N.to_nat i) ms)) /\ length vs = n /\
    embedded (map (drop 3) (firstn n (skipn (N.to_nat i) pkts))) wire \/
  forged_between kP ms pkts i (i + N.of_nat n) wire.
Proof.
  intros Ho. induction n as [|n IH]; intros c wire vs c' rest i Hc H; cbn [repeat recv_all] in H.
  - injection H as <- <- <-. left. repeat split. constructor.
  - apply bind_ret_inv in H. destruct H as ([[[v|] c1] w1] & R & H); [|discriminate].
    apply bind_ret_inv in H. destruct H as ([[[l|] c2] w2] & R2 & H); [|discriminate].
    injection H as <- <- <-.
    apply recv_one_opens in R. destruct R as (lb & body & cl & -> & Ll & D & Pc & Op).
    assert (packet_cipher cl = fp_at kP i) as Hcl by congruence.
    destruct (opens_one _ _ _ _ _ _ _ _ _ Ho Hcl Op) as [F|(x & p & Hx & Ha & Hp & Hb & Hv & Hn)].
    { right. exists i, body. split; [lia|]. split; [exists lb, w1; reflexivity|]. assumption. }
    destruct (IH _ _ _ _ _ _ Hn R2) as [(I1 & I2 & I3)|(j & b & I1 & I2 & I3)].
    + left. rewrite (nth_skipn _ _ _ Hx), (nth_skipn _ _ _ Hp). cbn [firstn map length].
      replace (S (N.to_nat i)) with (N.to_nat (i + 1)) by lia. rewrite I1 at 1. rewrite I2, Hv.
      split; [reflexivity|]. split; [reflexivity|]. rewrite Hb. constructor; [lia|assumption].
    + right. exists j, b. split; [lia|]. split; [|assumption]. now apply occurs_suffix, occurs_suffix.
Qed.

(** Synchronous reads, also after failures. *)
Lemma sync_embedded kP ms pkts : honest kP ms pkts -> forall n r xs r' i,
  packet_cipher (sr_cipher r) = fp_at kP i ->
  read_many n (RSync r) = Ret (xs, r') ->
  let got := map seen (payloads_of xs) in
  got = firstn (length got) (map view (skipn (N.to_nat i) ms)) /\
    embedded (map (drop 3) (firstn (length got) (skipn (N.to_nat i) pkts))) (session_content (sr_reader r)) \/
  forged_between kP ms pkts i (i + len got) (session_content (sr_reader r)).
Proof.
  intros Ho. induction n as [|n IH]; intros r xs r' i Hc H; cbn [read_many] in H.
  - injection H as <- <-. left. split; [reflexivity|constructor].
  - apply bind_ret_inv in H. destruct H as ([x r1] & R & H). cbn [read_any] in R.
    apply bind_ret_inv in R. destruct R as ([[x' r1'] a] & R & Q). injection Q as -> <-.
    apply bind_ret_inv in H. destruct H as ([ys r2] & R2 & H). injection H as <- <-.
    apply sync_read_opens in R. destruct x as [p|e].
    + destruct R as (lb & body & c1 & W & Ll & Pc & Op). rewrite <- Pc in Hc.
      unfold payloads_of. cbn [flat_map app map]. fold (payloads_of ys). cbn zeta.
      destruct (opens_one _ _ _ _ _ _ _ _ _ Ho Hc Op) as [F|(x & pk & Hx & Ha & Hp & Hb & Hv & Hn)].
      { right. exists i, body. rewrite len_cons. split; [lia|]. split; [|assumption].
        rewrite W. now exists lb, (session_content (sr_reader r1')). }
      destruct (IH _ _ _ _ Hn R2) as [[I1 I2]|(j & b & I1 & I2 & I3)].
      * left. rewrite (nth_skipn _ _ _ Hx), (nth_skipn _ _ _ Hp). cbn [firstn map length].
        replace (S (N.to_nat i)) with (N.to_nat (i + 1)) by lia. rewrite I1 at 1. split; [now rewrite Hv|].
        rewrite W, Hb. constructor; [lia|assumption].
      * right. exists j, b. rewrite len_cons. split; [lia|]. split; [|assumption].
        rewrite W. now apply occurs_suffix, occurs_suffix.
    + destruct R as [Pc (u & W)]. rewrite <- Pc in Hc.
      change (payloads_of (Err e :: ys)) with (payloads_of ys).
      destruct (IH _ _ _ _ Hc R2) as [[I1 I2]|(j & b & I1 & I2 & I3)].
      * left. split; [assumption|]. rewrite W. now apply embedded_behind.
      * right. exists j, b. split; [assumption|]. split; [|assumption]. rewrite W. now apply occurs_suffix.
Qed.

Lemma reads_embedded kP ms pkts : honest kP ms pkts -> forall fl c sr xs i,
  packet_cipher c = fp_at kP i ->
  reads (established fl c sr) xs ->
  let got := map seen (payloads_of xs) in
  got = firstn (length got) (map view (skipn (N.to_nat i) ms)) /\
    embedded (map (drop 3) (firstn (length got) (skipn (N.to_nat i) pkts))) (session_content sr) \/
  forged_between kP ms pkts i (i + len got) (session_content sr).
Proof.
  intros Ho fl c sr xs i Hc Rd. cbn zeta.
  assert (T : forall c' rest, recv_all c (repeat None (length (payloads_of xs))) (session_content sr) =
      Ret (Some (map seen (payloads_of xs)), c', rest) ->
    map seen (payloads_of xs) = firstn (length (map seen (payloads_of xs))) (map view (skipn (N.to_nat i) ms)) /\
      embedded (map (drop 3) (firstn (length (map seen (payloads_of xs))) (skipn (N.to_nat i) pkts))) (session_content sr) \/
    forged_between kP ms pkts i (i + len (map seen (payloads_of xs))) (session_content sr)).
  { intros c' rest R. destruct (recv_embedded _ _ _ Ho _ _ _ _ _ _ _ Hc R) as [(Q & L & Em)|F].
    - left. split; [eapply prefix_of_count; [|exact L]; now rewrite firstn_map|]. now rewrite L.
    - right. unfold len. now rewrite map_length. }
  destruct Rd as [(n & rd' & H)|(t & acts & t' & f & Qt & H)].
  - destruct fl.
    + exact (sync_embedded _ _ _ Ho n (SyncReader c sr) xs rd' i Hc H).
    + cbn [established] in H. apply (tokio_many_sound n _ c (session_content sr)) in H; [|apply fresh_stands].
      destruct H as (c' & rest & R). eapply T, R.
  - destruct fl; [discriminate|]. cbn [established] in Qt. injection Qt as <-.
    destruct (schedule_sound acts FreshFuture _ _ _ _ _ _ (fresh_stands c sr) I H) as (c' & rest & R & _). eapply T, R.
Qed.

(** What becomes of the packets of a writer. *)
Lemma sends_nil p : sends p [] [] [] p.
Proof. split; [reflexivity|]. split; [constructor|]. cbn. now rewrite app_nil_r. Qed.

Lemma sends_app p ms1 pkts1 parts1 p1 ms2 pkts2 parts2 p2 :
  sends p ms1 pkts1 parts1 p1 -> sends p1 ms2 pkts2 parts2 p2 ->
  sends p (ms1 ++ ms2) (pkts1 ++ pkts2) (parts1 ++ parts2) p2.
Proof.
  intros (S1 & F1 & W1) (S2 & F2 & W2). split; [exact (send_all_join _ _ _ _ _ _ _ S1 S2)|].
  split; [now apply Forall2_app|]. rewrite W2, W1, concat_app. now rewrite app_assoc.
Qed.

Lemma prefix_take n (b : bytes) : prefix_of (take n b) b.
Proof. exists (drop n b). now rewrite take_drop. Qed.

Lemma write_one_part fl p pl x p' : write_any fl p pl = Ret (x, p') ->
  exists pkt part, sends p [as_msg (seen pl)] [pkt] [part] p' /\ (x = Ok tt -> part = pkt).
Proof.
  intros H. destruct (write_any_sound _ _ _ _ _ H) as (t & c & pkt & n & V & En & W & Wo & _).
  apply view_seen in V.
  assert (send_all (pw_cipher p) [as_msg (seen pl)] = Ret ([pkt], pw_cipher p')) as Sa.
  { rewrite V. cbn [as_msg fst snd send_all m_type m_aad m_contents]. rewrite En. reflexivity. }
  exists pkt, (take n pkt). split.
  - split; [exact Sa|]. split; [constructor; [apply prefix_take|constructor]|]. rewrite W. cbn. now rewrite app_nil_r.
  - intros ->. specialize (Wo eq_refl). rewrite W in Wo. now apply app_inv_head in Wo.
Qed.

Lemma write_many_parts fl : forall pls p xs p', write_many fl p pls = Ret (xs, p') ->
  exists pkts parts, sends p (wire_of pls) pkts parts p' /\
    forall i, nth_error xs i = Some (Ok tt) -> nth_error parts i = nth_error pkts i.
Proof.
  induction pls as [|pl pls IH]; intros p xs p' H; cbn [write_many] in H.
  - injection H as <- <-. exists [], []. split; [apply sends_nil|]. reflexivity.
  - apply bind_ret_inv in H. destruct H as ([x p1] & W & H).
    apply bind_ret_inv in H. destruct H as ([xs1 p2] & Ws & H). injection H as <- <-.
    destruct (write_one_part _ _ _ _ _ W) as (pkt & part & S1 & Q1). destruct (IH _ _ _ Ws) as (pkts & parts & S2 & Q2).
    exists (pkt :: pkts), (part :: parts). split; [exact (sends_app _ _ _ _ _ _ _ _ _ S1 S2)|].
    intros [|i] Hx; cbn [nth_error] in *; [|now apply Q2]. injection Hx as ->. now rewrite Q1.
Qed.

Lemma serves_parts fl p bs rs p' c : serves fl p bs rs p' -> Forall (block_ok c) bs ->
  exists ms pkts parts qs, sends p ms pkts parts p' /\ (length ms <= packets bs)%nat /\
    encrypted (map fst rs) (map snd rs) qs /\ genuine_only (map view ms) = genuine_only (map seen qs).
Proof.
  assert (Vm : forall v, view (as_msg v) = v) by (intros [? ?]; reflexivity).
  assert (Dv : forall d, shaper_decoy_payload d -> genuine_only [seen d] = []).
  { intros d B. apply shaper_decoy_seen in B. destruct B as (n & B & _). now rewrite B. }
  intros H. induction H as [p|p bs rs p1 d x p2 H IH W1|p bs rs p1 pl x p2 H IH W1|p bs rs p1 d pl p2 x p3 H IH W1 W2|p bs rs p1 d pl e p2 H IH W1];
    [intros _; exists [], [], [], []; split; [apply sends_nil|]; repeat split; [cbn; lia|constructor]
    |intros F; apply Forall_app in F; destruct F as [F1 F2]; destruct (IH F1) as (ms & pkts & parts & qs & S0 & L & En & G);
     inversion F2 as [|? ? B _]; subst; cbn [block_ok] in B; clear IH;
     unfold packets in *; rewrite flat_map_app, app_length; rewrite ?map_app; cbn [map flat_map block_payloads app length fst snd]..].
  - destruct (write_one_part _ _ _ _ _ W1) as (k1 & t1 & S1 & _). destruct B as [_ B].
    exists (ms ++ [as_msg (seen d)]), (pkts ++ [k1]), (parts ++ [t1]), qs. split; [exact (sends_app _ _ _ _ _ _ _ _ _ S0 S1)|].
    split; [rewrite app_length; cbn; lia|]. split; [assumption|].
    rewrite map_app, genuine_only_app, G. cbn [map]. rewrite Vm, (Dv _ B). apply app_nil_r.
  - destruct (write_one_part _ _ _ _ _ W1) as (k1 & t1 & S1 & _).
    exists (ms ++ [as_msg (seen pl)]), (pkts ++ [k1]), (parts ++ [t1]), (qs ++ [pl]). split; [exact (sends_app _ _ _ _ _ _ _ _ _ S0 S1)|].
    split; [rewrite app_length; cbn; lia|]. split; [apply encrypted_app; [assumption|repeat constructor]|].
    rewrite !map_app, !genuine_only_app, G. cbn [map]. now rewrite Vm.
  - destruct (write_one_part _ _ _ _ _ W1) as (k1 & t1 & S1 & _). destruct (write_one_part _ _ _ _ _ W2) as (k2 & t2 & S2 & _).
    destruct B as [_ B].
    exists ((ms ++ [as_msg (seen d)]) ++ [as_msg (seen pl)]), ((pkts ++ [k1]) ++ [k2]), ((parts ++ [t1]) ++ [t2]), (qs ++ [pl]).
    split; [exact (sends_app _ _ _ _ _ _ _ _ _ (sends_app _ _ _ _ _ _ _ _ _ S0 S1) S2)|].
    split; [rewrite !app_length; cbn; lia|]. split; [apply encrypted_app; [assumption|repeat constructor]|].
    rewrite !map_app, !genuine_only_app, G. cbn [map]. rewrite !Vm, (Dv _ B). now rewrite app_nil_r.
  - destruct (write_one_part _ _ _ _ _ W1) as (k1 & t1 & S1 & _). destruct B as [_ B].
    exists (ms ++ [as_msg (seen d)]), (pkts ++ [k1]), (parts ++ [t1]), qs. split; [exact (sends_app _ _ _ _ _ _ _ _ _ S0 S1)|].
    split; [rewrite app_length; cbn; lia|]. split.
    { rewrite <- (app_nil_r qs). apply encrypted_app; [assumption|repeat constructor]. }
    rewrite map_app, genuine_only_app, G. cbn [map]. rewrite Vm, (Dv _ B). apply app_nil_r.
Qed.

End WithLaws.

(** Parts are shorter than their packets. *)
Lemma parts_le parts pkts : Forall2 prefix_of parts pkts -> forall i, length_of i parts <= length_of i pkts.
Proof.
  intros H. induction H as [|a b la lb (r & ->) H IH]; intros [|i]; try (unfold length_of; cbn; lia).
  rewrite !length_of_cons, len_app. specialize (IH i). lia.
Qed.

Lemma parts_lt parts pkts : Forall2 prefix_of parts pkts -> forall j i, torn pkts parts j -> (j < i)%nat ->
  length_of i parts < length_of i pkts.
Proof.
  unfold torn. intros H. induction H as [|a b la lb (r & ->) H IH]; intros j [|i] T L; try lia.
  - destruct j; now contradiction T.
  - rewrite !length_of_cons, len_app. destruct j as [|j]; cbn [nth_error] in T.
    + pose proof (parts_le _ _ H i). destruct r as [|x r]; [now rewrite app_nil_r in T|]. rewrite len_cons. lia.
    + specialize (IH j i T ltac:(lia)). lia.
Qed.
