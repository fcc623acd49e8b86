(** * Property C104: how few keys let a forgery through

    C09, C13, C65, C66, C67 and C70 end with "or there is a forgery": a valid tag for something that was not sent.  Here the tags are
    those of Poly1305 itself, and the question is for how many of the one-time keys that fit what was sent a forgery is one. *)
From Coq.Strings Require Import Byte.
From Coq Require Import List NArith Bool Lia.
From Verif Require Import Base BaseFacts Env Toy FsChacha Spec Cipher Histories CipherProofs Handshake Transport Io Sessions SpecIo SpecIntegrity
  IntegrityProofs Rfc PolyPrime PolyProofs SpecForgery ForgeryProofs PropsIntegrity PropsIo SpecHandshake HsDriver Traffic TrafficIo TrafficFutures SpecTraffic SpecPair PropsPair Curve RfcCurve PropsReal.
Import ListNotations.
Local Open Scope N_scope.

(** Every key works as its clamped form; of these there are 2^234, and 2^106 of them fit any one message and tag. *)
Theorem C104_candidates : forall msg tag, len tag = 16 ->
  (forall key, len key = 32 -> clamped (clamp key) /\ poly1305 (clamp key) msg = poly1305 key msg) /\
  (forall key, clamped key -> clamp key = key) /\
  (exists all, NoDup all /\ len all = 2 ^ 234 /\ forall key, In key all <-> clamped key) /\
  exists keys, NoDup keys /\ len keys = 2 ^ 106 /\ forall key, In key keys <-> clamped key /\ poly1305 key msg = tag.
Proof.
  intros msg tag L. split; [|split; [|split]].
  - intros key Lk. split; [now apply clamp_clamped|now apply clamp_same].
  - exact clamped_clamp.
  - exists all_keys. split; [exact all_keys_nodup|]. split; [exact all_keys_len|exact in_all_keys].
  - exists (keys_for msg tag). split; [apply keys_for_nodup|]. split; [apply keys_for_len|]. intros key. now apply in_keys_for.
Qed.
Print Assumptions C104_candidates.

(** Another message with a tag fits at most eight of them for each of its blocks. *)
Theorem C104_few : forall msg tag msg' tag', len tag = 16 -> len tag' = 16 -> msg <> msg' ->
  exists bad, len bad <= 8 * N.max ((len msg + 15) / 16) ((len msg' + 15) / 16) /\
    forall key, len key = 32 -> poly1305 key msg = tag -> poly1305 key msg' = tag' -> In (clamp key) bad.
Proof.
  intros msg tag msg' tag' L L' N. exists (both_fit msg tag msg' tag'). split; [now apply both_fit_few|].
  intros key Lk Q Q'. apply in_both_fit; [exact L|exact L'|now apply clamp_clamped| |]; now rewrite clamp_same.
Qed.
Print Assumptions C104_few.

(** An environment with the real tags, such as [rfc] (Rfc.v) and [real] (PropsReal.v). *)
Definition real_tags (E : Env) : Prop := @mac E = aead_mac.

(** The one-time key of packet number [i] (RFC 8439, section 2.6). *)
Definition one_time_key (E : Env) (kP : bytes) (i : N) : bytes :=
  chacha_stream (bip_packet_key kP (N.to_nat (i / 224))) (bip_packet_nonce i) 0 32.

Lemma one_time_len E kP i : len (one_time_key E kP i) = 32.
Proof. unfold one_time_key. rewrite len_chacha_stream. reflexivity. Qed.

(** What was tagged, and the tag. *)
Definition tagged (body : bytes) : bytes := take (len body - 16) body.
Definition tag_in (body : bytes) : bytes := drop (len body - 16) body.


Definition passes (sent_aad sent_body aad body : bytes) : list bytes :=
  if list_eq_dec Byte.byte_eq_dec (mac_input sent_aad (tagged sent_body)) (mac_input aad (tagged body)) then []
  else both_fit (mac_input sent_aad (tagged sent_body)) (tag_in sent_body) (mac_input aad (tagged body)) (tag_in body).

Lemma passes_few sa sb aad body : len (passes sa sb aad body) <= 8 * N.max (tag_blocks sa (tagged sb)) (tag_blocks aad (tagged body)).
Proof.
  unfold passes. destruct (list_eq_dec _ _ _) as [Q|N]; [rewrite len_nil; lia|]. rewrite <- !mac_input_blocks. now apply both_fit_few.
Qed.

Lemma verifies_parts (E : Env) kP i aad body : real_tags E -> tag_verifies kP i aad body ->
  len (tag_in body) = 16 /\ poly1305 (one_time_key E kP i) (mac_input aad (tagged body)) = tag_in body.
Proof.
  intros RT (ct & ->). rewrite RT. set (t := aead_mac _ _ aad ct).
  assert (len t = 16) as Lt by (unfold t, aead_mac, poly1305; now rewrite len_le_bytes).
  unfold tag_in, tagged. rewrite len_app, Lt, N.add_sub, drop_app_exact, take_app_exact by reflexivity. split; [exact Lt|]. unfold t, aead_mac, one_time_key, mac_input. reflexivity.
Qed.

Lemma sent_verifies (E : Env) kP ms pkts i x p : honest kP ms pkts ->
  nth_error ms (N.to_nat i) = Some x -> nth_error pkts (N.to_nat i) = Some p -> tag_verifies kP i (aad_of x) (drop 3 p).
Proof.
  intros (_ & H) X P. destruct (H i x X) as (p' & P' & D). rewrite P in P'. injection P' as <-. rewrite D.
  unfold bip_body. eexists. reflexivity.
Qed.

Lemma passes_all (E : Env) kP ms pkts i x p aad body : real_tags E ->
  len (aad_of x) < 2 ^ 64 -> len (drop 3 p) < 2 ^ 64 -> len aad < 2 ^ 64 -> len body < 2 ^ 64 ->
  honest kP ms pkts -> nth_error ms (N.to_nat i) = Some x -> nth_error pkts (N.to_nat i) = Some p ->
  forgery kP ms pkts i aad body -> In (clamp (one_time_key E kP i)) (passes (aad_of x) (drop 3 p) aad body).
Proof.
  intros RT L1 L2 L3 L4 Ho X P (V & W).
  assert (T : forall b, len (tagged b) <= len b) by (intros b; unfold tagged; rewrite len_take; lia).
  pose proof (T (drop 3 p)) as T1. pose proof (T body) as T2.
  pose proof (sent_verifies E _ _ _ i x p Ho X P) as V'.
  destruct (verifies_parts _ _ _ _ _ RT V) as (Lt & U). destruct (verifies_parts _ _ _ _ _ RT V') as (Lt' & U').
  unfold passes. destruct (list_eq_dec _ _ _) as [Q|N].
  - exfalso. apply W. apply mac_input_inj in Q; [|lia..]. destruct Q as [Qa Qt].
    exists x, p. split; [exact X|]. split; [exact P|]. split; [exact Qa|].
    rewrite <- (take_drop (len (drop 3 p) - 16) (drop 3 p)), <- (take_drop (len body - 16) body).
    fold (tagged (drop 3 p)) (tagged body) (tag_in (drop 3 p)) (tag_in body). rewrite <- U, <- U'. now rewrite Qa, Qt.
  - apply in_both_fit; [exact Lt'|exact Lt|apply clamp_clamped, one_time_len| |]; rewrite clamp_same by apply one_time_len; assumption.
Qed.

(** For any packet that was sent, with its associated data, and anything else that is offered in its place: a small set of keys, which
    does not depend on the keys of the session, and nothing but an element of it lets the packet through. *)
Theorem C104_packets : forall sent_aad sent_body aad body,
  len sent_aad < 2 ^ 64 -> len sent_body < 2 ^ 64 -> len aad < 2 ^ 64 -> len body < 2 ^ 64 ->
  exists bad, len bad <= 8 * N.max (tag_blocks sent_aad (take (len sent_body - 16) sent_body)) (tag_blocks aad (take (len body - 16) body)) /\
    forall (E : Env) (EL : EnvLaws E) m r ms pkts out i x p, real_tags E -> send_all (outbound (session_new m r)) ms = Ret (pkts, out) -> len ms < 2 ^ 64 ->
      nth_error ms (N.to_nat i) = Some x -> nth_error pkts (N.to_nat i) = Some p -> aad_of x = sent_aad -> drop 3 p = sent_body ->
      forgery (send_packet_key m r) ms pkts i aad body ->
      In (clamp (one_time_key E (send_packet_key m r) i)) bad.
Proof.
  intros sa sb aad body L1 L2 L3 L4. exists (passes sa sb aad body). split; [apply passes_few|].
  intros E EL m r ms pkts out i x p RT S Lm X P A B F. subst sa sb.
  now apply (passes_all E _ ms pkts i x p aad body RT L1 L2 L3 L4 (sent_honest m r ms pkts out Lm S) X P).
Qed.
Print Assumptions C104_packets.

(** Any number of attempts at one packet. *)
Theorem C104_attempts : forall sent_aad sent_body attempts,
  len sent_aad < 2 ^ 64 -> len sent_body < 2 ^ 64 -> Forall (fun a => len (fst a) < 2 ^ 64 /\ len (snd a) < 2 ^ 64) attempts ->
  exists bad, len bad <= fold_right N.add 0 (map (fun a => 8 * N.max (tag_blocks sent_aad (take (len sent_body - 16) sent_body))
                                                              (tag_blocks (fst a) (take (len (snd a) - 16) (snd a)))) attempts) /\
    forall (E : Env) (EL : EnvLaws E) m r ms pkts out i x p a, real_tags E -> send_all (outbound (session_new m r)) ms = Ret (pkts, out) -> len ms < 2 ^ 64 ->
      nth_error ms (N.to_nat i) = Some x -> nth_error pkts (N.to_nat i) = Some p -> aad_of x = sent_aad -> drop 3 p = sent_body ->
      In a attempts -> forgery (send_packet_key m r) ms pkts i (fst a) (snd a) ->
      In (clamp (one_time_key E (send_packet_key m r) i)) bad.
Proof.
  intros sa sb l L1 L2. induction 1 as [|a l (La & Lb) _ (bad & Hb & IH)].
  - exists []. split; [rewrite len_nil; apply N.le_0_l|]. intros E EL m r ms pkts out i x p a _ _ _ _ _ _ _ [].
  - destruct (C104_packets sa sb (fst a) (snd a) L1 L2 La Lb) as (bad' & Hb' & H). exists (bad' ++ bad). split.
    + rewrite len_app. cbn [map fold_right]. apply N.add_le_mono; assumption.
    + intros E EL m r ms pkts out i x p a' RT S Lm X P A B I F. apply in_or_app. destruct I as [<-|I]; [left|right].
      * exact (H E EL m r ms pkts out i x p RT S Lm X P A B F).
      * exact (IH E EL m r ms pkts out i x p a' RT S Lm X P A B I F).
Qed.
Print Assumptions C104_attempts.

(** Reads of an established session, by either driver, over any transport: the receiver gets the beginning of what was sent, or the
    one-time key of a packet that it accepted is in a small set known before the keys are, or is one of 2^106 if nothing was ever
    sent under it. *)
Theorem C104_reads : exists (small : bytes -> bytes -> bytes -> list bytes) (guess : bytes -> list bytes),
  (forall aad body body', len (small aad body body') <= 8 * N.max (tag_blocks aad (take (len body - 16) body)) (tag_blocks [] (take (len body' - 16) body'))) /\
  (forall body', len (guess body') = 2 ^ 106) /\
  forall (E : Env) (EL : EnvLaws E) m r pre ms c0 pkts0 pkts out fl c sr n xs rd, real_tags E ->
  send_all (outbound (session_new m r)) pre = Ret (pkts0, c0) ->
  send_all c0 ms = Ret (pkts, out) -> len pre + len ms < 2 ^ 64 ->
  Forall (fun x => len (aad_of x) < 2 ^ 64) ms -> Forall (fun p => len p < 2 ^ 64) pkts -> len (session_content sr) < 2 ^ 64 ->
  packet_cipher c = packet_cipher c0 ->
  read_many n (established fl c sr) = Ret (xs, rd) ->
  let got := map seen (payloads_of xs) in
  got = firstn (length got) (map view ms) \/
  exists i body, len pre <= i < len pre + len got /\ occurs body (session_content sr) /\
    let key := clamp (one_time_key E (send_packet_key m r) i) in
    (exists x p, nth_error ms (N.to_nat (i - len pre)) = Some x /\ nth_error pkts (N.to_nat (i - len pre)) = Some p /\
       In key (small (aad_of x) (drop 3 p) body)) \/
    (len pre + len ms <= i /\ In key (guess body)).
Proof.
  exists (fun aad body body' => passes aad body [] body'), (fun body' => keys_for (mac_input [] (tagged body')) (tag_in body')).
  split; [intros; apply passes_few|]. split; [intros; apply keys_for_len|].
  intros E EL m r pre ms c0 pkts0 pkts out fl c sr n xs rd RT S0 S1 L La Lp Lw Hc H got.
  destruct (C65_reads E EL m r pre ms c0 pkts0 pkts out fl c sr n xs rd S0 S1 L Hc H) as [Q|(i & body & R & O & F)]; [now left|].
  right. exists i, body. split; [exact R|]. split; [exact O|].
  assert (len body < 2 ^ 64) as Lb.
  { destruct O as (b1 & b2 & O). apply (f_equal len) in O. rewrite !len_app in O. lia. }
  destruct (after_prefix _ _ _ _ _ _ _ _ S0 S1 L) as (Ho & _ & _).
  assert (Hl : len (pre ++ ms) = len pre + len ms) by apply len_app.
  destruct (N.lt_ge_cases i (len pre + len ms)) as [I|I].
  - left. destruct (nth_error (pre ++ ms) (N.to_nat i)) as [x|] eqn:X; [|exfalso; apply nth_error_None in X; unfold len in *; lia].
    destruct (proj2 Ho i x X) as (p & P & _). pose proof X as X'. pose proof P as P'.
    assert (length pkts0 = length pre) as L0 by exact (send_all_length _ _ _ _ S0).
    assert (N.to_nat (i - len pre) = N.to_nat i - length pre)%nat as D by (unfold len in *; lia).
    rewrite nth_error_app2 in X' by (unfold len in *; lia). rewrite nth_error_app2 in P' by (unfold len in *; lia). rewrite <- D in X'. rewrite L0, <- D in P'.
    exists x, p. split; [exact X'|]. split; [exact P'|].
    apply (passes_all E _ (pre ++ ms) (pkts0 ++ pkts) i x p [] body); [exact RT| | | |exact Lb|exact Ho|exact X|exact P|exact F].
    + exact (proj1 (Forall_forall _ _) La x (nth_error_In _ _ X')).
    + pose proof (proj1 (Forall_forall _ _) Lp p (nth_error_In _ _ P')) as Y. cbn beta in Y. rewrite len_drop. lia.
    + rewrite len_nil. lia.
  - right. split; [exact I|]. destruct F as (V & _). destruct (verifies_parts _ _ _ _ _ RT V) as (Lt & U).
    apply in_keys_for; [exact Lt|]. split; [apply clamp_clamped, one_time_len|]. rewrite clamp_same by apply one_time_len. exact U.
Qed.
Print Assumptions C104_reads.

(** Two endpoints with the real functions, and an attacker between them who passes their keys on and may do anything else with the
    bytes (C67): what one of them reads is the beginning of what the other one wrote, or the one-time key of a packet is in a small set. *)
Theorem C104_endpoints : exists (small : bytes -> bytes -> bytes -> bytes -> list bytes) (guess : bytes -> bytes -> list bytes),
  (forall aad body aad' body',
     len (small aad body aad' body') <= 8 * N.max (tag_blocks aad (take (len body - 16) body)) (tag_blocks aad' (take (len body' - 16) body'))) /\
  (forall aad' body', len (guess aad' body') = 2 ^ 106) /\
  forall chk enc magic r ska skb ga gb da db,
  let E := real chk enc in
  (forall sk, len (enc sk) = 64) -> len magic = 4 ->
  sk_in_range ska = true -> names_public_key (enc ska) ska = true ->
  sk_in_range skb = true -> names_public_key (enc skb) skb = true ->
  len (garbage_bytes ga) <= 4095 -> len (garbage_bytes gb) <= 4095 ->
  (chk = true -> len (decoy_list da) + 1 < 2 ^ 32 /\ len (decoy_list db) + 1 < 2 ^ 32) ->
  take 4 (enc ska) <> magic -> take 4 (enc skb) <> magic ->
  exists m,
    (let '(ski, skr) := in_order r ska skb in
     keys_from (bip_prk magic (bip_secret (enc ski) (enc skr) ski PartyA)) m) /\
    forall fla flb sa sb wa wb ra pa rb pb received reply,
      content sa = enc skb ++ received -> content sb = enc ska ++ reply ->
      connect fla magic r ska ga da sa wa = Ret (Ok (ra, pa)) ->
      connect flb magic (opp r) skb gb db sb wb = Ret (Ok (rb, pb)) ->
      forall pls ws pb', write_many flb pb pls = Ret (ws, pb') ->
      let sent := handshake_msgs (garbage_bytes gb) (decoy_list db) ++ wire_of pls in
      len sent < 2 ^ 64 -> len received < 2 ^ 64 ->
      exists pkts, send_all (outbound (session_new m (opp r))) sent = Ret (pkts, pw_cipher pb') /\
        (Forall (fun p => len p < 2 ^ 64) pkts ->
         forall xs, reads ra xs ->
          let got := map seen (payloads_of xs) in
          prefix_of got (map seen pls) \/
          exists i aad body, i < len (decoy_list db) + 1 + len got /\ occurs aad received /\ occurs body received /\
            let key := clamp (one_time_key E (send_packet_key m (opp r)) i) in
            (exists x p, nth_error sent (N.to_nat i) = Some x /\ nth_error pkts (N.to_nat i) = Some p /\
               In key (small (aad_of x) (drop 3 p) aad body)) \/
            (len sent <= i /\ In key (guess aad body))).
Proof.
  exists passes, (fun aad' body' => keys_for (mac_input aad' (tagged body')) (tag_in body')).
  split; [intros; apply passes_few|]. split; [intros; apply keys_for_len|].
  intros chk enc magic r ska skb ga gb da db E Le Hm Ra Na Rb Nb Hga Hgb Ho Ma Mb.
  destruct (C101_hypotheses chk enc Le) as (EL & _ & EA). fold E in EL, EA.
  assert (Z : forall sk, sk_in_range sk = true -> sk <> zeros 32) by (intros sk Rs ->; now vm_compute in Rs).
  assert (RT : real_tags E) by reflexivity.
  destruct (C67_plain E EL magic r ska skb ga gb da db EA Hm) as (m & KF & H); try assumption.
  { cbn [sk_valid E real]. now rewrite Ra, Na. }
  { cbn [sk_valid E real]. now rewrite Rb, Nb. }
  { intros _. split; now apply Z. }
  exists m. split; [exact KF|].
  intros fla flb sa sb wa wb ra pa rb pb received reply Ca Cb Xa Xb pls ws pb' W sent Ls Lr.
  destruct (H fla flb sa sb wa wb ra pa rb pb received reply Ca Cb Xa Xb pls ws pb' W Ls) as (pkts & S & R).
  exists pkts. split; [exact S|]. intros Lp xs Rd. destruct (R xs Rd) as [Q|(i & aad & body & I & Oa & Ob & F)]; [now left|].
  right. exists i, aad, body. split; [exact I|]. split; [exact Oa|]. split; [exact Ob|].
  assert (Lo : forall b, occurs b received -> len b < 2 ^ 64).
  { intros b (b1 & b2 & O). apply (f_equal len) in O. rewrite !len_app in O. lia. }
  assert (Hn : honest (send_packet_key m (opp r)) sent pkts) by exact (sent_honest _ _ _ _ _ Ls S).
  destruct (N.lt_ge_cases i (len sent)) as [X|X].
  - left. destruct (nth_error sent (N.to_nat i)) as [x|] eqn:Nx; [|exfalso; apply nth_error_None in Nx; unfold len in *; lia].
    destruct (proj2 Hn i x Nx) as (p & P & _). exists x, p. split; [reflexivity|]. split; [exact P|].
    apply (passes_all E _ sent pkts i x p aad body RT); [| |now apply Lo|now apply Lo|exact Hn|exact Nx|exact P|exact F].
    + assert (A : Forall (fun x => len (aad_of x) < 2 ^ 64) sent).
      { unfold sent. apply Forall_app. split.
        - unfold handshake_msgs. destruct (map (Msg Decoy None) (decoy_list db) ++ [Msg Genuine None []]) as [|y ys] eqn:Q; [constructor|].
          assert (Forall (fun x => m_aad x = None) (y :: ys)) as A0.
          { rewrite <- Q. apply Forall_app. split; [apply Forall_map, Forall_forall; reflexivity|repeat constructor]. }
          inversion A0 as [|y' ys' _ A1]; subst. constructor; [cbn; lia|].
          eapply Forall_impl; [|exact A1]. intros z Hz. unfold aad_of. rewrite Hz, len_nil. lia.
        - unfold wire_of. apply Forall_map, Forall_forall. intros z _. reflexivity. }
      exact (proj1 (Forall_forall _ _) A x (nth_error_In _ _ Nx)).
    + pose proof (proj1 (Forall_forall _ _) Lp p (nth_error_In _ _ P)) as Y. cbn beta in Y. rewrite len_drop. lia.
  - right. split; [exact X|]. destruct F as (V & _). destruct (verifies_parts _ _ _ _ _ RT V) as (Lt & T).
    apply in_keys_for; [exact Lt|]. split; [apply clamp_clamped, one_time_len|]. rewrite clamp_same by apply one_time_len. exact T.
Qed.
Print Assumptions C104_endpoints.

(** Not even Poly1305 excludes a forgery for every key: with r = 1 the order of the blocks does not matter, with r = 0 nothing does. *)
Theorem C104_one_message_per_tag_refuted :
  ~ forall key msg msg', clamped key -> poly1305 key msg = poly1305 key msg' -> msg = msg'.
Proof.
  intros H. specialize (H (zeros 32) [x01] [x02]). assert (clamped (zeros 32)) as C.
  { split; [reflexivity|]. intros i b L Q. do 16 (destruct i as [|i]; [injection Q as <-; reflexivity|]). lia. }
  specialize (H C eq_refl). discriminate H.
Qed.
Print Assumptions C104_one_message_per_tag_refuted.

Definition one_key : bytes := x01 :: zeros 15 ++ counting 7 16.
Definition other_key : bytes := x02 :: zeros 15 ++ counting 7 16.

Example C104_example :
  let a := counting 40 16 in let b := counting 90 16 in
  poly1305 one_key (a ++ b) = poly1305 one_key (b ++ a) /\ poly1305 other_key (a ++ b) <> poly1305 other_key (b ++ a) /\
  clamp one_key = one_key /\ clamp (repeat xff 32) <> repeat xff 32 /\
  poly1305 (repeat xff 32) a = poly1305 (clamp (repeat xff 32)) a /\ tag_blocks a (a ++ [x00]) = 4.
Proof. vm_compute. repeat split; discriminate. Qed.
Print Assumptions C104_example.
