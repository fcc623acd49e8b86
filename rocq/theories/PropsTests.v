(** * PropsTests: the project's own drivers of the library, for every key and message (C98) *)
From Coq Require Import List NArith Bool Lia.
From Coq.Strings Require Import Byte.
From Verif Require Import Base BaseFacts Env Toy FsChacha Cipher Histories CipherFacts CipherProofs Handshake Spec SpecHandshake
  HsDriver HandshakeProofs HsRunProofs IoRunProofs FuzzTargets PropsHandshake TestDrivers.
Import ListNotations.
Local Open Scope N_scope.

Section Drivers.
Context {E : Env} {EL : EnvLaws E}.

Lemma unwrap_ret {A} (x : result error A) a : unwrap x = Ret a <-> x = Ok a.
Proof. destruct x; cbn; split; intros H; congruence. Qed.

(** The steps are those of the drivers of HsDriver.v, a stop being a panic. *)
Lemma test_start_is magic r rnd h out : party_start magic r rnd None = Ret (Ok (h, out)) -> test_start magic r rnd = Ret (h, out).
Proof.
  unfold party_start, test_start. destruct (hs_new magic r rnd) as [[h0|e]| |]; cbn [bind unwrap]; try discriminate.
  destruct (send_key h0 None _) as [[[h1|e] o]| |]; cbn [bind unwrap]; congruence.
Qed.

Lemma test_key_is h key h' out : 64 <= len key -> party_key h (take 64 key) None = Ret (Ok (h', out)) -> test_key h key = Ret (h', out).
Proof.
  intros L. unfold party_key, test_key. rewrite slice_ok by lia. change (64 - 0) with 64. rewrite drop_0. cbn [bind].
  destruct (receive_key h (take 64 key)) as [[h0|e]| |]; cbn [bind unwrap]; try discriminate.
  destruct (send_version h0 _ None) as [[[h1|e] o]| |]; cbn [bind unwrap]; congruence.
Qed.

Lemma client_versions_is fuel : forall h wire,
  client_versions fuel h wire =
  match party_versions fuel h wire with Ret (Ok c, _) => Ret c | NoFuel => NoFuel | _ => Panic end.
Proof.
  induction fuel as [|fuel IH]; intros h wire; [reflexivity|]. cbn [client_versions party_versions].
  change NUM_LENGTH_BYTES with 3. destruct (N.ltb_spec (len wire) 3) as [L|L]; [reflexivity|].
  rewrite slice_ok by lia. change (3 - 0) with 3. rewrite drop_0. cbn [bind].
  destruct (hs_decrypt_packet_len h (take 3 wire)) as [[n h1]| |]; cbn [bind]; [|reflexivity..].
  rewrite len_drop. destruct (N.ltb_spec (len wire) (3 + n)) as [Ln|Ln], (N.ltb_spec (len wire - 3) n) as [Ln'|Ln']; try lia; [reflexivity|].
  rewrite slice_ok by lia. replace (3 + n - 3) with n by lia. cbn [bind].
  destruct (receive_version h1 (take n (drop 3 wire))) as [[[[c|h2]|e] b]| |]; cbn [bind unwrap]; [reflexivity| |reflexivity..].
  rewrite IH, drop_drop. reflexivity.
Qed.

Lemma client_finish_is h wire :
  client_finish h wire = match party_finish h wire with Ret (Ok c, _) => Ret c | NoFuel => NoFuel | _ => Panic end.
Proof.
  unfold client_finish, party_finish. destruct (receive_garbage h wire) as [[[h1 n|h1]|e]| |]; cbn [bind unwrap]; try reflexivity.
  apply client_versions_is.
Qed.

Lemma versions_len fuel h wire c rest : party_versions fuel h wire = Ret (Ok c, rest) -> 20 <= len wire.
Proof.
  destruct fuel as [|fuel]; [discriminate|]. intros H. destruct (versions_inv _ _ _ _ _ H) as (p & ic & rest' & Q).
  apply recv_one_len in Q. lia.
Qed.

(** With less than two packets behind the terminator, one packet is what completed the handshake. *)
Lemma test_finish_is h wire c n h1 :
  receive_garbage h wire = Ret (Ok (FoundGarbage h1 n)) -> n <= len wire -> len wire < n + 40 ->
  party_finish h wire = Ret (Ok c, []) -> test_finish h wire = Ret c.
Proof.
  intros G Ln L40. unfold party_finish, test_finish. rewrite G. cbn [bind unwrap]. rewrite slice_ok by lia.
  rewrite (take_all _ (drop n wire)) by (rewrite len_drop; lia). cbn [bind].
  intros H. pose proof (versions_len _ _ _ _ _ H) as L20. set (w := drop n wire) in *.
  assert (Lw : len w < 40) by (unfold w; rewrite len_drop; lia).
  cbn [party_versions] in H. change NUM_LENGTH_BYTES with 3.
  destruct (N.ltb_spec (len w) 3) as [L3|L3]; [discriminate|].
  rewrite slice_ok by lia. change (3 - 0) with 3. rewrite drop_0. cbn [bind].
  destruct (hs_decrypt_packet_len h1 (take 3 w)) as [[k h2]| |] eqn:D; cbn [bind] in *; [|discriminate..].
  rewrite len_drop in H. destruct (N.ltb_spec (len w - 3) k) as [Lk|Lk]; [discriminate|].
  rewrite slice_ok by lia. replace (3 + k - 3) with k by lia. cbn [bind].
  destruct (receive_version h2 (take k (drop 3 w))) as [[[[c1|h3]|e] b]| |] eqn:V; cbn [bind unwrap] in *; try discriminate; [congruence|].
  exfalso. apply versions_len in H. rewrite !len_drop in H.
  assert (17 <= k); [|lia].
  unfold hs_decrypt_packet_len in D. apply bind_ret_inv in D. destruct D as ([k' ic] & D & Q). injection Q as <- _.
  apply packet_len_range in D; [lia|]. rewrite len_take. lia.
Qed.

Lemma decrypt_buf_len c ct buf aad t c' b : decrypt c ct buf aad = Ret (Ok t, c', b) -> 1 <= len b.
Proof.
  intros H. destruct (N.lt_ge_cases (len ct) 17) as [L|L]; [rewrite decrypt_small in H by exact L; discriminate|].
  destruct (split_tag ct L) as (m & tg & -> & L1 & L2 & L3).
  destruct (N.lt_ge_cases (len buf) (len m)); [rewrite decrypt_buffer_small in H by assumption; discriminate|].
  rewrite decrypt_closed in H by assumption. apply bind_ret_inv in H. destruct H as ([[q|] pc] & Hd & H); [|discriminate].
  injection H as _ _ <-. rewrite len_app, len_drop.
  apply fp_decrypt_some in Hd. destruct Hd as (_ & Hpt & _).
  assert (len q = len m) by (subst q; now rewrite len_xor_with). lia.
Qed.

(** One message between two ciphers in step. *)
Lemma exchange_ok whole c k m : len m < 2 ^ 24 -> counted k c -> room k ->
  exists c', exchange whole c c m = Ret (m, c', c') /\ counted (k + 1) c'.
Proof.
  intros Lm Ck Rk. destruct (encrypt_vec_ret k c m Genuine None Ck Rk) as (p & c' & En & Ck').
  exists c'. split; [|exact Ck'].
  pose proof (encrypt_vec_len _ _ _ _ _ _ En) as Lp. pose proof (recv_one_sent _ _ _ _ _ _ [] Lm En) as Rc. rewrite app_nil_r in Rc.
  unfold exchange. unfold encrypt_to_vec in En. destruct (encrypt c m _ Genuine None) as [[[[u|e] c1] buf]| |]; cbn [bind] in En; try discriminate.
  injection En as -> ->. cbn [bind unwrap]. change NUM_LENGTH_BYTES with 3. rewrite slice_ok by lia. change (3 - 0) with 3. rewrite drop_0. cbn [bind].
  unfold recv_one in Rc. destruct (N.ltb_spec (len p) 3) as [L3|L3]; [lia|].
  destruct (decrypt_packet_len c (take 3 p)) as [[n c1]| |] eqn:D; cbn [bind] in *; try discriminate.
  assert (17 <= n). { apply packet_len_range in D; [lia|]. rewrite len_take. lia. }
  rewrite len_drop in Rc. destruct (N.ltb_spec (len p - 3) n) as [Ln|Ln]; [discriminate|].
  assert (decryption_buffer_len n = Ret (n - 16)) as ->.
  { unfold decryption_buffer_len, sub_w. change NUM_TAG_BYTES with 16. destruct (16 <=? n) eqn:Q; [|apply N.leb_gt in Q; lia]. reflexivity. }
  cbn [bind].
  destruct (decrypt c1 (take n (drop 3 p)) (zeros (n - 16)) None) as [[[[t|e] c2] b]| |] eqn:Dc; cbn [bind] in Rc; try discriminate.
  assert (Rest : drop n (drop 3 p) = []) by congruence. assert (c2 = c') by congruence. assert (Hm : drop 1 b = m) by congruence. subst c2.
  assert (Lr : len p = 3 + n). { apply (f_equal len) in Rest. rewrite !len_drop in Rest. cbn in Rest. lia. }
  assert (slice p 3 (if whole then len p else 3 + n) = Ret (take n (drop 3 p))) as ->.
  { rewrite slice_ok by (destruct whole; lia). f_equal. f_equal. destruct whole; lia. }
  cbn [bind]. rewrite Dc. cbn [bind unwrap]. 
  pose proof (decrypt_buf_len _ _ _ _ _ _ _ Dc) as Lb.
  rewrite slice_ok by lia. rewrite take_all by (rewrite len_drop; lia). cbn [bind]. rewrite Hm. reflexivity.
Qed.
Lemma bench_ok : forall ms c k, Forall (fun m => len m < 2 ^ 24) ms -> counted k c ->
  (overflow_checks = true -> k + len ms < 2 ^ 32) -> bench_iter c c ms = Ret ms.
Proof.
  induction ms as [|m ms IH]; intros c k F Ck R; [reflexivity|]. cbn [bench_iter]. rewrite len_cons in R.
  inversion F as [|m0 ms0 Fm Fs]; subst.
  destruct (exchange_ok false c k m Fm Ck) as (c' & -> & Ck').
  { intros O. specialize (R O). lia. }
  cbn [bind]. rewrite (IH c' (k + 1) Fs Ck'); [reflexivity|]. intros O. specialize (R O). lia.
Qed.

(** More bytes behind a completed handshake change nothing. *)
Lemma finish_frame h w c rest more : len (remote_garbage_terminator (hs_state h)) = 16 ->
  party_finish h w = Ret (Ok c, rest) -> party_finish h (w ++ more) = Ret (Ok c, rest ++ more).
Proof.
  intros Ht. unfold party_finish.
  destruct (receive_garbage_cases h w Ht) as [(i & Hi & F & G)|[(_ & _ & G)|(_ & _ & G)]]; rewrite G; cbn [bind found]; try discriminate.
  rewrite (receive_garbage_found h _ i Ht Hi (first_at_app _ _ more _ F)). cbn [bind found].
  assert (L : i + 16 <= len w) by (destruct F as [[O _] _]; lia).
  rewrite drop_app_le, take_app_le by lia. intros H. apply versions_iff in H.
  2:{ unfold drop. rewrite skipn_length. lia. }
  destruct H as (ds & x & ic & Fd & R & ->). apply versions_iff.
  { rewrite !app_length. unfold drop. rewrite skipn_length. lia. }
  exists ds, x, ic. repeat split; try assumption. apply recv_all_frame. exact R.
Qed.

Lemma first_at_0 t : len t = 16 -> first_at t ([] ++ t) 0.
Proof.
  intros L. split; [|intros j Hj; lia]. split; [cbn [app]; lia|]. cbn [app]. rewrite drop_0. apply take_all. lia.
Qed.

Lemma one_version c ps oc : send_all c (version_msgs None []) = Ret (ps, oc) -> len (List.concat ps) = 20.
Proof.
  cbn [version_msgs send_all m_contents m_type m_aad]. intros H. apply bind_ret_inv in H. destruct H as ([p c1] & En & H). cbn [bind] in H.
  assert (ps = [p]) as -> by congruence. cbn [List.concat]. rewrite app_nil_r. apply encrypt_vec_len in En. rewrite En. reflexivity.
Qed.

Lemma some_version c g ds ps oc : send_all c (version_msgs g ds) = Ret (ps, oc) -> 20 <= len (List.concat ps).
Proof.
  destruct ds as [|d ds]; cbn [version_msgs send_all m_contents m_type m_aad]; intros H;
    apply bind_ret_inv in H; destruct H as ([p c1] & En & H); apply bind_ret_inv in H; destruct H as ([ps1 c2] & _ & H);
    assert (ps = p :: ps1) as -> by congruence; cbn [List.concat]; rewrite len_app; apply encrypt_vec_len in En; lia.
Qed.

Lemma one_counted m r ps oc : send_all (outbound (session_new m r)) (version_msgs None []) = Ret (ps, oc) -> counted 1 oc.
Proof.
  intros H. destruct (session_counted m r) as [_ SC].
  destruct (send_all_ret (version_msgs None []) 0 _ SC) as (ps' & oc' & H' & C').
  { intros _. reflexivity. }
  assert (oc' = oc) by congruence. subst. exact C'.
Qed.

Lemma pair_ok magic rnd_a rnd_b : EcdhAgrees E -> len magic = 4 ->
  sk_valid rnd_a = true -> sk_valid rnd_b = true ->
  (debug_assertions = true -> rnd_a <> zeros 32 /\ rnd_b <> zeros 32) ->
  take 4 (ellswift_of rnd_a) <> magic -> take 4 (ellswift_of rnd_b) <> magic ->
  exists m alice bob,
    keys_from (bip_prk magic (bip_secret (ellswift_of rnd_a) (ellswift_of rnd_b) rnd_a PartyA)) m /\
    session_pair magic rnd_a rnd_b = Ret (alice, bob) /\
    id alice = session_id m /\ id bob = session_id m /\
    outbound alice = inbound bob /\ outbound bob = inbound alice /\
    counted 1 (outbound alice) /\ counted 1 (outbound bob).
Proof.
  intros EA Hm Va Vb Hz Ma Mb.
  assert (Hs1 := start_ok magic Initiator rnd_a None Va (fun H => proj1 (Hz H)) ltac:(cbn; lia)).
  assert (Hs2 := start_ok magic Responder rnd_b None Vb (fun H => proj2 (Hz H)) ltac:(cbn; lia)).
  assert (Z1 : overflow_checks = true -> len (decoy_list None) + 1 < 2 ^ 32) by (intros _; reflexivity).
  destruct (key_ok magic Initiator (EcdhPoint rnd_a (ellswift_of rnd_a)) None (ellswift_of rnd_b) None Hm (ellswift_len _) Mb Z1)
    as (m & psa & oca & KFa & Sa & Ka).
  destruct (key_ok magic Responder (EcdhPoint rnd_b (ellswift_of rnd_b)) None (ellswift_of rnd_a) None Hm (ellswift_len _) Ma Z1)
    as (m2 & psb & ocb & KFb & Sb & Kb).
  cbn [in_order elligator_swift secret_key party_of decoy_list] in *.
  unfold bip_secret in KFb. rewrite <- (EA rnd_a rnd_b Va Vb) in KFb.
  rewrite (keys_from_unique _ _ _ KFb KFa) in *. clear KFb m2.
  assert (FF : forall sk, bip_first_flight sk (garbage_bytes None) = ellswift_of sk) by (intros; apply app_nil_r).
  rewrite FF in Hs1, Hs2.
  assert (K64 : forall sk, take 64 (ellswift_of sk) = ellswift_of sk) by (intros; apply take_all; rewrite ellswift_len; lia).
  eexists m, _, _. split; [exact KFa|]. split.
  - unfold session_pair. rewrite (test_start_is _ _ _ _ _ Hs1). cbn [bind]. rewrite (test_start_is _ _ _ _ _ Hs2). cbn [bind].
    rewrite (test_key_is _ (ellswift_of rnd_b) _ _ ltac:(rewrite ellswift_len; lia) ltac:(rewrite K64; exact Ka)). cbn [bind].
    rewrite (test_key_is _ (ellswift_of rnd_a) _ _ ltac:(rewrite ellswift_len; lia) ltac:(rewrite K64; exact Kb)). cbn [bind].
    erewrite test_finish_is.
    2:{ apply (receive_garbage_found _ _ 0); cbn [hs_state remote_garbage_terminator opp]; [exact (terminator_len _ m Responder KFa)|lia|].
        apply first_at_app, (first_at_0 (terminator m Responder)). exact (terminator_len _ m Responder KFa). }
    2:{ rewrite len_app, (terminator_len _ m Responder KFa). lia. }
    2:{ rewrite len_app, (terminator_len _ m Responder KFa), (one_version _ _ _ Sb). lia. }
    2:{ match goal with |- party_finish ?h _ = _ => pose proof (finish_ok h None [] psb ocb []) as Q end.
        cbn [garbage_bytes app hs_state remote_garbage_terminator opp sv_cipher inbound id outbound] in Q. rewrite app_nil_r in Q.
        apply Q; [exact (terminator_len _ m Responder KFa)|cbn; lia|constructor|apply (first_at_0 (terminator m Responder)); exact (terminator_len _ m Responder KFa)|].
        exact Sb. }
    cbn [bind]. erewrite test_finish_is.
    2:{ apply (receive_garbage_found _ _ 0); cbn [hs_state remote_garbage_terminator opp]; [exact (terminator_len _ m Initiator KFa)|lia|].
        apply first_at_app, (first_at_0 (terminator m Initiator)). exact (terminator_len _ m Initiator KFa). }
    2:{ rewrite len_app, (terminator_len _ m Initiator KFa). lia. }
    2:{ rewrite len_app, (terminator_len _ m Initiator KFa), (one_version _ _ _ Sa). lia. }
    2:{ match goal with |- party_finish ?h _ = _ => pose proof (finish_ok h None [] psa oca []) as Q end.
        cbn [garbage_bytes app hs_state remote_garbage_terminator opp sv_cipher inbound id outbound] in Q. rewrite app_nil_r in Q.
        apply Q; [exact (terminator_len _ m Initiator KFa)|cbn; lia|constructor|apply (first_at_0 (terminator m Initiator)); exact (terminator_len _ m Initiator KFa)|].
        exact Sa. }
    cbn [bind]. reflexivity.
  - cbn [id outbound inbound]. do 4 (split; [reflexivity|]). split; [exact (one_counted _ _ _ _ Sa)|exact (one_counted _ _ _ _ Sb)].
Qed.

(** An encoding that begins with the magic is taken for the old protocol. *)
Lemma test_key_magic h key : len key = 64 -> len (hs_magic h) = 4 -> take 4 key = hs_magic h -> test_key h key = Panic.
Proof.
  intros L Lm M. unfold test_key. rewrite slice_ok by lia. change (64 - 0) with 64. rewrite drop_0, take_all by lia. cbn [bind].
  rewrite (proj2 (proj1 (receive_key_v1 h key L Lm)) M). reflexivity.
Qed.

Lemma pair_magic magic rnd_a rnd_b : len magic = 4 ->
  sk_valid rnd_a = true -> sk_valid rnd_b = true ->
  (debug_assertions = true -> rnd_a <> zeros 32 /\ rnd_b <> zeros 32) ->
  take 4 (ellswift_of rnd_a) = magic \/ take 4 (ellswift_of rnd_b) = magic -> session_pair magic rnd_a rnd_b = Panic.
Proof.
  intros Hm Va Vb Hz M.
  assert (Hs1 := start_ok magic Initiator rnd_a None Va (fun H => proj1 (Hz H)) ltac:(cbn; lia)).
  assert (Hs2 := start_ok magic Responder rnd_b None Vb (fun H => proj2 (Hz H)) ltac:(cbn; lia)).
  assert (FF : forall sk, bip_first_flight sk (garbage_bytes None) = ellswift_of sk) by (intros; apply app_nil_r).
  rewrite FF in Hs1, Hs2.
  unfold session_pair. rewrite (test_start_is _ _ _ _ _ Hs1). cbn [bind]. rewrite (test_start_is _ _ _ _ _ Hs2). cbn [bind].
  destruct (bytes_eqb (take 4 (ellswift_of rnd_b)) magic) eqn:B.
  - apply bytes_eqb_spec in B. rewrite test_key_magic; [reflexivity|apply ellswift_len|exact Hm|exact B].
  - apply bytes_eqb_neq in B. destruct M as [M|M]; [|contradiction].
    destruct (key_ok magic Initiator (EcdhPoint rnd_a (ellswift_of rnd_a)) None (ellswift_of rnd_b) None Hm (ellswift_len _) B
                ltac:(intros _; reflexivity)) as (m & psa & oca & _ & _ & Ka).
    erewrite test_key_is; [|rewrite ellswift_len; lia|rewrite take_all by (rewrite ellswift_len; lia); exact Ka]. cbn [bind].
    rewrite test_key_magic; [reflexivity|apply ellswift_len|exact Hm|exact M].
Qed.

(** The client of [regtest_handshake] against an honest peer with any garbage and decoys. *)
Lemma client_ok magic ska skb gb db : EcdhAgrees E -> len magic = 4 ->
  sk_valid ska = true -> sk_valid skb = true ->
  (debug_assertions = true -> ska <> zeros 32 /\ skb <> zeros 32) ->
  len (garbage_bytes gb) <= 4095 -> Forall (fun d => len d < 2 ^ 24) (decoy_list db) ->
  (overflow_checks = true -> len (decoy_list db) + 1 < 2 ^ 32) ->
  take 4 (ellswift_of ska) <> magic -> take 4 (ellswift_of skb) <> magic ->
  exists ha fa hb fb ha' wa hb' wb m,
    test_start magic Initiator ska = Ret (ha, fa) /\ party_start magic Responder skb gb = Ret (Ok (hb, fb)) /\
    test_key ha (take 64 fb) = Ret (ha', wa) /\ party_key hb fa db = Ret (Ok (hb', wb)) /\
    keys_from (bip_prk magic (bip_secret (ellswift_of ska) (ellswift_of skb) ska PartyA)) m /\
    drop 64 fb = garbage_bytes gb /\ 36 <= len wb /\
    (first_at (responder_garbage_terminator m)
       (garbage_bytes gb ++ responder_garbage_terminator m) (len (garbage_bytes gb)) ->
     exists ca cb,
       party_finish hb' wa = Ret (Ok cb, []) /\
       id ca = session_id m /\ id cb = session_id m /\ outbound ca = inbound cb /\ outbound cb = inbound ca /\
       forall n later, n <= 4096 ->
         client_finish ha' (take n (drop 64 fb ++ wb ++ later)) =
         if len (drop 64 fb ++ wb) <=? n then Ret ca else Panic).
Proof.
  intros EA Hm Va Vb Hz Hgb Hdb Ho Ma Mb.
  destruct (honest_handshake magic ska skb None gb None db [] [] EA Hm Va Vb Hz ltac:(cbn; lia) Hgb ltac:(constructor) Hdb
              ltac:(intros O; split; [reflexivity|exact (Ho O)]) Ma Mb)
    as (ha & fa & hb & fb & ha' & wa & hb' & wb & m & Sa & Sb & Ka & Kb & KF & Fin).
  exists ha, fa, hb, fb, ha', wa, hb', wb, m.
  assert (Lfb : 64 <= len fb).
  { assert (Q := start_ok magic Responder skb gb Vb (fun H => proj2 (Hz H)) Hgb). rewrite Q in Sb.
    assert (fb = bip_first_flight skb (garbage_bytes gb)) as -> by congruence. unfold bip_first_flight. rewrite len_app, ellswift_len. lia. }
  assert (Qa := start_ok magic Initiator ska None Va (fun H => proj1 (Hz H)) ltac:(cbn; lia)). rewrite Qa in Sa.
  assert (fa = ellswift_of ska) as Efa. { unfold bip_first_flight in Sa. cbn [garbage_bytes] in Sa. rewrite app_nil_r in Sa. congruence. }
  split; [exact (test_start_is _ _ _ _ _ (eq_trans Qa Sa))|]. split; [exact Sb|].
  split. { apply test_key_is; [rewrite len_take; lia|]. rewrite take_take. replace (N.min 64 64) with 64 by lia. exact Ka. }
  split. { rewrite take_all in Kb by (rewrite Efa, ellswift_len; lia). exact Kb. }
  split; [exact KF|].
  split. { rewrite (start_ok magic Responder skb gb Vb (fun H => proj2 (Hz H)) Hgb) in Sb.
    assert (fb = bip_first_flight skb (garbage_bytes gb)) as -> by congruence. apply drop_app_exact. now rewrite ellswift_len. }
  split.
  { rewrite (start_ok magic Responder skb gb Vb (fun H => proj2 (Hz H)) Hgb) in Sb.
    assert (hb = Handshake magic Responder (SentKey (EcdhPoint skb (ellswift_of skb)) gb)) as -> by congruence.
    rewrite take_all in Kb by (rewrite Efa, ellswift_len; lia).
    destruct (key_ok magic Responder (EcdhPoint skb (ellswift_of skb)) gb fa db Hm ltac:(rewrite Efa; apply ellswift_len)
                ltac:(rewrite Efa; exact Ma) Ho) as (m2 & ps & oc & KF2 & S2 & K2).
    assert (wb = terminator m2 Responder ++ List.concat ps) as -> by congruence.
    rewrite len_app. cbn [in_order elligator_swift secret_key] in KF2. rewrite (terminator_len _ _ Responder KF2).
    pose proof (some_version _ _ _ _ _ S2). lia. }
  intros F.
  destruct (Fin (first_at_0 _ (terminator_len _ m Initiator KF)) F) as (ca & cb & Fa & Fb & I1 & I2 & O1 & O2).
  exists ca, cb. rewrite (drop_all 64 fa) in Fb by (rewrite Efa, ellswift_len; lia). cbn [app] in Fb. rewrite app_nil_r in Fb.
  repeat (split; [assumption|]). intros n later Hn.
  assert (T16 : len (remote_garbage_terminator (hs_state ha')) = 16 /\ counted 0 (inbound (sv_cipher (hs_state ha')))).
  { assert (Z1 : overflow_checks = true -> len (decoy_list None) + 1 < 2 ^ 32) by (intros _; reflexivity).
    assert (T64 : take 64 fb = ellswift_of skb).
    { rewrite (start_ok magic Responder skb gb Vb (fun H => proj2 (Hz H)) Hgb) in Sb.
      assert (fb = bip_first_flight skb (garbage_bytes gb)) as -> by congruence. apply take_app_exact. now rewrite ellswift_len. }
    destruct (key_ok magic Initiator (EcdhPoint ska (ellswift_of ska)) None (ellswift_of skb) None Hm (ellswift_len _) Mb Z1)
      as (m2 & ps & oc & KF2 & S2 & K2).
    assert (ha = Handshake magic Initiator (SentKey (EcdhPoint ska (ellswift_of ska)) None)) as -> by congruence.
    rewrite T64, K2 in Ka.
    assert (ha' = Handshake magic Initiator
        (SentVersion (CipherSession (session_id m2) (inbound (session_new m2 Initiator)) oc) (terminator m2 (opp Initiator)))) as -> by congruence.
    cbn [hs_state remote_garbage_terminator sv_cipher inbound]. split; [exact (terminator_len _ m2 _ KF2)|].
    apply (proj1 (session_counted m2 Initiator)). }
  destruct T16 as [T16 C0].
  rewrite app_nil_r in Fa. rewrite client_finish_is. rewrite app_assoc. set (flight := drop 64 fb ++ wb) in *.
  destruct (N.leb_spec (len flight) n) as [L|L].
  - rewrite take_app_ge by exact L. rewrite (finish_frame _ _ _ _ _ T16 Fa). reflexivity.
  - rewrite take_app_le by lia.
    assert (R : exists r rest, party_finish ha' (take n flight) = Ret (r, rest)).
    { unfold party_finish. destruct (receive_garbage_cases ha' (take n flight) T16) as [(i & Hi & Fi & G)|[(_ & _ & G)|(_ & _ & G)]];
        rewrite G; cbn [bind found]; eauto.
      apply (versions_ret _ _ _ 0).
      - unfold drop. rewrite skipn_length. lia.
      - exact C0.
      - intros _. rewrite len_drop, len_take. change (2 ^ 32) with 4294967296. lia. }
    destruct R as ([c|e] & rest & R); rewrite R; [|reflexivity]. exfalso.
    pose proof (finish_frame _ _ _ _ (drop n flight) T16 R) as Q. rewrite take_drop in Q. rewrite Fa in Q.
    assert (rest ++ drop n flight = []) as K by congruence. apply (f_equal len) in K. rewrite len_app, len_drop, len_nil in K. lia.
Qed.
End Drivers.

(** ** C98 *)
Theorem C98_pair : forall (E : Env) (EL : EnvLaws E) magic rnd_a rnd_b, EcdhAgrees E -> len magic = 4 ->
  sk_valid rnd_a = true -> sk_valid rnd_b = true ->
  (debug_assertions = true -> rnd_a <> zeros 32 /\ rnd_b <> zeros 32) ->
  take 4 (ellswift_of rnd_a) <> magic -> take 4 (ellswift_of rnd_b) <> magic ->
  exists m alice bob,
    keys_from (bip_prk magic (bip_secret (ellswift_of rnd_a) (ellswift_of rnd_b) rnd_a PartyA)) m /\
    session_pair magic rnd_a rnd_b = Ret (alice, bob) /\
    id alice = session_id m /\ id bob = session_id m /\
    outbound alice = inbound bob /\ outbound bob = inbound alice.
Proof.
  intros E EL magic rnd_a rnd_b EA Hm Va Vb Hz Ma Mb.
  destruct (pair_ok magic rnd_a rnd_b EA Hm Va Vb Hz Ma Mb) as (m & a & b & KF & P & I1 & I2 & O1 & O2 & _).
  exists m, a, b. auto 10.
Qed.
Print Assumptions C98_pair.

Theorem C98_hello_world : forall (E : Env) (EL : EnvLaws E) magic rnd_a rnd_b hello goodbye, EcdhAgrees E -> len magic = 4 ->
  sk_valid rnd_a = true -> sk_valid rnd_b = true ->
  (debug_assertions = true -> rnd_a <> zeros 32 /\ rnd_b <> zeros 32) ->
  take 4 (ellswift_of rnd_a) <> magic -> take 4 (ellswift_of rnd_b) <> magic ->
  len hello < 2 ^ 24 -> len goodbye < 2 ^ 24 ->
  hello_world magic rnd_a rnd_b hello goodbye = Ret tt.
Proof.
  intros E EL magic rnd_a rnd_b hello goodbye EA Hm Va Vb Hz Ma Mb Lh Lg.
  destruct (pair_ok magic rnd_a rnd_b EA Hm Va Vb Hz Ma Mb) as (m & a & b & KF & P & I1 & I2 & O1 & O2 & Ca & Cb).
  unfold hello_world. rewrite P. cbn [bind].
  rewrite <- O2. destruct (exchange_ok true (outbound b) 1 hello Lh Cb) as (c1 & -> & _); [intros _; reflexivity|]. cbn [bind].
  rewrite bytes_eqb_refl. cbn [negb].
  rewrite <- O1. destruct (exchange_ok true (outbound a) 1 goodbye Lg Ca) as (c2 & -> & _); [intros _; reflexivity|]. cbn [bind].
  rewrite bytes_eqb_refl. reflexivity.
Qed.
Print Assumptions C98_hello_world.

Theorem C98_bench : forall (E : Env) (EL : EnvLaws E) magic rnd_a rnd_b messages, EcdhAgrees E -> len magic = 4 ->
  sk_valid rnd_a = true -> sk_valid rnd_b = true ->
  (debug_assertions = true -> rnd_a <> zeros 32 /\ rnd_b <> zeros 32) ->
  take 4 (ellswift_of rnd_a) <> magic -> take 4 (ellswift_of rnd_b) <> magic ->
  Forall (fun m => len m < 2 ^ 24) messages -> (overflow_checks = true -> len messages + 1 < 2 ^ 32) ->
  exists alice bob, session_pair magic rnd_a rnd_b = Ret (alice, bob) /\
    bench_iter (outbound alice) (inbound bob) messages = Ret messages.
Proof.
  intros E EL magic rnd_a rnd_b messages EA Hm Va Vb Hz Ma Mb F R.
  destruct (pair_ok magic rnd_a rnd_b EA Hm Va Vb Hz Ma Mb) as (m & a & b & KF & P & I1 & I2 & O1 & O2 & Ca & Cb).
  exists a, b. split; [exact P|]. rewrite <- O1. apply (bench_ok _ _ 1 F Ca). intros O. specialize (R O). lia.
Qed.
Print Assumptions C98_bench.

(** Between any two ciphers, also ones that do not belong together: what the bench counts as received is what the receiver got out of
    the sender's packets, one after the other. *)
Theorem C98_bench_received : forall (E : Env) (EL : EnvLaws E) from to m messages gots,
  bench_iter from to (m :: messages) = Ret gots ->
  exists p from' t got to' rest gots', encrypt_to_vec from m Genuine None = Ret (p, from') /\
    recv_one to None p = Ret (Some (t, got), to', rest) /\
    bench_iter from' to' messages = Ret gots' /\ gots = got :: gots'.
Proof.
  intros E EL from to m messages gots H. cbn [bench_iter] in H. apply bind_ret_inv in H. destruct H as ([[got from'] to'] & X & H).
  apply bind_ret_inv in H. destruct H as (gots' & B & H). injection H as <-.
  assert (A : exists p t rest, encrypt_to_vec from m Genuine None = Ret (p, from') /\ recv_one to None p = Ret (Some (t, got), to', rest)).
  { unfold exchange in X. apply bind_ret_inv in X. destruct X as ([[x f1] p] & En & X). destruct x as [[]|e]; cbn [unwrap bind] in X; [|discriminate].
    assert (Ev : encrypt_to_vec from m Genuine None = Ret (p, f1)) by (unfold encrypt_to_vec; cbn zeta; rewrite En; reflexivity).
    change NUM_LENGTH_BYTES with 3 in X. pose proof (encrypt_vec_len _ _ _ _ _ _ Ev) as Lp. rewrite slice_ok in X by lia.
    change (3 - 0) with 3 in X. rewrite drop_0 in X. cbn [bind] in X.
    apply bind_ret_inv in X. destruct X as ([n t1] & D & X).
    assert (17 <= n). { pose proof D as D'. apply packet_len_range in D'; [lia|]. rewrite len_take. lia. }
    assert (decryption_buffer_len n = Ret (n - 16)) as Q.
    { unfold decryption_buffer_len. apply sub_w_ok. change NUM_TAG_BYTES with 16. lia. }
    rewrite Q in X. cbn [bind] in X. apply bind_ret_inv in X. destruct X as (body & Sl & X).
    unfold slice in Sl. destruct (N.leb_spec 3 (3 + n)); [|discriminate]. destruct (N.leb_spec (3 + n) (len p)) as [Ln|]; [|discriminate].
    cbn [andb] in Sl. assert (body = take n (drop 3 p)) as -> by (replace n with (3 + n - 3) at 1 by lia; congruence). clear Sl.
    apply bind_ret_inv in X. destruct X as ([[x t2] b] & Dc & X). destruct x as [t|e]; cbn [unwrap bind] in X; [|discriminate].
    pose proof (decrypt_buf_len _ _ _ _ _ _ _ Dc) as Lb.
    rewrite slice_ok in X by lia. rewrite take_all in X by (rewrite len_drop; lia). cbn [bind] in X. injection X as <- <- <-.
    exists p, t, (drop n (drop 3 p)). split; [exact Ev|]. unfold recv_one.
    destruct (N.ltb_spec (len p) 3); [lia|]. rewrite D. cbn [bind]. cbn zeta. rewrite len_drop.
    destruct (N.ltb_spec (len p - 3) n); [lia|]. rewrite Dc. reflexivity. }
  destruct A as (p & t & rest & A1 & A2). exists p, from', t, got, to', rest, gots'. auto.
Qed.
Print Assumptions C98_bench_received.

Theorem C98_client : forall (E : Env) (EL : EnvLaws E) magic ska skb gb db, EcdhAgrees E -> len magic = 4 ->
  sk_valid ska = true -> sk_valid skb = true ->
  (debug_assertions = true -> ska <> zeros 32 /\ skb <> zeros 32) ->
  len (garbage_bytes gb) <= 4095 -> Forall (fun d => len d < 2 ^ 24) (decoy_list db) ->
  (overflow_checks = true -> len (decoy_list db) + 1 < 2 ^ 32) ->
  take 4 (ellswift_of ska) <> magic -> take 4 (ellswift_of skb) <> magic ->
  exists ha fa hb fb ha' wa hb' wb m,
    test_start magic Initiator ska = Ret (ha, fa) /\ party_start magic Responder skb gb = Ret (Ok (hb, fb)) /\
    test_key ha (take 64 fb) = Ret (ha', wa) /\ party_key hb fa db = Ret (Ok (hb', wb)) /\
    keys_from (bip_prk magic (bip_secret (ellswift_of ska) (ellswift_of skb) ska PartyA)) m /\
    drop 64 fb = garbage_bytes gb /\ 36 <= len wb /\
    (first_at (responder_garbage_terminator m)
       (garbage_bytes gb ++ responder_garbage_terminator m) (len (garbage_bytes gb)) ->
     exists ca cb,
       party_finish hb' wa = Ret (Ok cb, []) /\
       id ca = session_id m /\ id cb = session_id m /\ outbound ca = inbound cb /\ outbound cb = inbound ca /\
       forall n later, n <= 4096 ->
         client_finish ha' (take n (drop 64 fb ++ wb ++ later)) =
         if len (drop 64 fb ++ wb) <=? n then Ret ca else Panic).
Proof. intros E EL. apply client_ok. Qed.
Print Assumptions C98_client.

(** *** Concrete runs, and what the drivers do not survive *)
Definition opening : bytes := mainnet ++ counting 9 28.

(** It panics for every pair of keys of which one's encoding begins with the magic. *)
Theorem C98_panics : forall (E : Env) (EL : EnvLaws E) magic rnd_a rnd_b hello goodbye, len magic = 4 ->
  sk_valid rnd_a = true -> sk_valid rnd_b = true ->
  (debug_assertions = true -> rnd_a <> zeros 32 /\ rnd_b <> zeros 32) ->
  take 4 (ellswift_of rnd_a) = magic \/ take 4 (ellswift_of rnd_b) = magic ->
  hello_world magic rnd_a rnd_b hello goodbye = Panic.
Proof.
  intros E EL magic rnd_a rnd_b hello goodbye Hm Va Vb Hz M. unfold hello_world. rewrite (pair_magic _ _ _ Hm Va Vb Hz M). reflexivity.
Qed.
Print Assumptions C98_panics.

Theorem C98_hello_world_always_refuted :
  ~ forall (E : Env) (EL : EnvLaws E) rnd_a rnd_b hello goodbye, EcdhAgrees E ->
      sk_valid rnd_a = true -> sk_valid rnd_b = true -> rnd_a <> zeros 32 -> rnd_b <> zeros 32 ->
      len hello < 2 ^ 24 -> len goodbye < 2 ^ 24 ->
      hello_world mainnet rnd_a rnd_b hello goodbye = Ret tt.
Proof.
  intros H. specialize (H (toy true) (toy_laws true) opening skb [] [] (toy_ecdh true)).
  assert (K : @hello_world (toy true) mainnet opening skb [] [] = Panic) by (vm_compute; reflexivity).
  rewrite K in H. enough (@Panic unit = Ret tt) by discriminate. apply H; try (vm_compute; reflexivity); vm_compute; discriminate.
Qed.
Print Assumptions C98_hello_world_always_refuted.

(** The client of [regtest_handshake] with its peer: their states after the keys, and everything the peer has sent behind its key. *)
Definition client_run (gb : option bytes) (db : option (list bytes)) : option (handshake sent_version * cipher_session * bytes) :=
  match @test_start (toy true) mainnet Initiator ska, @party_start (toy true) mainnet Responder skb gb with
  | Ret (ha, fa), Ret (Ok (hb, fb)) =>
    match @test_key (toy true) ha (take 64 fb), @party_key (toy true) hb fa db with
    | Ret (ha, wa), Ret (Ok (hb, wb)) =>
      match @party_finish (toy true) hb wa with
      | Ret (Ok cb, []) => Some (ha, cb, drop 64 fb ++ wb)
      | _ => None
      end
    | _, _ => None
    end
  | _, _ => None
  end.

Definition client_sample := Eval vm_compute in client_run (Some [x01; x02]) (Some [[x07]]).

Definition client_state : handshake sent_version := match client_sample with Some (h, _, _) => h | None => sample_sent end.
Definition client_flight : bytes := match client_sample with Some (_, _, w) => w | None => [] end.
Definition peer_session : option cipher_session := match client_sample with Some (_, c, _) => Some c | None => None end.

Example C98_client_sample : client_sample = client_run (Some [x01; x02]) (Some [[x07]]) /\ len client_flight = 2 + 16 + 21 + 20.
Proof. split; vm_compute; reflexivity. Qed.

(** One byte less than the whole flight. *)
Theorem C98_client_segments_refuted :
  ~ forall (E : Env) (EL : EnvLaws E) h wire c n, EcdhAgrees E -> 0 < n ->
      party_finish h wire = Ret (Ok c, []) -> client_finish h (take n wire) = Ret c.
Proof.
  intros H.
  destruct (@party_finish (toy true) client_state client_flight) as [[[c|e] rest]| |] eqn:P; [|vm_compute in P; discriminate P..].
  assert (rest = []) as -> by (vm_compute in P; congruence).
  assert (K : @client_finish (toy true) client_state (take 58 client_flight) = Panic) by (vm_compute; reflexivity).
  pose proof (H (toy true) (toy_laws true) _ _ _ 58 (toy_ecdh true) ltac:(lia) P) as Q. rewrite K in Q. discriminate Q.
Qed.
Print Assumptions C98_client_segments_refuted.

(** What came in the same read behind the version packet is lost: the next packet does not decrypt any more. *)
Example C98_client_loses :
  match peer_session, @client_finish (toy true) client_state client_flight with
  | Some cb, Ret ca =>
    match @send_all (toy true) (outbound cb) [Msg Genuine None [x01; x02]; Msg Genuine None [x03]] with
    | Ret ([p1; p2], _) =>
      @client_finish (toy true) client_state (client_flight ++ p1) = Ret ca /\
      (exists c, @recv_one (toy true) (inbound ca) None p1 = Ret (Some (Genuine, [x01; x02]), c, [])) /\
      (forall v c rest, @recv_one (toy true) (inbound ca) None p2 <> Ret (Some v, c, rest))
    | _ => False
    end
  | _, _ => False
  end.
Proof.
  destruct peer_session as [cb|] eqn:P; [|vm_compute in P; discriminate P].
  destruct (@client_finish (toy true) client_state client_flight) as [ca| |] eqn:C; [|vm_compute in C; discriminate C..].
  destruct (@send_all (toy true) (outbound cb) _) as [[ps c2]| |] eqn:S2; vm_compute in P; injection P as <-; [|vm_compute in S2; discriminate S2..].
  vm_compute in S2. injection S2 as <- _.
  split; [|split].
  - rewrite <- C. vm_compute. reflexivity.
  - vm_compute in C. injection C as <-. eexists. vm_compute. reflexivity.
  - vm_compute in C. injection C as <-. intros v c rest Q. vm_compute in Q. discriminate Q.
Qed.

Example C98_hello_world_example :
  @hello_world (toy true) mainnet ska skb (counting 1 13) (counting 9 15) = Ret tt /\
  (match @session_pair (toy true) mainnet ska skb with
   | Ret (alice, bob) => @bench_iter (toy true) (outbound alice) (inbound bob) [zeros 40; []; [x01]] = Ret [zeros 40; []; [x01]]
   | _ => False
   end).
Proof. split; vm_compute; reflexivity. Qed.

(** Each read of the client: everything is needed. *)
Example C98_client_example :
  map (fun n => match @client_finish (toy true) client_state (take n client_flight) with Ret _ => true | _ => false end) [0; 18; 39; 58; 59] =
  [false; false; false; false; true].
Proof. vm_compute. reflexivity. Qed.
