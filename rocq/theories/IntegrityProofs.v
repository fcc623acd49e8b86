(** * IntegrityProofs: a receiver accepts what its peer sent, in order, or a forgery *)
From Coq Require Import List NArith Bool Lia ZArith.
From Coq.Strings Require Import Byte.
From Coq Require Import ZifyBool ZifyNat ZifyN.
From Verif Require Import Base BaseFacts Env FsChacha Spec FsChachaProofs Cipher CipherFacts
  Histories CipherProofs Handshake SpecHandshake HsDriver HandshakeProofs HsRunProofs
  Transport Io SpecIo Futures Sessions TransportProofs NoFuel IoProofs FuturesProofs IoRunProofs
  SessionProofs ReaderProofs EndpointProofs OversizeProofs SpecIntegrity.
Import ListNotations.
Local Open Scope N_scope.

Lemma firstn_snoc {A} (l : list A) n x : nth_error l n = Some x -> firstn (S n) l = firstn n l ++ [x].
Proof.
  revert n; induction l as [|a l IH]; intros [|n] H; cbn in *; try discriminate.
  - now injection H as ->.
  - now rewrite <- (IH n H).
Qed.

Lemma nth_skipn {A} (l : list A) n x : nth_error l n = Some x -> skipn n l = x :: skipn (S n) l.
Proof.
  revert n; induction l as [|a l IH]; intros [|n] H; cbn in *; try discriminate.
  - now injection H as ->.
  - now rewrite (IH n H).
Qed.

Lemma nth_error_len {A} (l : list A) i x : nth_error l (N.to_nat i) = Some x -> i < len l.
Proof. intros H. assert (nth_error l (N.to_nat i) <> None) as Q by congruence. apply nth_error_Some in Q. unfold len. lia. Qed.

Lemma occurs_suffix b w u : occurs b w -> occurs b (u ++ w).
Proof. intros (x & y & ->). exists (u ++ x), y. now rewrite app_assoc. Qed.

Section WithLaws.
Context {E : Env} {EL : EnvLaws E}.

Lemma aad_or_default_of x : aad_or_default (m_aad x) = aad_of x.
Proof. unfold aad_of. destruct (m_aad x); reflexivity. Qed.

(** The packets are those BIP-324 gives for the messages. *)
Definition honest (kP : bytes) (ms : list msg) (pkts : list bytes) : Prop :=
  len ms < 2 ^ 64 /\
  forall i x, nth_error ms (N.to_nat i) = Some x -> exists p, nth_error pkts (N.to_nat i) = Some p /\
    drop 3 p = bip_body kP i (is_decoy (m_type x)) (aad_of x) (m_contents x).

Lemma sent_honest m r ms pkts out :
  len ms < 2 ^ 64 -> send_all (outbound (session_new m r)) ms = Ret (pkts, out) ->
  honest (send_packet_key m r) ms pkts.
Proof.
  intros L S. split; [assumption|]. intros i x Hx.
  destruct (bodies_conform m r ms pkts out _ _ L S Hx) as (p & Hp & D). exists p. split; [assumption|].
  rewrite D, N2Nat.id. now rewrite aad_or_default_of.
Qed.

Lemma was_sent_dec ms pkts i aad body : was_sent ms pkts i aad body \/ ~ was_sent ms pkts i aad body.
Proof.
  unfold was_sent. destruct (nth_error ms (N.to_nat i)) as [x|]; [|right; intros (? & ? & Q & _); discriminate].
  destruct (nth_error pkts (N.to_nat i)) as [p|]; [|right; intros (? & ? & _ & Q & _); discriminate].
  destruct (bytes_eq_dec (aad_of x) aad) as [A|A]; [|right; intros (? & ? & Q & _ & Q' & _); congruence].
  destruct (bytes_eq_dec (drop 3 p) body) as [B|B]; [|right; intros (? & ? & _ & Q & _ & Q'); congruence].
  left. exists x, p. auto.
Qed.

(** One accepted body. *)
Lemma accept_one kP ms pkts i aad mb tg pt pc :
  honest kP ms pkts -> len tg = 16 ->
  fp_decrypt (fp_at kP i) aad mb tg = Ret (Some pt, pc) ->
  forgery kP ms pkts i aad (mb ++ tg) \/
  exists x p, nth_error ms (N.to_nat i) = Some x /\ aad_of x = aad /\
    nth_error pkts (N.to_nat i) = Some p /\ drop 3 p = mb ++ tg /\
    (type_of pt, drop 1 pt) = view x /\ pc = fp_at kP (i + 1).
Proof.
  intros [L Ho] Lt D. apply fp_decrypt_some in D. destruct D as (Ht & Hp & Hr).
  rewrite fp_nonce_at in *. cbn [fp_key fp_at] in Ht, Hp.
  assert (tag_verifies kP i aad (mb ++ tg)) as V by (exists mb; now rewrite <- Ht).
  destruct (was_sent_dec ms pkts i aad (mb ++ tg)) as [W|W]; [|left; split; assumption].
  right. destruct W as (x & p & Hx & Hpk & Ha & Hb). exists x, p.
  split; [assumption|]. split; [assumption|]. split; [assumption|]. split; [assumption|].
  destruct (Ho i x Hx) as (p' & Hp' & Hd). rewrite Hpk in Hp'. injection Hp' as <-.
  rewrite Hb in Hd. unfold bip_body, rfc_aead in Hd. apply app_inj_len in Hd.
  2:{ apply (f_equal len) in Hd. rewrite !len_app, mac_len, Lt in Hd. lia. }
  destruct Hd as [Hm _]. assert (len mb = len (bip_header (is_decoy (m_type x)) :: m_contents x)) as Lm
    by (rewrite Hm; apply len_xor_with).
  rewrite Lm, Hm, xor_with_invol in Hp. subst pt. cbn [type_of]. change (drop 1 (?a :: ?b)) with b.
  split.
  - unfold view. f_equal. destruct (m_type x); reflexivity.
  - apply nth_error_len in Hx. rewrite fp_rekey_at in Hr by lia. now injection Hr.
Qed.

(** The three decryption entry points. *)
Definition opens (c : cipher) (aad body : bytes) (v : packet_type * bytes) (c' : cipher) : Prop :=
  exists mb tg pt pc, body = mb ++ tg /\ len tg = 16 /\
    fp_decrypt (packet_cipher c) aad mb tg = Ret (Some pt, pc) /\ len pt = len mb /\
    v = (type_of pt, drop 1 pt) /\ c' = Cipher (length_cipher c) pc.

Lemma decrypt_opens c ct buf aad r c' b :
  decrypt c ct buf aad = Ret (r, c', b) ->
  match r with
  | Ok t => opens c (aad_or_default aad) ct (t, drop 1 (take (len ct - 16) b)) c'
  | Err _ => c' = c
  end.
Proof.
  intros H. destruct (N.lt_ge_cases (len ct) 17) as [L|L].
  { rewrite decrypt_small in H by assumption. now injection H as <- <- <-. }
  destruct (split_tag ct L) as (m & tg & -> & L1 & L2 & L3).
  destruct (N.lt_ge_cases (len buf) (len m)) as [K|K].
  { rewrite decrypt_buffer_small in H by assumption. now injection H as <- <- <-. }
  rewrite decrypt_closed in H by assumption.
  apply bind_ret_inv in H. destruct H as ([[q|] pc] & Hd & H); injection H as <- <- <-; [|reflexivity].
  exists m, tg, q, pc. pose proof Hd as Hd'. apply fp_decrypt_some in Hd'. destruct Hd' as (_ & Q & _).
  assert (len q = len m) as Lq by (subst q; apply len_xor_with).
  rewrite <- L3. rewrite take_app_exact by congruence. auto 8.
Qed.

Lemma in_place_opens c ct aad r c' b :
  decrypt_in_place c ct aad = Ret (r, c', b) ->
  match r with
  | Ok (t, pt) => opens c (aad_or_default aad) ct (t, drop 1 pt) c'
  | Err _ => c' = c
  end.
Proof.
  intros H. destruct (N.lt_ge_cases (len ct) 17) as [L|L].
  { rewrite decrypt_in_place_small in H by assumption. now injection H as <- <- <-. }
  destruct (split_tag ct L) as (m & tg & -> & L1 & L2 & L3).
  rewrite decrypt_in_place_closed in H by assumption.
  apply bind_ret_inv in H. destruct H as ([[q|] pc] & Hd & H); injection H as <- <- <-; [|reflexivity].
  exists m, tg, q, pc. pose proof Hd as Hd'. apply fp_decrypt_some in Hd'. destruct Hd' as (_ & Q & _).
  assert (len q = len m) as Lq by (subst q; apply len_xor_with). auto 8.
Qed.

Lemma vec_opens c ct aad r c' :
  decrypt_to_vec c ct aad = Ret (r, c') ->
  match r with
  | Ok (t, pt) => opens c (aad_or_default aad) ct (t, drop 1 pt) c' /\ t = type_of pt /\ pt <> []
  | Err _ => c' = c
  end.
Proof.
  intros H. destruct (N.lt_ge_cases (len ct) 16) as [L|L].
  { rewrite decrypt_to_vec_short in H by assumption. destruct overflow_checks; [discriminate|].
    now injection H as <- <-. }
  destruct (N.eq_dec (len ct) 16) as [L'|L'].
  { rewrite decrypt_to_vec_16 in H by assumption. now injection H as <- <-. }
  destruct (split_tag ct) as (m & tg & -> & L1 & L2 & L3); [lia|].
  destruct (N.lt_ge_cases 4000014 (len m)) as [K|K].
  { rewrite decrypt_to_vec_too_big in H by (rewrite len_app; lia). now injection H as <- <-. }
  rewrite decrypt_to_vec_closed in H by assumption.
  apply bind_ret_inv in H. destruct H as ([[q|] pc] & Hd & H); injection H as <- <-; [|reflexivity].
  pose proof Hd as Hd'. apply fp_decrypt_some in Hd'. destruct Hd' as (_ & Q & _).
  assert (len q = len m) as Lq by (subst q; apply len_xor_with).
  split; [exists m, tg, q, pc; auto 8|]. split; [reflexivity|]. intros ->. rewrite len_nil in Lq. lia.
Qed.

Lemma opens_one kP ms pkts i c aad body v c' :
  honest kP ms pkts -> packet_cipher c = fp_at kP i -> opens c aad body v c' ->
  forgery kP ms pkts i aad body \/
  exists x p, nth_error ms (N.to_nat i) = Some x /\ aad_of x = aad /\
    nth_error pkts (N.to_nat i) = Some p /\ drop 3 p = body /\ v = view x /\
    packet_cipher c' = fp_at kP (i + 1).
Proof.
  intros Ho Hc (mb & tg & pt & pc & -> & Lt & D & _ & -> & ->). rewrite Hc in D.
  destruct (accept_one _ _ _ _ _ _ _ _ _ Ho Lt D) as [F|(x & p & H1 & H2 & H3 & H4 & H5 & H6)]; [now left|].
  right. exists x, p. cbn [packet_cipher]. auto 8.
Qed.

(** ** Calls *)

Lemma step_opens s o r s' :
  step s o = Ret (r, s') ->
  match accepted o r with
  | Some (aad, v) => exists body, offered o = Some (aad, body) /\ opens (inbound s) aad body v (inbound s')
  | None => packet_cipher (inbound s') = packet_cipher (inbound s)
  end.
Proof.
  destruct o as [pt buf t a|pt t a|lb|ct buf a|ct a|ct a]; cbn [step]; intros H;
    apply bind_ret_inv in H; cbn [accepted offered].
  - destruct H as ([[x c] b] & _ & H). injection H as <- <-. reflexivity.
  - destruct H as ([x c] & _ & H). injection H as <- <-. reflexivity.
  - destruct H as ([n c] & D & H). injection H as <- <-. cbn [inbound with_in].
    unfold decrypt_packet_len in D. apply bind_ret_inv in D. destruct D as ([o lc] & _ & D).
    do 3 (apply bind_ret_inv in D; destruct D as (? & _ & D)). now injection D as _ <-.
  - destruct H as ([[x c] b] & D & H). injection H as <- <-. cbn [inbound with_in].
    apply decrypt_opens in D. destruct x as [t|e]; [|now subst c]. eauto.
  - destruct H as ([[x c] b] & D & H). injection H as <- <-. cbn [inbound with_in].
    apply in_place_opens in D. destruct x as [[t pt]|e]; [|now subst c]. eauto.
  - destruct H as ([x c] & D & H). injection H as <- <-. cbn [inbound with_in].
    apply vec_opens in D. destruct x as [[t pt]|e]; [|now subst c]. destruct D. eauto.
Qed.

Theorem calls_integrity kP ms pkts : honest kP ms pkts -> forall os s i rs s',
  packet_cipher (inbound s) = fp_at kP i -> steps s os = Ret (rs, s') ->
  let got := all_accepted os rs in
  got = firstn (length got) (map (fun x => (aad_of x, view x)) (skipn (N.to_nat i) ms)) \/
  exists o aad body j, In o os /\ offered o = Some (aad, body) /\ i <= j < i + len got /\
    forgery kP ms pkts j aad body.
Proof.
  intros Ho. induction os as [|o os IH]; intros s i rs s' Hc H; cbn [steps] in H.
  - injection H as <- <-. left. reflexivity.
  - apply bind_ret_inv in H. destruct H as ([r s1] & H1 & H).
    apply bind_ret_inv in H. destruct H as ([rs1 s2] & H2 & H). injection H as <- <-.
    apply step_opens in H1. cbn [all_accepted]. destruct (accepted o r) as [[aad v]|].
    + destruct H1 as (body & Of & Op). cbn zeta.
      destruct (opens_one _ _ _ _ _ _ _ _ _ Ho Hc Op) as [F|(x & p & Hx & Ha & Hp & Hb & Hv & Hn)].
      { right. exists o, aad, body, i. rewrite len_cons. split; [now left|]. split; [assumption|]. split; [lia|assumption]. }
      specialize (IH _ _ _ _ Hn H2). cbn zeta in IH.
      destruct IH as [IH|(o' & aad' & body' & j & I1 & I2 & I3 & I4)].
      * left. rewrite (nth_skipn _ _ _ Hx). cbn [map length firstn].
        replace (S (N.to_nat i)) with (N.to_nat (i + 1)) by lia. rewrite IH at 1. now rewrite Ha, Hv.
      * right. exists o', aad', body', j. rewrite len_cons. split; [now right|]. split; [assumption|]. split; [lia|assumption].
    + rewrite <- H1 in Hc. specialize (IH _ _ _ _ Hc H2). rewrite H1 in *. cbn zeta in *.
      destruct IH as [IH|(o' & aad' & body' & j & I1 & I2 & I3 & I4)]; [now left|].
      right. exists o', aad', body', j. split; [now right|]. auto.
Qed.

(** ** Packets off a stream *)

Lemma recv_one_opens c aad wire v c' rest :
  recv_one c aad wire = Ret (Some v, c', rest) ->
  exists lb body c1, wire = lb ++ body ++ rest /\ len lb = 3 /\
    decrypt_packet_len c lb = Ret (len body, c1) /\ packet_cipher c1 = packet_cipher c /\
    opens c1 (aad_or_default aad) body v c'.
Proof.
  unfold recv_one. destruct (len wire <? 3) eqn:L3; [discriminate|].
  destruct (decrypt_packet_len _ _) as [[n c1]| |] eqn:D; cbn [bind]; try discriminate.
  destruct (len (drop 3 wire) <? n) eqn:Ln; [discriminate|].
  intros H. apply bind_ret_inv in H. destruct H as ([[z c2] buf] & H & K).
  pose proof (decrypt_opens _ _ _ _ _ _ _ H) as Op. destruct z as [t|e]; [|discriminate]. injection K as <- <- <-.
  exists (take 3 wire), (take n (drop 3 wire)), c1.
  assert (len (take n (drop 3 wire)) = n) as L1 by (rewrite len_take; lia).
  assert (len (take 3 wire) = 3) as L2 by (rewrite len_take; lia).
  split; [now rewrite !take_drop|]. split; [assumption|]. split; [now rewrite L1|].
  split.
  { rewrite decrypt_packet_len_closed in D by assumption. apply bind_ret_inv in D.
    destruct D as ([o lc] & _ & D). now injection D as _ <-. }
  rewrite L1 in Op.
  assert (take (n - 16) buf = buf) as Tk; [|now rewrite Tk in Op].
  destruct (N.lt_ge_cases n 17) as [Q|Q].
  { rewrite decrypt_small in H by lia. discriminate. }
  rewrite <- L1 in H at 2. apply decrypt_body in H; [|lia]. destruct H as (hd & ct & -> & _ & Lc).
  apply take_all. rewrite len_cons. lia.
Qed.

(** The length bytes are determined by the length of the body. *)
Lemma length_bytes_unique c lb n c1 x p c2 :
  len lb = 3 -> decrypt_packet_len c lb = Ret (n, c1) ->
  encrypt_to_vec c (m_contents x) (m_type x) (m_aad x) = Ret (p, c2) -> n = len (drop 3 p) ->
  lb = take 3 p /\ length_cipher c1 = length_cipher c2.
Proof.
  intros L D En Hn. apply encrypt_vec_inv in En.
  destruct En as (lb' & ct & tag & -> & L1 & L2 & L3 & _ & _ & _ & Hc).
  rewrite take_app_exact by (now symmetry). rewrite drop_app_exact in Hn by (now symmetry).
  rewrite len_app in Hn.
  rewrite decrypt_packet_len_closed in D by assumption. apply bind_ret_inv in D.
  destruct D as ([o lc] & F & D). injection D as D <-. cbn [length_cipher].
  pose proof (fc_crypt_len _ _ _ _ F) as Lo. rewrite L in Lo.
  pose proof (le_val_bound o) as Bo. rewrite Lo in Bo. change (256 ^ 3) with 16777216 in Bo.
  apply fc_crypt_inv in F. destruct F as [Fo F]. apply fc_crypt_inv in Hc. destruct Hc as [Hl Hc].
  rewrite len_le_bytes in *. change (N.of_nat 3) with 3 in *. rewrite L in *.
  specialize (Hc lb). rewrite L in Hc. specialize (Hc eq_refl).
  specialize (F lb L). rewrite F in Hc. injection Hc as Hc. split; [|assumption].
  assert (o = le_bytes 3 (len (m_contents x))) as Q.
  { rewrite <- (le_bytes_le_val o). replace (length o) with 3%nat by (unfold len in Lo; lia). f_equal. lia. }
  rewrite Hl, <- Q, Fo. symmetry. apply xor_with_invol.
Qed.

Lemma opens_length c aad body v c' : opens c aad body v c' -> length_cipher c' = length_cipher c.
Proof. intros (? & ? & ? & ? & _ & _ & _ & _ & _ & ->). reflexivity. Qed.

(** Packets received in a row, both ciphers of the receiver standing where the sender's stood
    after the first [i] packets. *)
Theorem stream_integrity kP ms pkts : honest kP ms pkts ->
  forall aads c wire vs c' rest i out,
  packet_cipher c = fp_at kP i ->
  send_all c (skipn (N.to_nat i) ms) = Ret (skipn (N.to_nat i) pkts, out) ->
  recv_all c aads wire = Ret (Some vs, c', rest) ->
  (exists j body, (j < length aads)%nat /\ occurs body wire /\
     forgery kP ms pkts (i + N.of_nat j) (aad_or_default (nth j aads None)) body) \/
  (exists us ps, skipn (N.to_nat i) ms = firstn (length aads) (skipn (N.to_nat i) ms) ++ us /\
     vs = map view (firstn (length aads) (skipn (N.to_nat i) ms)) /\ length vs = length aads /\
     map aad_or_default aads = map aad_of (firstn (length aads) (skipn (N.to_nat i) ms)) /\
     ps = firstn (length aads) (skipn (N.to_nat i) pkts) /\
     wire = concat ps ++ rest /\
     send_all c (firstn (length aads) (skipn (N.to_nat i) ms)) = Ret (ps, c') /\
     packet_cipher c' = fp_at kP (i + len aads)).
Proof.
  intros Ho. induction aads as [|a aads IH]; intros c wire vs c' rest i out Hc Se H; cbn [recv_all] in H.
  - injection H as <- <- <-. right. exists (skipn (N.to_nat i) ms), []. cbn.
    change (len (@nil (option bytes))) with 0. rewrite N.add_0_r. repeat split; auto.
  - apply bind_ret_inv in H. destruct H as ([[[v|] c1] w1] & R & H); [|discriminate].
    apply bind_ret_inv in H. destruct H as ([[[l|] c2] w2] & R2 & H); [|discriminate].
    injection H as <- <- <-.
    apply recv_one_opens in R. destruct R as (lb & body & cl & -> & Ll & D & Pc & Op).
    assert (packet_cipher cl = fp_at kP i) as Hcl by congruence.
    destruct (opens_one _ _ _ _ _ _ _ _ _ Ho Hcl Op) as [F|(x & p & Hx & Ha & Hp & Hb & Hv & Hn)].
    { left. exists 0%nat, body. cbn [nth length]. split; [lia|]. split; [exists lb, w1; reflexivity|].
      change (N.of_nat 0) with 0. now rewrite N.add_0_r. }
    rewrite (nth_skipn _ _ _ Hx), (nth_skipn _ _ _ Hp) in *. cbn [send_all] in Se.
    apply bind_ret_inv in Se. destruct Se as ([p' c3] & En & Se).
    apply bind_ret_inv in Se. destruct Se as ([ps' c4] & Se & Q). injection Q as -> Q <-.
    change (ps' = skipn (S (N.to_nat i)) pkts) in Q. subst ps'.
    destruct (length_bytes_unique _ _ _ _ _ _ _ Ll D En (f_equal len (eq_sym Hb))) as [Elb Elc].
    assert (c3 = c1) as ->.
    { apply opens_length in Op. destruct c3 as [l3 p3], c1 as [l1 p1]. cbn in *. f_equal; [congruence|].
      destruct c as [lc pc]. cbn in *. subst pc.
      apply encrypt_vec_body in En; [cbn in En; destruct En; congruence|]. apply nth_error_len in Hx. destruct Ho. lia. }
    replace (S (N.to_nat i)) with (N.to_nat (i + 1)) in * by lia.
    destruct (IH _ _ _ _ _ (i + 1) _ Hn Se R2) as [(j & b & I1 & I2 & I3)|(us & ps & I1 & I2 & I2' & I3 & I4 & I5 & I6 & I7)].
    + left. exists (S j), b. cbn [length nth]. split; [lia|]. split.
      { apply occurs_suffix, occurs_suffix. assumption. }
      replace (i + N.of_nat (S j)) with (i + 1 + N.of_nat j) by lia. assumption.
    + right. exists us, (p :: ps). cbn [length firstn map concat send_all].
      split; [cbn [app]; now rewrite <- I1|]. split; [now rewrite I2, Hv|]. split; [now rewrite I2'|].
      split; [rewrite I3; now rewrite <- Ha|]. split; [now rewrite I4|].
      split. { rewrite Elb, <- Hb, I5, !app_assoc. now rewrite take_drop. }
      split. { rewrite En. cbn [bind]. rewrite I6. reflexivity. }
      rewrite I7, len_cons. f_equal. lia.
Qed.

(** Packets in a row, only the packet ciphers agreeing. *)
Theorem recv_integrity kP ms pkts : honest kP ms pkts ->
  forall n c wire vs c' rest i,
  packet_cipher c = fp_at kP i ->
  recv_all c (repeat None n) wire = Ret (Some vs, c', rest) ->
  vs = map view (firstn n (skipn (N.to_nat i) ms)) /\ length vs = n \/
  forged_between kP ms pkts i (i + N.of_nat n) wire.
Proof.
  intros Ho. induction n as [|n IH]; intros c wire vs c' rest i Hc H; cbn [repeat recv_all] in H.
  - injection H as <- <- <-. now left.
  - apply bind_ret_inv in H. destruct H as ([[[v|] c1] w1] & R & H); [|discriminate].
    apply bind_ret_inv in H. destruct H as ([[[l|] c2] w2] & R2 & H); [|discriminate].
    injection H as <- <- <-.
    apply recv_one_opens in R. destruct R as (lb & body & cl & -> & Ll & D & Pc & Op).
    assert (packet_cipher cl = fp_at kP i) as Hcl by congruence.
    destruct (opens_one _ _ _ _ _ _ _ _ _ Ho Hcl Op) as [F|(x & p & Hx & Ha & Hp & Hb & Hv & Hn)].
    { right. exists i, body. split; [lia|]. split; [exists lb, w1; reflexivity|]. assumption. }
    destruct (IH _ _ _ _ _ _ Hn R2) as [[I1 I2]|(j & b & I1 & I2 & I3)].
    + left. rewrite (nth_skipn _ _ _ Hx). cbn [firstn map length].
      replace (S (N.to_nat i)) with (N.to_nat (i + 1)) by lia. rewrite I1 at 1. rewrite I2, Hv. auto.
    + right. exists j, b. split; [lia|]. split; [|assumption]. now apply occurs_suffix, occurs_suffix.
Qed.

(** ** Synchronous reads, also after failures *)

Lemma read_exact_left fl : forall s n acc x s', read_exact fl s n acc = (x, s') ->
  exists used, content s = used ++ content s'.
Proof.
  induction s as [|[bs|k|] s IH]; intros n acc x s' H; cbn [read_exact] in H;
    (destruct (n =? 0); [injection H as <- <-; exists []; reflexivity|]).
  - injection H as <- <-. exists []. reflexivity.
  - destruct bs as [|b bs]; [injection H as <- <-; exists []; reflexivity|].
    destruct (len (b :: bs) <=? n).
    + apply IH in H. destruct H as (u & Q). exists ((b :: bs) ++ u). cbn [content]. now rewrite Q, app_assoc.
    + injection H as <- <-. exists (take n (b :: bs)). cbn [content]. now rewrite app_assoc, take_drop.
  - destruct fl, k; try (injection H as <- <-; exists []; reflexivity). cbn [content]. eapply IH; eassumption.
  - cbn [content]. eapply IH; eassumption.
Qed.

Lemma session_read_exact_left fl sr n x sr' : session_read_exact fl sr n = (x, sr') ->
  exists used, session_content sr = used ++ session_content sr'.
Proof.
  unfold session_read_exact. destruct sr as [cur [|] s|l pos s].
  - destruct (read_exact fl s n []) as [r s'] eqn:R. intros H; injection H as <- <-.
    apply read_exact_left in R. exact R.
  - destruct (n <=? len cur).
    + intros H; injection H as <- <-. exists (take n cur). cbn [session_content]. now rewrite app_assoc, take_drop.
    + destruct (read_exact fl s _ cur) as [r s'] eqn:R. intros H; injection H as <- <-.
      apply read_exact_left in R. destruct R as (u & Q). exists (cur ++ u). cbn [session_content].
      now rewrite Q, app_assoc.
  - destruct (n <=? len (drop pos l)).
    + intros H; injection H as <- <-. exists (take n (drop pos l)). cbn [session_content].
      rewrite <- drop_drop, app_assoc. now rewrite take_drop.
    + destruct (read_exact fl s _ _) as [r s'] eqn:R. intros H; injection H as <- <-.
      apply read_exact_left in R. destruct R as (u & Q). exists (drop pos l ++ u). cbn [session_content].
      rewrite (drop_all (N.max pos (len l))) by lia. now rewrite Q, app_assoc.
Qed.

Lemma sync_read_opens r x r' a :
  sync_read r = Ret (x, r', a) ->
  match x with
  | Ok p => exists lb body c1,
      session_content (sr_reader r) = lb ++ body ++ session_content (sr_reader r') /\ len lb = 3 /\
      packet_cipher c1 = packet_cipher (sr_cipher r) /\ opens c1 [] body (seen p) (sr_cipher r')
  | Err _ => packet_cipher (sr_cipher r') = packet_cipher (sr_cipher r) /\
      exists used, session_content (sr_reader r) = used ++ session_content (sr_reader r')
  end.
Proof.
  unfold sync_read. destruct (session_read_exact Sync (sr_reader r) _) as [[lb|k] s1] eqn:R1.
  2:{ intros H; injection H as <- <- <-. split; [reflexivity|]. eapply session_read_exact_left; exact R1. }
  apply session_read_exact_content in R1. destruct R1 as [R1 L1]. change NUM_LENGTH_BYTES with 3 in L1.
  intros H. apply bind_ret_inv in H. destruct H as ([n c1] & D & H).
  assert (packet_cipher c1 = packet_cipher (sr_cipher r)) as Pc.
  { rewrite decrypt_packet_len_closed in D by assumption. apply bind_ret_inv in D.
    destruct D as ([o lc] & _ & D). now injection D as _ <-. }
  destruct (session_read_exact Sync s1 n) as [[pb|k] s2] eqn:R2.
  2:{ injection H as <- <- <-. split; [assumption|]. apply session_read_exact_left in R2.
      destruct R2 as (u & R2). exists (lb ++ u). cbn [sr_reader]. now rewrite R1, R2, app_assoc. }
  apply session_read_exact_content in R2. destruct R2 as [R2 L2].
  apply bind_ret_inv in H. destruct H as ([z c2] & V & H). pose proof (vec_opens _ _ _ _ _ V) as Op.
  destruct z as [[t pt]|e].
  - apply bind_ret_inv in H. destruct H as (p & Pd & H). injection H as <- <- <-. cbn [sr_reader sr_cipher].
    exists lb, pb, c1. split; [now rewrite R1, R2|]. split; [assumption|]. split; [assumption|].
    destruct Op as (Op & -> & Hpt). unfold payload_decrypted in Pd.
    destruct pt as [|h pt]; [contradiction|]. rewrite andb_false_r in Pd. injection Pd as <-. exact Op.
  - injection H as <- <- <-. cbn [sr_reader sr_cipher]. subst c2. split; [assumption|].
    exists (lb ++ pb). now rewrite R1, R2, app_assoc.
Qed.

Lemma sync_many kP ms pkts : honest kP ms pkts -> forall n r xs r' i,
  packet_cipher (sr_cipher r) = fp_at kP i ->
  read_many n (RSync r) = Ret (xs, r') ->
  let got := map seen (payloads_of xs) in
  got = firstn (length got) (map view (skipn (N.to_nat i) ms)) \/
  forged_between kP ms pkts i (i + len got) (session_content (sr_reader r)).
Proof.
  intros Ho. induction n as [|n IH]; intros r xs r' i Hc H; cbn [read_many] in H.
  - injection H as <- <-. now left.
  - apply bind_ret_inv in H. destruct H as ([x r1] & R & H). cbn [read_any] in R.
    apply bind_ret_inv in R. destruct R as ([[x' r1'] a] & R & Q). injection Q as -> <-.
    apply bind_ret_inv in H. destruct H as ([ys r2] & R2 & H). injection H as <- <-.
    apply sync_read_opens in R. destruct x as [p|e].
    + destruct R as (lb & body & c1 & W & _ & Pc & Op). rewrite <- Pc in Hc.
      unfold payloads_of. cbn [flat_map app map]. fold (payloads_of ys). cbn zeta.
      destruct (opens_one _ _ _ _ _ _ _ _ _ Ho Hc Op) as [F|(x & pk & Hx & Ha & Hp & Hb & Hv & Hn)].
      { right. exists i, body. rewrite len_cons. split; [lia|]. split; [|assumption].
        rewrite W. now exists lb, (session_content (sr_reader r1')). }
      destruct (IH _ _ _ _ Hn R2) as [I1|(j & b & I1 & I2 & I3)].
      * left. rewrite (nth_skipn _ _ _ Hx). cbn [firstn map length].
        replace (S (N.to_nat i)) with (N.to_nat (i + 1)) by lia. rewrite I1 at 1. now rewrite Hv.
      * right. exists j, b. rewrite len_cons. split; [lia|]. split; [|assumption].
        rewrite W. now apply occurs_suffix, occurs_suffix.
    + destruct R as [Pc (u & W)]. rewrite <- Pc in Hc.
      change (payloads_of (Err e :: ys)) with (payloads_of ys).
      destruct (IH _ _ _ _ Hc R2) as [I1|(j & b & I1 & I2 & I3)]; [now left|].
      right. exists j, b. split; [assumption|]. split; [|assumption]. rewrite W. now apply occurs_suffix.
Qed.

(** ** Asynchronous reads *)

Lemma await_sound : forall fuel f r c wire x r',
  stands r c wire -> future_fits f r -> await_read fuel f r = Ret (x, r') ->
  match x with
  | Ok p => exists c1 rest, recv_one c None wire = Ret (Some (seen p), c1, rest) /\ stands r' c1 rest
  | Err _ => stands r' c wire
  end.
Proof.
  induction fuel as [|fuel IH]; intros f r c wire x r' St Fit H; cbn [await_read] in H; [discriminate|].
  apply bind_ret_inv in H. destruct H as ([[z r1] f1] & P & H).
  destruct (poll_sound _ _ _ _ _ _ _ St Fit P) as ([O _] & Fit1 & _).
  destruct z as [[p|[k s|e]]|].
  - injection H as <- <-. destruct O as (hd & contents & c1 & rest & -> & R & S1 & _). eauto.
  - injection H as <- <-. apply O.
  - injection H as <- <-. apply O.
  - apply (IH f1 r1); [apply O|assumption|assumption].
Qed.

Lemma tokio_many_sound : forall n r c wire xs r',
  stands r c wire -> read_many n (RTokio r) = Ret (xs, r') ->
  exists c' rest, recv_all c (repeat None (length (payloads_of xs))) wire =
    Ret (Some (map seen (payloads_of xs)), c', rest).
Proof.
  induction n as [|n IH]; intros r c wire xs r' St H; cbn [read_many] in H.
  - injection H as <- <-. exists c, wire. reflexivity.
  - apply bind_ret_inv in H. destruct H as ([x r1] & R & H). cbn [read_any] in R.
    apply bind_ret_inv in R. destruct R as ([x' r1'] & R & Q). injection Q as -> <-.
    apply bind_ret_inv in H. destruct H as ([ys r2] & R2 & H). injection H as <- <-.
    unfold tokio_read in R. apply (await_sound _ _ _ c wire) in R; [|assumption|exact I]. destruct x as [p|e].
    + destruct R as (c1 & rest & R & S1). destruct (IH _ _ _ _ _ S1 R2) as (c' & rest' & Q).
      exists c', rest'. change (payloads_of (Ok p :: ys)) with (p :: payloads_of ys).
      cbn [length repeat recv_all map]. rewrite R. cbn [bind]. rewrite Q. reflexivity.
    + change (payloads_of (Err e :: ys)) with (payloads_of ys). eapply IH; eassumption.
Qed.

(** Either driver, whole calls; and any polls and cancellations of the asynchronous one. *)
Lemma prefix_of_count {A} (l : list A) vs n : vs = firstn n l -> length vs = n -> vs = firstn (length vs) l.
Proof. intros H L. now rewrite L. Qed.

Lemma reads_integrity kP ms pkts : honest kP ms pkts -> forall fl c sr n xs rd i,
  packet_cipher c = fp_at kP i ->
  read_many n (established fl c sr) = Ret (xs, rd) ->
  let got := map seen (payloads_of xs) in
  got = firstn (length got) (map view (skipn (N.to_nat i) ms)) \/
  forged_between kP ms pkts i (i + len got) (session_content sr).
Proof.
  intros Ho [|] c sr n xs rd i Hc H.
  - exact (sync_many _ _ _ Ho n (SyncReader c sr) xs rd i Hc H).
  - cbn [established] in H. apply (tokio_many_sound n _ c (session_content sr)) in H; [|apply fresh_stands].
    destruct H as (c' & rest & R). destruct (recv_integrity _ _ _ Ho _ _ _ _ _ _ _ Hc R) as [[Q L]|F].
    + left. cbn zeta. eapply prefix_of_count; [|exact L]. now rewrite firstn_map.
    + right. cbn zeta. unfold len. now rewrite map_length.
Qed.

Lemma polls_integrity kP ms pkts : honest kP ms pkts -> forall acts c sr xs r f i,
  packet_cipher c = fp_at kP i ->
  run_schedule acts FreshFuture (TReader c sr init_reading_length) = Ret (xs, r, f) ->
  let got := map seen (payloads_of xs) in
  got = firstn (length got) (map view (skipn (N.to_nat i) ms)) \/
  forged_between kP ms pkts i (i + len got) (session_content sr).
Proof.
  intros Ho acts c sr xs r f i Hc H.
  destruct (schedule_sound acts FreshFuture _ _ _ _ _ _ (fresh_stands c sr) I H) as (c' & rest & R & _).
  destruct (recv_integrity _ _ _ Ho _ _ _ _ _ _ _ Hc R) as [[Q L]|F].
  - left. cbn zeta. eapply prefix_of_count; [|exact L]. now rewrite firstn_map.
  - right. cbn zeta. unfold len. now rewrite map_length.
Qed.

(** ** Handshakes *)

Lemma send_all_join : forall ms1 ms2 c ps1 c1 ps2 c2,
  send_all c ms1 = Ret (ps1, c1) -> send_all c1 ms2 = Ret (ps2, c2) ->
  send_all c (ms1 ++ ms2) = Ret (ps1 ++ ps2, c2).
Proof.
  induction ms1 as [|m ms1 IH]; intros ms2 c ps1 c1 ps2 c2 S1 S2; cbn [app send_all] in *.
  - injection S1 as <- <-. exact S2.
  - apply bind_ret_inv in S1. destruct S1 as ([p c3] & Q & S1). rewrite Q. cbn [bind].
    apply bind_ret_inv in S1. destruct S1 as ([ps' c4] & S1 & Hx). injection Hx as <- <-.
    rewrite (IH _ _ _ _ _ _ S1 S2). reflexivity.
Qed.

Lemma send_all_length : forall ms c ps c', send_all c ms = Ret (ps, c') -> length ps = length ms.
Proof.
  induction ms as [|m ms IH]; intros c ps c' S1; cbn [send_all] in S1.
  - now injection S1 as <- <-.
  - apply bind_ret_inv in S1. destruct S1 as ([p c1] & Q & S1).
    apply bind_ret_inv in S1. destruct S1 as ([ps' c2] & S1 & Hx). injection Hx as <- <-.
    cbn [length]. now rewrite (IH _ _ _ S1).
Qed.

Lemma after_prefix m r pre ms c pkts0 pkts out :
  send_all (outbound (session_new m r)) pre = Ret (pkts0, c) ->
  send_all c ms = Ret (pkts, out) -> len pre + len ms < 2 ^ 64 ->
  honest (send_packet_key m r) (pre ++ ms) (pkts0 ++ pkts) /\
  packet_cipher c = fp_at (send_packet_key m r) (len pre) /\
  skipn (N.to_nat (len pre)) (pre ++ ms) = ms.
Proof.
  intros S0 S1 L. split; [|split].
  - eapply sent_honest; [rewrite len_app; exact L|]. exact (send_all_join _ _ _ _ _ _ _ S0 S1).
  - rewrite session_out_at in S0. apply send_all_bodies in S0; [exact (proj1 S0)|lia].
  - unfold len. rewrite Nnat.Nat2N.id. clear. induction pre; [reflexivity|assumption].
Qed.

Lemma version_none ds : version_msgs None ds = map (Msg Decoy None) ds ++ [Msg Genuine None []].
Proof. induction ds as [|d ds IH]; [reflexivity|]. cbn [version_msgs map app]. now rewrite IH. Qed.

Lemma version_handshake g ds : version_msgs (Some g) ds = handshake_msgs g ds.
Proof.
  unfold handshake_msgs. destruct ds as [|d ds]; [reflexivity|]. cbn [version_msgs map app m_type m_contents].
  now rewrite version_none.
Qed.

Lemma recv_all_app a1 : forall a2 c wire vs c' rest,
  recv_all c (a1 ++ a2) wire = Ret (Some vs, c', rest) ->
  exists v1 c1 w1 v2, recv_all c a1 wire = Ret (Some v1, c1, w1) /\
    recv_all c1 a2 w1 = Ret (Some v2, c', rest) /\ vs = v1 ++ v2.
Proof.
  induction a1 as [|a a1 IH]; intros a2 c wire vs c' rest H; cbn [app recv_all] in *.
  - exists [], c, wire, vs. auto.
  - apply bind_ret_inv in H. destruct H as ([[[v|] c1] w1] & R & H); [|discriminate].
    apply bind_ret_inv in H. destruct H as ([[[l|] c2] w2] & R2 & H); [|discriminate].
    injection H as <- <- <-. destruct (IH _ _ _ _ _ _ R2) as (v1 & c3 & w3 & v2 & Q1 & Q2 & ->).
    exists (v :: v1), c3, w3, v2. rewrite R. cbn [bind]. rewrite Q1. auto.
Qed.

Lemma recv_all_length aads : forall c wire vs c' rest,
  recv_all c aads wire = Ret (Some vs, c', rest) -> length vs = length aads.
Proof.
  induction aads as [|a aads IH]; intros c wire vs c' rest H; cbn [recv_all] in H.
  - now injection H as <- <- <-.
  - apply bind_ret_inv in H. destruct H as ([[[v|] c1] w1] & R & H); [|discriminate].
    apply bind_ret_inv in H. destruct H as ([[[l|] c2] w2] & R2 & H); [|discriminate].
    injection H as <- <- <-. cbn [length]. now rewrite (IH _ _ _ _ _ R2).
Qed.

(** Decoys, then a genuine packet: the place of the first genuine one is determined. *)
Lemma genuine_place (ds1 ds2 : list (packet_type * bytes)) x1 x2 t1 t2 :
  Forall is_decoy_packet ds1 -> Forall is_decoy_packet ds2 ->
  ds1 ++ (Genuine, x1) :: t1 = ds2 ++ (Genuine, x2) :: t2 -> ds1 = ds2 /\ x1 = x2 /\ t1 = t2.
Proof.
  intros F1; revert ds2; induction F1 as [|d ds1 Hd F1 IH]; intros ds2 F2 H; destruct F2 as [|d2 ds2 Hd2 F2]; cbn [app] in H.
  - injection H as <- <-. auto.
  - injection H as <- _. discriminate.
  - injection H as -> _. discriminate.
  - injection H as <- H. destruct (IH ds2 F2 H) as (-> & -> & ->). auto.
Qed.

Theorem handshake_integrity m r h' g ds ms ps oc pkts out received ic rest :
  len (terminator m r) = 16 ->
  remote_garbage_terminator (hs_state h') = terminator m r ->
  inbound (sv_cipher (hs_state h')) = outbound (session_new m r) ->
  send_all (outbound (session_new m r)) (handshake_msgs g ds) = Ret (ps, oc) ->
  send_all oc ms = Ret (pkts, out) -> len ds + 1 + len ms < 2 ^ 64 ->
  completes h' received ic rest ->
  forged_handshake (send_packet_key m r) (handshake_msgs g ds ++ ms) (ps ++ pkts) (len ds + 1)
    (terminator m r) received \/
  received = g ++ terminator m r ++ List.concat ps ++ rest /\ ic = oc.
Proof.
  intros Lt Ht Hin S1 S2 L (gr & pk & ds' & x & Hc & Lg & F & R & Hd & Hf). rewrite Ht in *.
  rewrite Hin in R. clear Hf.
  set (vm := handshake_msgs g ds) in *.
  assert (length vm = S (length ds)) as Lv.
  { unfold vm. rewrite <- version_handshake. pose proof (version_msgs_len (Some g) ds) as Q. unfold len in Q. lia. }
  assert (Sa := send_all_join _ _ _ _ _ _ _ S1 S2).
  assert (honest (send_packet_key m r) (vm ++ ms) (ps ++ pkts)) as Ho.
  { eapply sent_honest; [|exact Sa]. unfold len in *. rewrite app_length, Lv. lia. }
  assert (length ps = S (length ds)) as Lp by (rewrite <- Lv; exact (send_all_length _ _ _ _ S1)).
  assert (packet_cipher (outbound (session_new m r)) = fp_at (send_packet_key m r) 0) as Pc
    by (now rewrite session_out_at).
  (* the first packets the receiver took, as many as the handshake of the sender has *)
  set (aads := some_nonempty gr :: repeat None (length ds')) in *.
  assert (length aads = S (length ds')) as La by (unfold aads; cbn [length]; now rewrite repeat_length).
  assert (Hw : forall aads1 c1 v1 w1, recv_all (outbound (session_new m r)) aads1 pk = Ret (Some v1, c1, w1) ->
    (length aads1 <= S (length ds))%nat ->
    (forall j, aad_or_default (nth j aads1 None) = if Nat.eqb j 0 then (match aads1 with [] => [] | _ => gr end) else []) ->
    forged_handshake (send_packet_key m r) (vm ++ ms) (ps ++ pkts) (len ds + 1) (terminator m r) received \/
    (v1 = map view (firstn (length aads1) vm) /\ pk = List.concat (firstn (length aads1) ps) ++ w1 /\
     map aad_or_default aads1 = map aad_of (firstn (length aads1) vm) /\
     send_all (outbound (session_new m r)) (firstn (length aads1) vm) = Ret (firstn (length aads1) ps, c1))).
  { intros aads1 c1 v1 w1 R1 L1 A1.
    destruct (stream_integrity _ _ _ Ho aads1 _ pk v1 c1 w1 0 out Pc Sa R1)
      as [(j & body & J1 & J2 & J3)|(us & ps1 & _ & I2 & _ & I3 & I4 & I5 & I6 & _)].
    - left. exists gr, (pk ++ rest), (N.of_nat j), body. split; [assumption|]. split; [assumption|].
      split; [unfold len; lia|]. split; [destruct J2 as (b & a & ->); exists b, (a ++ rest); now rewrite <- !app_assoc|].
      rewrite A1 in J3. cbn [N.add] in J3. replace (N.of_nat j =? 0) with (Nat.eqb j 0) by (destruct j; reflexivity).
      destruct aads1 as [|a1 aads1]; [cbn in J1; lia|]. exact J3.
    - right. cbn [N.to_nat skipn] in *. rewrite firstn_app in I2, I3, I4, I6.
      replace (length aads1 - length vm)%nat with 0%nat in * by lia. 
      replace (length aads1 - length ps)%nat with 0%nat in * by lia.
      cbn [firstn] in *. rewrite !app_nil_r in *. subst ps1. auto. }
  assert (Ha : forall n, (n <= length aads)%nat -> forall j,
    aad_or_default (nth j (firstn n aads) None) =
    if Nat.eqb j 0 then (match firstn n aads with [] => [] | _ => gr end) else []).
  { intros n Hn j. unfold aads. destruct n as [|n]; [destruct j; reflexivity|]. cbn [firstn].
    destruct j as [|j]; cbn [nth Nat.eqb]; [destruct gr; reflexivity|].
    destruct (nth_in_or_default j (firstn n (repeat (@None bytes) (length ds'))) None) as [Q|Q].
    - assert (forall A (l : list A) k y, In y (firstn k l) -> In y l) as Hi.
      { intros A l k y Hy. rewrite <- (firstn_skipn k l). apply in_or_app. now left. }
      apply Hi, repeat_spec in Q. rewrite Q. reflexivity.
    - rewrite Q. reflexivity. }
  assert (Vv : map view vm = map (fun d => (Decoy, d)) ds ++ [(Genuine, [])]).
  { unfold vm. rewrite <- version_handshake. apply version_msgs_got. }
  assert (Fd : Forall is_decoy_packet (map (fun d => (Decoy, d)) ds)).
  { apply Forall_forall. intros y Hy. apply in_map_iff in Hy. destruct Hy as (d & <- & _). reflexivity. }
  destruct (Compare_dec.le_lt_dec (length aads) (S (length ds))) as [Le|Gt].
  - destruct (Hw _ _ _ _ R Le) as [Fg|(V & W & A & Sd)].
    { intros j. specialize (Ha (length aads) (le_n _) j). now rewrite firstn_all in Ha. }
    { now left. }
    right.
    assert (length ds' = length ds) as Ld.
    { rewrite <- firstn_map, Vv in V. rewrite La in V, Le.
      destruct (Nat.eq_dec (length ds') (length ds)) as [|Ne]; [assumption|]. exfalso.
      rewrite firstn_app, map_length in V. replace (S (length ds') - length ds)%nat with 0%nat in V by lia.
      rewrite firstn_O, app_nil_r in V.
      assert (In (Genuine, x) (map (fun d => (Decoy, d)) ds)) as Q.
      { rewrite <- (firstn_skipn (S (length ds'))). apply in_or_app. left. rewrite <- V.
        apply in_or_app. right. now left. }
      apply in_map_iff in Q. destruct Q as (d & Q & _). discriminate. }
    assert (firstn (length aads) vm = vm) as Fv by (apply firstn_all2; lia).
    assert (firstn (length aads) ps = ps) as Fp by (apply firstn_all2; lia).
    rewrite Fv, Fp in *. rewrite S1 in Sd. injection Sd as <-. split; [|reflexivity].
    rewrite Hc, W. rewrite app_nil_r in *. f_equal.
    unfold aads, vm in A. rewrite <- version_handshake in A.
    assert (aad_or_default (some_nonempty gr) = g) as Q.
    { destruct ds as [|d ds]; cbn [version_msgs map] in A; injection A as A _; exact A. }
    rewrite <- Q. destruct gr; reflexivity.
  - left. set (n := S (length ds)) in *.
    rewrite <- (firstn_skipn n aads) in R. destruct (recv_all_app _ _ _ _ _ _ _ R) as (v1 & c1 & w1 & v2 & R1 & R2 & Q).
    assert (length (firstn n aads) = n) as Ln by (rewrite firstn_length; lia).
    destruct (Hw _ _ _ _ R1) as [Fg|(V & _)].
    { rewrite Ln. subst n. lia. }
    { apply Ha. lia. }
    { exact Fg. }
    exfalso. rewrite Ln in V. assert (firstn n vm = vm) as Fv by (apply firstn_all2; subst n; lia). rewrite Fv, Vv in V.
    pose proof (recv_all_length _ _ _ _ _ _ R2) as Lv2. rewrite skipn_length in Lv2.
    rewrite V, <- app_assoc in Q. cbn [app] in Q.
    destruct (genuine_place ds' _ _ _ [] v2 Hd Fd Q) as (_ & _ & Z). subst v2. cbn [length] in Lv2. lia.
Qed.

Theorem session_integrity magic r sk sk' g d gr dr :
  EcdhAgrees E -> len magic = 4 ->
  sk_valid sk = true -> sk_valid sk' = true ->
  (debug_assertions = true -> sk <> zeros 32 /\ sk' <> zeros 32) ->
  len (garbage_bytes g) <= 4095 -> len (garbage_bytes gr) <= 4095 ->
  (overflow_checks = true -> len (decoy_list d) + 1 < 2 ^ 32 /\ len (decoy_list dr) + 1 < 2 ^ 32) ->
  take 4 (ellswift_of sk) <> magic -> take 4 (ellswift_of sk') <> magic ->
  exists k k' m ps,
    party_start magic (opp r) sk' gr = Ret (Ok (k, ellswift_of sk' ++ garbage_bytes gr)) /\
    party_key k (ellswift_of sk) dr = Ret (Ok (k', terminator m (opp r) ++ List.concat ps)) /\
    (let '(ski, skr) := in_order r sk sk' in
     keys_from (bip_prk magic (bip_secret (ellswift_of ski) (ellswift_of skr) ski PartyA)) m) /\
    send_all (outbound (session_new m (opp r))) (handshake_msgs (garbage_bytes gr) (decoy_list dr)) =
      Ret (ps, outbound (sv_cipher (hs_state k'))) /\
    forall ms pkts out fl s wr o i oc sr received,
      send_all (outbound (sv_cipher (hs_state k'))) ms = Ret (pkts, out) ->
      len (decoy_list dr) + 1 + len ms < 2 ^ 64 ->
      content s = ellswift_of sk' ++ received ->
      io_handshake fl magic r sk g d s wr = Ret o -> ho_result o = Ok (i, oc, sr) ->
      let kP := send_packet_key m (opp r) in
      let sent := handshake_msgs (garbage_bytes gr) (decoy_list dr) ++ ms in
      let hs := len (decoy_list dr) + 1 in
      let genuine_or_forged xs :=
        let got := map seen (payloads_of xs) in
        got = firstn (length got) (map view ms) \/
        forged_between kP sent (ps ++ pkts) hs (hs + len got) (session_content sr) in
      forged_handshake kP sent (ps ++ pkts) hs (terminator m (opp r)) received \/
      received = garbage_bytes gr ++ terminator m (opp r) ++ List.concat ps ++ session_content sr /\
      i = outbound (sv_cipher (hs_state k')) /\
      (forall n xs rd, read_many n (established fl i sr) = Ret (xs, rd) -> genuine_or_forged xs) /\
      (forall acts xs rd f, run_schedule acts FreshFuture (TReader i sr init_reading_length) = Ret (xs, rd, f) ->
         genuine_or_forged xs).
Proof.
  intros EA Hm Vs Vs' Hz Hg Hgr Hov M M'.
  assert (exists m, let '(ski, skr) := in_order r sk sk' in
     keys_from (bip_prk magic (bip_secret (ellswift_of ski) (ellswift_of skr) ski PartyA)) m) as (m & KF).
  { destruct r; cbn [in_order].
    - destruct (key_ok magic Initiator (EcdhPoint sk (ellswift_of sk)) None (ellswift_of sk') None Hm (ellswift_len _) M')
        as (m & _ & _ & KF & _); [intros _; reflexivity|]. exists m. exact KF.
    - destruct (key_ok magic Initiator (EcdhPoint sk' (ellswift_of sk')) None (ellswift_of sk) None Hm (ellswift_len _) M)
        as (m & _ & _ & KF & _); [intros _; reflexivity|]. exists m. exact KF. }
  destruct (half magic r sk sk' g d m EA Hm Vs Vs' (fun Q => proj1 (Hz Q)) Hg (fun Q => proj1 (Hov Q)) M' KF) as
    (h & h' & ps0 & oc0 & St & K & S0 & Tr & In & _).
  destruct (half magic (opp r) sk' sk gr dr m EA Hm Vs' Vs (fun Q => proj2 (Hz Q)) Hgr (fun Q => proj2 (Hov Q)) M) as
    (k & k' & ps & oc' & St' & K' & S' & Tr' & In' & Out').
  { destruct r; exact KF. }
  assert (send_all (outbound (session_new m (opp r))) (handshake_msgs (garbage_bytes gr) (decoy_list dr)) =
          Ret (ps, oc')) as Sg.
  { rewrite <- version_handshake, <- S'. apply send_version_aad. now destruct gr. }
  exists k, k', m, ps. split; [exact St'|]. split; [exact K'|]. split; [exact KF|].
  split; [rewrite Out'; exact Sg|].
  intros ms pkts out fl s wr o i oc sr received Sm L C H R. rewrite Out' in *.
  destruct (handshake_content _ _ _ _ _ _ _ _ _ _ _ _ Hm H R) as
    (h1 & fa & h1' & wa & their & received' & St1 & Lt & K1 & C1 & Co & _).
  rewrite St in St1. injection St1 as <- _.
  assert (their = ellswift_of sk' /\ received' = received) as [-> ->].
  { rewrite C1 in C. assert (len their = len (ellswift_of sk')) as Q by (now rewrite ellswift_len).
    apply app_inj_len in C; [exact C|exact Q]. }
  rewrite K in K1. injection K1 as <- _.
  assert (len (terminator m (opp r)) = 16) as TL.
  { destruct (in_order r sk sk'). eapply terminator_len, KF. }
  assert (inbound (sv_cipher (hs_state h')) = outbound (session_new m (opp r))) as Mi.
  { rewrite In. now destruct r. }
  destruct (handshake_integrity m (opp r) h' (garbage_bytes gr) (decoy_list dr) ms ps oc' pkts out received i
              (session_content sr) TL Tr Mi Sg Sm L Co) as [F|[Q ->]]; [now left|]. right.
  split; [exact Q|]. split; [reflexivity|].
  assert (len (handshake_msgs (garbage_bytes gr) (decoy_list dr)) = len (decoy_list dr) + 1) as Lh.
  { rewrite <- version_handshake. pose proof (version_msgs_len (Some (garbage_bytes gr)) (decoy_list dr)) as Q'. unfold len in *. lia. }
  destruct (after_prefix m (opp r) _ ms oc' ps pkts out Sg Sm) as (Ho & Pc & Sk); [rewrite Lh; exact L|].
  rewrite Lh in *. split.
  - intros n xs rd Hr. pose proof (reads_integrity _ _ _ Ho fl oc' sr n xs rd _ Pc Hr) as X. rewrite Sk in X. exact X.
  - intros acts xs rd f Hr. pose proof (polls_integrity _ _ _ Ho acts oc' sr xs rd f _ Pc Hr) as X. rewrite Sk in X. exact X.
Qed.

End WithLaws.
