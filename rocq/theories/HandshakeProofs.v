(** * HandshakeProofs: proofs of C17-C26 *)
From Coq Require Import List NArith Bool Lia ZArith String.
From Coq.Strings Require Import Byte.
From Coq Require Import ZifyBool ZifyNat ZifyN.
From Verif Require Import Base BaseFacts Env FsChacha Spec FsChachaProofs Cipher CipherFacts
  Histories CipherProofs Handshake SpecHandshake HsDriver.
Import ListNotations.
Local Open Scope N_scope.

(** ** Searching *)

Lemma take_eq_len (t l : bytes) n : take n l = t -> len t <= len l.
Proof. intros <-. rewrite len_take. lia. Qed.

Lemma occurs_0 t l : occurs_at t l 0 <-> take (len t) l = t.
Proof.
  unfold occurs_at. rewrite drop_0. split; [tauto|]. intros H. split; [|assumption].
  apply take_eq_len in H. lia.
Qed.

Lemma drop_succ (b : byte) l i : drop (N.succ i) (b :: l) = drop i l.
Proof. unfold drop. now rewrite Nnat.N2Nat.inj_succ. Qed.

Lemma occurs_cons t b l i : occurs_at t (b :: l) (N.succ i) <-> occurs_at t l i.
Proof. unfold occurs_at. rewrite drop_succ, len_cons. intuition lia. Qed.

Lemma window_position_some t l i : window_position t l = Some i -> first_at t l i.
Proof.
  revert i. induction l as [|b l IH]; intros i; cbn [window_position].
  - destruct (bytes_eqb _ _) eqn:H; [|discriminate]. intros K; injection K as <-.
    apply bytes_eqb_spec in H. split; [now apply occurs_0|lia].
  - destruct (bytes_eqb _ _) eqn:H.
    + intros K; injection K as <-. apply bytes_eqb_spec in H. split; [now apply occurs_0|lia].
    + apply bytes_eqb_neq in H. destruct (window_position t l) as [j|]; [|discriminate].
      cbn [option_map]. intros K; injection K as <-. destruct (IH j eq_refl) as [H1 H2].
      split; [now apply occurs_cons|]. intros k Hk.
      destruct (N.eq_dec k 0) as [->|Hk0].
      * intros O. now apply occurs_0 in O.
      * replace k with (N.succ (N.pred k)) by lia. rewrite occurs_cons. apply H2. lia.
Qed.

Lemma window_position_none t l : window_position t l = None -> forall i, ~ occurs_at t l i.
Proof.
  induction l as [|b l IH]; cbn [window_position]; destruct (bytes_eqb _ _) eqn:H;
    try discriminate; apply bytes_eqb_neq in H.
  - intros _ i [O1 O2]. rewrite len_nil in O1. replace i with 0 in * by lia.
    apply H. now rewrite drop_0 in O2.
  - destruct (window_position t l); [discriminate|]. intros _ k.
    destruct (N.eq_dec k 0) as [->|Hk0].
    + intros O. now apply occurs_0 in O.
    + replace k with (N.succ (N.pred k)) by lia. rewrite occurs_cons. now apply IH.
Qed.

Lemma first_at_unique t l i j : first_at t l i -> first_at t l j -> i = j.
Proof.
  intros [O1 M1] [O2 M2]. destruct (N.lt_trichotomy i j) as [H|[H|H]]; [|assumption|].
  - now apply M2 in H.
  - now apply M1 in H.
Qed.

Lemma occurs_take t l k i :
  occurs_at t (take k l) i <-> occurs_at t l i /\ i + len t <= k.
Proof.
  unfold occurs_at. rewrite len_take. split.
  - intros [H1 H2]. repeat split; try lia. rewrite <- H2 at 2.
    rewrite !take_drop_comm, take_take. do 2 f_equal. lia.
  - intros [[H1 H2] H3]. split; [lia|]. rewrite <- H2 at 2.
    rewrite !take_drop_comm, take_take. do 2 f_equal. lia.
Qed.

Lemma occurs_app t l more i : i + len t <= len l -> occurs_at t (l ++ more) i <-> occurs_at t l i.
Proof.
  intros H. unfold occurs_at. rewrite len_app. rewrite !take_drop_comm, take_app_le by assumption.
  intuition lia.
Qed.

Lemma first_at_app t l more i : first_at t l i -> first_at t (l ++ more) i.
Proof.
  intros [O M]. assert (H := proj1 O). split; [now apply occurs_app|].
  intros j Hj. rewrite occurs_app by lia. now apply M.
Qed.

(** ** Garbage *)

Definition found (h : handshake sent_version) (buf : bytes) (i : N) : garbage_result :=
  FoundGarbage (Handshake (hs_magic h) (hs_role h)
                  (ReceivedGarbage (sv_cipher (hs_state h)) (some_nonempty (take i buf)))) (i + 16).

Definition no_term (t buf : bytes) : Prop := forall i, i <= 4095 -> ~ occurs_at t buf i.

Section WithEnv.
Context {E : Env} {EL : EnvLaws E}.

(** The three outcomes, under the condition that selects each. *)
Lemma receive_garbage_cases h buf :
  let t := remote_garbage_terminator (hs_state h) in
  len t = 16 ->
  (exists i, i <= 4095 /\ first_at t buf i /\ receive_garbage h buf = Ret (Ok (found h buf i))) \/
  (no_term t buf /\ 4111 <= len buf /\ receive_garbage h buf = Ret (Err NoGarbageTerminator)) \/
  (no_term t buf /\ len buf < 4111 /\ receive_garbage h buf = Ret (Ok (NeedMoreData h))).
Proof.
  cbn zeta. intros Ht. unfold receive_garbage, split_garbage.
  change (MAX_NUM_GARBAGE_BYTES + NUM_GARBAGE_TERMINTOR_BYTES) with 4111.
  rewrite slice_ok by lia. cbn [bind]. rewrite drop_0, N.sub_0_r.
  set (t := remote_garbage_terminator (hs_state h)) in *.
  destruct (window_position t (take (N.min (len buf) 4111) buf)) as [i|] eqn:W.
  - left. apply window_position_some in W. destruct W as [O M].
    apply occurs_take in O. destruct O as [O L]. rewrite Ht in L.
    assert (first_at t buf i) as F.
    { split; [assumption|]. intros j Hj Oj. apply (M j Hj). apply occurs_take. split; [assumption|].
      lia. }
    exists i. split; [lia|]. split; [assumption|].
    destruct O as [O1 _]. rewrite split_at_ok by lia. cbn [bind].
    rewrite slice_ok by (rewrite ?len_drop; lia). cbn [bind].
    rewrite len_take, N.min_l by lia. reflexivity.
  - right. assert (no_term t buf) as Hn.
    { intros i Hi O. apply (window_position_none _ _ W i). apply occurs_take. split; [assumption|].
      destruct O as [O _]. lia. }
    destruct (4111 <=? len buf) eqn:L; [left|right]; (split; [assumption|]); split;
      try reflexivity; lia.
Qed.

Lemma receive_garbage_found h buf i :
  len (remote_garbage_terminator (hs_state h)) = 16 ->
  i <= 4095 -> first_at (remote_garbage_terminator (hs_state h)) buf i ->
  receive_garbage h buf = Ret (Ok (found h buf i)).
Proof.
  intros Ht Hi F. destruct (receive_garbage_cases h buf Ht) as [(j & Hj & Fj & ->)|[(Hn & _)|(Hn & _)]].
  - now rewrite (first_at_unique _ _ _ _ F Fj).
  - destruct F as [O _]. now apply Hn in O.
  - destruct F as [O _]. now apply Hn in O.
Qed.

(** C22 *)
Theorem garbage_exact h buf r :
  let t := remote_garbage_terminator (hs_state h) in
  len t = 16 -> receive_garbage h buf = Ret r ->
  (forall h' n, r = Ok (FoundGarbage h' n) <->
     exists i, i <= 4095 /\ first_at t buf i /\ n = i + 16 /\
       h' = Handshake (hs_magic h) (hs_role h)
              (ReceivedGarbage (sv_cipher (hs_state h))
                 (if i =? 0 then None else Some (take i buf)))) /\
  (r = Err NoGarbageTerminator <-> (forall i, i <= 4095 -> ~ occurs_at t buf i) /\ 4111 <= len buf) /\
  (r = Ok (NeedMoreData h) <-> (forall i, i <= 4095 -> ~ occurs_at t buf i) /\ len buf < 4111).
Proof.
  cbn zeta. intros Ht.
  assert (Hsome : forall i, i <= len buf ->
            some_nonempty (take i buf) = if i =? 0 then None else Some (take i buf)).
  { intros i Hi. destruct (i =? 0) eqn:Z.
    - replace i with 0 by lia. reflexivity.
    - destruct (take i buf) eqn:K; [|reflexivity]. apply (f_equal len) in K.
      rewrite len_take, len_nil in K. lia. }
  destruct (receive_garbage_cases h buf Ht) as [(i & Hi & F & ->)|[(Hn & L & ->)|(Hn & L & ->)]];
    intros K; injection K as <-; unfold found; (split; [|split]).
  - intros h' n. split.
    + intros K; injection K as <- <-. exists i. repeat split; try assumption.
      * apply F.
      * apply F.
      * apply F.
      * f_equal. f_equal. apply Hsome. destruct F as [[F _] _]. lia.
    + intros (j & Hj & Fj & -> & ->). rewrite (first_at_unique _ _ _ _ Fj F).
      rewrite Hsome; [reflexivity|]. destruct F as [[F _] _]. lia.
  - split; [discriminate|]. intros [Hn _]. destruct F as [O _]. now apply Hn in O.
  - split; [discriminate|]. intros [Hn _]. destruct F as [O _]. now apply Hn in O.
  - intros h' n. split; [discriminate|]. intros (i & Hi & [O _] & _). now apply Hn in O.
  - tauto.
  - split; [discriminate|lia].
  - intros h' n. split; [discriminate|]. intros (i & Hi & [O _] & _). now apply Hn in O.
  - split; [discriminate|lia].
  - tauto.
Qed.

Theorem garbage_total h buf :
  len (remote_garbage_terminator (hs_state h)) = 16 ->
  exists r, receive_garbage h buf = Ret r /\
    match r with
    | Ok _ => True
    | Err e => e = NoGarbageTerminator
    end.
Proof.
  intros Ht. destruct (receive_garbage_cases h buf Ht) as [(i & _ & _ & ->)|[(_ & _ & ->)|(_ & _ & ->)]];
    eexists; (split; [reflexivity|]); cbn; auto.
Qed.

(** C23 *)
Theorem garbage_stable h buf more r :
  len (remote_garbage_terminator (hs_state h)) = 16 ->
  receive_garbage h buf = Ret r -> r <> Ok (NeedMoreData h) ->
  receive_garbage h (buf ++ more) = Ret r.
Proof.
  intros Ht H Hn.
  destruct (receive_garbage_cases h buf Ht) as [(i & Hi & F & K)|[(Hno & L & K)|(Hno & L & K)]];
    rewrite H in K; injection K as ->; [| |congruence].
  - rewrite (receive_garbage_found h (buf ++ more) i Ht Hi (first_at_app _ _ _ _ F)).
    unfold found. rewrite take_app_le; [reflexivity|]. destruct F as [[F _] _]. lia.
  - destruct (receive_garbage_cases h (buf ++ more) Ht) as [(i & Hi & [O _] & _)|[(_ & _ & K)|(_ & L2 & _)]].
    + rewrite occurs_app in O by lia. now apply Hno in O.
    + assumption.
    + rewrite len_app in L2. lia.
Qed.

Theorem garbage_chunks h : forall chunks acc,
  len (remote_garbage_terminator (hs_state h)) = 16 ->
  feed_garbage h acc chunks = receive_garbage h (acc ++ List.concat chunks).
Proof.
  induction chunks as [|c cs IH]; intros acc Ht; cbn [feed_garbage List.concat].
  - rewrite app_nil_r.
    destruct (receive_garbage_cases h acc Ht) as [(i & _ & _ & ->)|[(_ & _ & ->)|(_ & _ & ->)]]; reflexivity.
  - destruct (receive_garbage_cases h acc Ht) as [(i & _ & _ & K)|[(_ & _ & K)|(_ & _ & K)]]; rewrite K.
    + cbn [bind found]. symmetry. apply garbage_stable; [assumption| |discriminate]. exact K.
    + cbn [bind]. symmetry. apply garbage_stable; [assumption| |discriminate]. exact K.
    + cbn [bind]. rewrite IH by assumption. now rewrite app_assoc.
Qed.

(** ** Key exchange *)

(** C17 *)
Theorem send_key_contract h garbage out :
  let g := garbage_bytes garbage in
  let e := elligator_swift (in_point (hs_state h)) in
  len e = 64 ->
  (4095 < len g -> send_key h garbage out = Ret (Err TooMuchGarbage, out)) /\
  (len g <= 4095 -> len out < 64 + len g ->
     send_key h garbage out = Ret (Err (BufferTooSmall (64 + len g)), out)) /\
  (len g <= 4095 -> 64 + len g <= len out ->
     send_key h garbage out =
     Ret (Ok (Handshake (hs_magic h) (hs_role h) (SentKey (in_point (hs_state h)) garbage)),
          e ++ g ++ drop (64 + len g) out)) /\
  send_key_len garbage = 64 + len g.
Proof.
  cbn zeta. intros He.
  assert (send_key_len garbage = 64 + len (garbage_bytes garbage)) as Hl by (destruct garbage; reflexivity).
  assert ((match garbage with Some g => MAX_NUM_GARBAGE_BYTES <? len g | None => false end)
          = (4095 <? len (garbage_bytes garbage))) as Hc by (destruct garbage; reflexivity).
  unfold send_key. rewrite Hl, Hc.
  repeat split; intros.
  - now rewrite (proj2 (N.ltb_lt _ _)).
  - rewrite (proj2 (N.ltb_ge _ _)) by assumption. now rewrite (proj2 (N.ltb_lt _ _)).
  - rewrite (proj2 (N.ltb_ge _ _)) by assumption. rewrite (proj2 (N.ltb_ge _ _)) by assumption.
    unfold NUM_ELLIGATOR_SWIFT_BYTES.
    rewrite splice_ok by lia. cbn [bind]. rewrite take_0. cbn [app].
    destruct garbage as [g|]; cbn [garbage_bytes] in *.
    + destruct (split_len (64 + len g) out) as (a & b & -> & La); [assumption|].
      destruct (split_len 64 a) as (a1 & a2 & -> & La1); [lia|]. rewrite len_app in La.
      rewrite <- app_assoc. rewrite drop_app_exact by lia.
      rewrite splice_mid by lia. cbn [bind]. rewrite drop_app_ge by lia.
      rewrite drop_app_exact by lia. reflexivity.
    + cbn [bind]. rewrite len_nil, N.add_0_r. reflexivity.
Qed.

(** C19 *)
Theorem derivation a b sk p magic :
  len magic = 4 ->
  exists m, from_ecdh a b sk p magic = Ret (Ok m) /\
            keys_from (bip_prk magic (bip_secret a b sk p)) m.
Proof.
  intros Hm. unfold from_ecdh.
  rewrite splice_ok by (rewrite ?len_zeros; vm_compute; congruence). cbn [bind].
  rewrite take_0. cbn [app].
  rewrite splice_ok by
    (rewrite ?len_app, ?len_drop, ?len_zeros; try (vm_compute; congruence); rewrite Hm; reflexivity).
  cbn [bind].
  rewrite take_app_exact by reflexivity.
  rewrite (drop_all 28) by (rewrite len_app, len_drop, len_zeros; vm_compute; congruence).
  rewrite app_nil_r.
  change (hkdf_extract (ascii "bitcoin_v2_shared_secret" ++ magic)
            (ecdh_xonly a b sk p (ascii "bip324_ellswift_xonly_ecdh")))
    with (bip_prk magic (bip_secret a b sk p)).
  set (prk := bip_prk _ _). unfold expand32, ascii.
  destruct (hkdf_expand_32 prk (list_byte_of_string "session_id")) as (k1 & H1 & L1).
  destruct (hkdf_expand_32 prk (list_byte_of_string "initiator_L")) as (k2 & H2 & L2).
  destruct (hkdf_expand_32 prk (list_byte_of_string "initiator_P")) as (k3 & H3 & L3).
  destruct (hkdf_expand_32 prk (list_byte_of_string "responder_L")) as (k4 & H4 & L4).
  destruct (hkdf_expand_32 prk (list_byte_of_string "responder_P")) as (k5 & H5 & L5).
  destruct (hkdf_expand_32 prk (list_byte_of_string "garbage_terminators")) as (k6 & H6 & L6).
  rewrite H1, H2, H3, H4, H5, H6.
  rewrite !slice_ok by lia. cbn [bind]. eexists. split; [reflexivity|].
  unfold keys_from, bip_derived.
  cbn [session_id initiator_length_key initiator_packet_key responder_length_key
       responder_packet_key initiator_garbage_terminator responder_garbage_terminator].
  repeat split; try assumption.
  - change (16 - 0) with 16. change (32 - 16) with 16. rewrite drop_0.
    rewrite (take_all 16 (drop 16 k6)) by (rewrite len_drop; lia).
    rewrite take_drop. assumption.
  - change (16 - 0) with 16. rewrite len_take, len_drop. lia.
  - change (32 - 16) with 16. rewrite len_take, len_drop. lia.
Qed.

Lemma keys_from_unique prk m1 m2 : keys_from prk m1 -> keys_from prk m2 -> m1 = m2.
Proof.
  unfold keys_from, bip_derived.
  destruct m1 as [s1 a1 b1 c1 d1 e1 f1], m2 as [s2 a2 b2 c2 d2 e2 f2]. cbn.
  intros (?&?&?&?&?&G1&_&_&_&_&_&L1&_) (?&?&?&?&?&G2&_&_&_&_&_&L2&_).
  rewrite G1 in G2. injection G2 as G. apply app_inj_len in G; [|congruence]. destruct G.
  congruence.
Qed.

(** C18 *)
Theorem receive_key_v1 h their :
  len their = 64 -> len (hs_magic h) = 4 ->
  (receive_key h their = Ret (Err V1Protocol) <-> take 4 their = hs_magic h) /\
  (take 4 their <> hs_magic h ->
   exists m, receive_key h their =
             Ret (Ok (Handshake (hs_magic h) (hs_role h)
                        (ReceivedKey m (sk_local_garbage (hs_state h))))) /\
     let own := sk_point (hs_state h) in
     let '(ei, er) := in_order (hs_role h) (elligator_swift own) their in
     keys_from (bip_prk (hs_magic h)
                  (bip_secret ei er (secret_key own) (party_of (hs_role h)))) m).
Proof.
  intros Ht Hm. unfold receive_key. rewrite slice_ok by lia. cbn [bind].
  change (4 - 0) with 4. rewrite drop_0.
  destruct (bytes_eqb (hs_magic h) (take 4 their)) eqn:Q.
  - apply bytes_eqb_spec in Q. split; [split; congruence|congruence].
  - apply bytes_eqb_neq in Q. set (own := sk_point (hs_state h)).
    destruct (hs_role h) eqn:R; cbn [in_order party_of].
    + destruct (derivation (elligator_swift own) their (secret_key own) PartyA (hs_magic h) Hm)
        as (m & -> & K). cbn [bind]. split; [split; [discriminate|congruence]|]. eauto.
    + destruct (derivation their (elligator_swift own) (secret_key own) PartyB (hs_magic h) Hm)
        as (m & -> & K). cbn [bind]. split; [split; [discriminate|congruence]|]. eauto.
Qed.

(** ** send_version *)

Lemma version_msgs_none ds :
  map to_bip (version_msgs None ds) = map (fun d => (true, [], d)) ds ++ [(false, [], [])].
Proof. induction ds as [|d ds IH]; [reflexivity|]. cbn [version_msgs map app]. now rewrite IH. Qed.

Lemma version_msgs_bip g ds :
  map to_bip (version_msgs g ds) = bip_version_packets (garbage_bytes g) ds.
Proof.
  destruct ds as [|d ds]; unfold bip_version_packets; cbn [version_msgs map app].
  - destruct g; reflexivity.
  - rewrite version_msgs_none. destruct g; reflexivity.
Qed.

Lemma version_msgs_len g ds : len (version_msgs g ds) = len ds + 1.
Proof.
  revert g; induction ds as [|d ds IH]; intros g; cbn [version_msgs]; [reflexivity|].
  rewrite !len_cons, IH. lia.
Qed.

Definition decoys_len (ds : list bytes) : N := fold_right (fun d n => len d + 20 + n) 0 ds.

Lemma send_version_len_eq d : send_version_len d = 36 + decoys_len (decoy_list d).
Proof.
  destruct d as [ds|]; [|reflexivity]. unfold send_version_len. cbn [decoy_list].
  change (NUM_GARBAGE_TERMINTOR_BYTES + encryption_buffer_len (len VERSION_CONTENT)) with 36.
  generalize 36. induction ds as [|x ds IH]; intros n; cbn [fold_left decoys_len fold_right].
  - lia.
  - rewrite IH. unfold encryption_buffer_len. change NUM_PACKET_OVERHEAD_BYTES with 20.
    unfold decoys_len. lia.
Qed.

(** Encrypting into a subslice is [encrypt_to_vec] and a copy. *)
Lemma encrypt_into_eq c out a pt t aad :
  a + (len pt + 20) <= len out ->
  encrypt_into c out a (len pt + 20) pt t aad =
  let! (p, oc) := encrypt_to_vec (outbound c) pt t aad in
  Ret (Ok tt, CipherSession (id c) (inbound c) oc, take a out ++ p ++ drop (a + (len pt + 20)) out).
Proof.
  intros H. unfold encrypt_into. rewrite slice_ok by lia. cbn [bind].
  rewrite encrypt_closed by (rewrite len_take, len_drop; lia).
  rewrite encrypt_to_vec_closed.
  destruct (fp_encrypt _ _ _) as [[[ct tag] pc]| |] eqn:P; cbn [bind]; [|reflexivity|reflexivity].
  destruct (fc_crypt _ _) as [[lb lc]| |] eqn:L; cbn [bind]; [|reflexivity|reflexivity].
  apply fp_encrypt_lens in P. destruct P as [P1 P2]. rewrite len_cons in P1.
  apply fc_crypt_len in L. rewrite len_le_bytes in L.
  rewrite (drop_all (len pt + 20)) by (rewrite len_take, len_drop; lia). rewrite app_nil_r.
  rewrite splice_ok by (autorewrite with len; lia). reflexivity.
Qed.

(** Decoy loop and version packet together. *)
Lemma send_rest ds : forall c out w aad,
  w + decoys_len ds + 20 <= len out ->
  (let! (r, c, out, w, aad) := send_decoys ds c out w aad in
   match r with
   | Err e => Ret (Err e, c, out)
   | Ok _ => encrypt_into c out w (encryption_buffer_len (len VERSION_CONTENT)) VERSION_CONTENT Genuine aad
   end) =
  let! (ps, oc) := send_all (outbound c) (version_msgs aad ds) in
  Ret (Ok tt, CipherSession (id c) (inbound c) oc,
       take w out ++ List.concat ps ++ drop (w + decoys_len ds + 20) out).
Proof.
  induction ds as [|d ds IH]; intros c out w aad H; cbn [send_decoys version_msgs send_all decoys_len fold_right] in *.
  - cbn [bind]. change (encryption_buffer_len (len VERSION_CONTENT)) with (len VERSION_CONTENT + 20).
    change (len VERSION_CONTENT + 20) with 20 in *.
    pose proof (encrypt_into_eq c out w VERSION_CONTENT Genuine aad) as Q.
    change (len VERSION_CONTENT + 20) with 20 in Q. rewrite Q by lia. cbn [m_contents m_type m_aad].
    unfold VERSION_CONTENT.
    destruct (encrypt_to_vec _ _ _ _) as [[p oc]| |]; [|reflexivity|reflexivity].
    cbn [bind List.concat]. rewrite app_nil_r, N.add_0_r. reflexivity.
  - change (encryption_buffer_len (len d)) with (len d + 20). fold (decoys_len ds) in *.
    rewrite encrypt_into_eq by lia. cbn [m_contents m_type m_aad].
    destruct (encrypt_to_vec _ _ _ _) as [[p oc]| |] eqn:Q; [|reflexivity|reflexivity].
    cbn [bind]. apply encrypt_vec_len in Q.
    rewrite IH by (autorewrite with len; lia). cbn [outbound id inbound].
    destruct (send_all _ _) as [[ps oc']| |]; [|reflexivity|reflexivity].
    cbn [bind List.concat]. do 2 f_equal.
    rewrite (take_app_ge (w + (len d + 20))) by (autorewrite with len; lia).
    rewrite (take_app_exact _ p) by (autorewrite with len; lia).
    rewrite (drop_app_ge (w + (len d + 20) + decoys_len ds + 20)) by (autorewrite with len; lia).
    rewrite (drop_app_ge _ p) by (autorewrite with len; lia).
    rewrite drop_drop, !app_assoc. f_equal. f_equal. autorewrite with len. lia.
Qed.

(** C21, in terms of [encrypt_to_vec] *)
Lemma send_version_eq h out decoys :
  let m := session_keys (hs_state h) in
  let r := hs_role h in
  let ds := decoy_list decoys in
  let need := 36 + decoys_len ds in
  len (terminator m r) = 16 -> need <= len out ->
  send_version h out decoys =
  let! (ps, oc) := send_all (outbound (session_new m r)) (version_msgs (rk_local_garbage (hs_state h)) ds) in
  Ret (Ok (Handshake (hs_magic h) r
             (SentVersion (CipherSession (id (session_new m r)) (inbound (session_new m r)) oc)
                (terminator m (opp r)))),
       terminator m r ++ List.concat ps ++ drop need out).
Proof.
  cbn zeta. intros Ht Hn. unfold send_version. rewrite send_version_len_eq.
  rewrite (proj2 (N.ltb_ge _ _)) by assumption.
  set (m := session_keys (hs_state h)) in *. set (r := hs_role h) in *.
  replace (match r with
           | Initiator => (initiator_garbage_terminator m, responder_garbage_terminator m)
           | Responder => (responder_garbage_terminator m, initiator_garbage_terminator m)
           end) with (terminator m r, terminator m (opp r)) by (destruct r; reflexivity).
  change NUM_GARBAGE_TERMINTOR_BYTES with 16.
  rewrite splice_ok by lia. cbn [bind]. rewrite take_0. cbn [app].
  replace (match decoys with Some ds => ds | None => [] end) with (decoy_list decoys)
    by (destruct decoys; reflexivity).
  set (ds := decoy_list decoys) in *.
  pose proof (send_rest ds (session_new m r) (terminator m r ++ drop 16 out) 16
                (rk_local_garbage (hs_state h))) as Q.
  specialize (Q ltac:(autorewrite with len; lia)).
  destruct (send_decoys _ _ _ _ _) as [[[[[x c] o] w] aad]| |]; cbn [bind] in Q |- *.
  - destruct x as [u|e].
    + rewrite Q. destruct (send_all _ _) as [[ps oc]| |]; cbn [bind]; [|reflexivity|reflexivity].
      rewrite take_app_exact by (now rewrite Ht).
      rewrite drop_app_ge by lia. rewrite drop_drop. do 5 f_equal. lia.
    + destruct (send_all _ _) as [[ps oc]| |]; cbn [bind] in Q; discriminate.
  - destruct (send_all _ _) as [[ps oc]| |]; cbn [bind] in Q; (reflexivity || discriminate).
  - destruct (send_all _ _) as [[ps oc]| |]; cbn [bind] in Q; (reflexivity || discriminate).
Qed.

(** C21 *)
Theorem send_version_small h out decoys :
  len out < 36 + decoys_len (decoy_list decoys) ->
  send_version h out decoys =
  Ret (Err (BufferTooSmall (36 + decoys_len (decoy_list decoys))), out).
Proof.
  intros H. unfold send_version. rewrite send_version_len_eq.
  now rewrite (proj2 (N.ltb_lt _ _)).
Qed.

Theorem send_version_contract h out decoys :
  let m := session_keys (hs_state h) in
  let r := hs_role h in
  let ds := decoy_list decoys in
  let need := 36 + decoys_len ds in
  len (terminator m r) = 16 -> len ds + 1 < 2 ^ 32 -> need <= len out ->
  exists oc,
    send_all (outbound (session_new m r)) (version_msgs (rk_local_garbage (hs_state h)) ds) =
      Ret (bip_stream (send_length_key m r) (send_packet_key m r) 0
             (bip_version_packets (garbage_bytes (rk_local_garbage (hs_state h))) ds), oc) /\
    send_version h out decoys =
    Ret (Ok (Handshake (hs_magic h) r
               (SentVersion (CipherSession (session_id m) (inbound (session_new m r)) oc)
                  (terminator m (opp r)))),
         bip_second_flight (terminator m r) (send_length_key m r) (send_packet_key m r)
           (garbage_bytes (rk_local_garbage (hs_state h))) ds ++ drop need out) /\
    len (bip_second_flight (terminator m r) (send_length_key m r) (send_packet_key m r)
           (garbage_bytes (rk_local_garbage (hs_state h))) ds) = need.
Proof.
  cbn zeta. intros Ht Hc Hn.
  pose proof (send_version_eq h out decoys Ht Hn) as Q.
  set (m := session_keys (hs_state h)) in *. set (r := hs_role h) in *.
  set (ds := decoy_list decoys) in *. set (g := rk_local_garbage (hs_state h)) in *.
  assert (Hl : len (version_msgs g ds) < 2 ^ 32) by now rewrite version_msgs_len.
  destruct (stream_conforms m r (version_msgs g ds) Hl) as (oc & S).
  rewrite version_msgs_bip in S. rewrite S in Q. cbn [bind] in Q. exists oc.
  split; [assumption|]. split.
  - rewrite Q. replace (id (session_new m r)) with (session_id m) by (destruct r; reflexivity).
    unfold bip_second_flight. now rewrite <- app_assoc.
  - unfold bip_second_flight. rewrite len_app, Ht.
    enough (forall g ds ps (c c' : cipher), send_all c (version_msgs g ds) = Ret (ps, c') ->
              len (List.concat ps) = 20 + decoys_len ds) as A.
    { rewrite (A _ _ _ _ _ S). lia. }
    clear -EL. intros g ds. revert g. induction ds as [|d ds IH]; intros g ps c c'; cbn [version_msgs send_all].
    + destruct (encrypt_to_vec _ _ _ _) as [[p c1]| |] eqn:K; cbn [bind]; try discriminate.
      intros K2; injection K2 as <- <-. apply encrypt_vec_len in K. cbn [m_contents List.concat] in *.
      autorewrite with len in *. cbn. lia.
    + destruct (encrypt_to_vec _ _ _ _) as [[p c1]| |] eqn:K; cbn [bind]; try discriminate.
      destruct (send_all _ _) as [[ps' c2]| |] eqn:K3; cbn [bind]; try discriminate.
      intros K2; injection K2 as <- <-. apply encrypt_vec_len in K. apply IH in K3.
      cbn [m_contents List.concat decoys_len fold_right] in *. fold (decoys_len ds).
      rewrite len_app, K, K3. lia.
Qed.

(** ** Version phase *)

(** One packet of the version phase, seen as [recv_one]. *)
Definition with_inbound (h : handshake received_garbage) (g : option bytes) (c : cipher)
  : handshake received_garbage :=
  Handshake (hs_magic h) (hs_role h)
    (ReceivedGarbage (CipherSession (id (rg_cipher (hs_state h))) c (outbound (rg_cipher (hs_state h)))) g).

Definition complete_with (h : handshake received_garbage) (c : cipher) : cipher_session :=
  CipherSession (id (rg_cipher (hs_state h))) c (outbound (rg_cipher (hs_state h))).

Lemma versions_step fuel h wire p c rest :
  recv_one (inbound (rg_cipher (hs_state h))) (remote_garbage (hs_state h)) wire = Ret (Some p, c, rest) ->
  party_versions (S fuel) h wire =
  match fst p with
  | Genuine => Ret (Ok (complete_with h c), rest)
  | Decoy => party_versions fuel (with_inbound h None c) rest
  end.
Proof.
  intros H. unfold recv_one in H. cbn [party_versions].
  destruct (len wire <? 3) eqn:L3; [discriminate|].
  unfold hs_decrypt_packet_len.
  destruct (decrypt_packet_len _ _) as [[n c1]| |] eqn:D; cbn [bind] in *; try discriminate.
  assert (17 <= n) as Hn.
  { apply packet_len_range in D; [lia|]. rewrite len_take. lia. }
  destruct (len (drop 3 wire) <? n) eqn:Ln; [discriminate|].
  unfold receive_version. cbn [hs_state remote_garbage rg_cipher inbound].
  set (ct := take n (drop 3 wire)) in *.
  assert (len ct = n) as Hct by (unfold ct; rewrite len_take; lia).
  pose proof (decrypt_agree c1 ct (zeros (n - 16)) (remote_garbage (hs_state h))) as A.
  specialize (A ltac:(lia) ltac:(rewrite len_zeros; lia)).
  destruct (decrypt_in_place c1 ct _) as [[[x c2] b]| |] eqn:P; cbn [bind] in *.
  - destruct x as [[t pt]|e].
    + destruct A as [A _]. rewrite A in H. cbn [bind] in H. injection H as <- <- <-.
      cbn [fst]. destruct t; reflexivity.
    + destruct A as [(e' & A) _]. rewrite A in H. cbn [bind] in H. discriminate.
  - rewrite A in H. discriminate.
  - contradiction.
Qed.

End WithEnv.
