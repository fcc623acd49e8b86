(** * PropsFuzz: the project's fuzz targets, for every input (C77) *)
From Coq Require Import List NArith Bool Lia.
From Coq.Strings Require Import Byte.
From Verif Require Import Base BaseFacts Env Toy FsChacha Cipher Histories CipherProofs Handshake Spec SpecHandshake
  HsDriver HandshakeProofs HsRunProofs FuzzTargets PropsHandshake.
Import ListNotations.
Local Open Scope N_scope.

(** ** C77 *)
Section Targets.
Context {E : Env} {EL : EnvLaws E}.

(** What the seeded RNG has to give: a valid secret key whose encoding does not start like a V1 message. *)
Definition good_seed (rnd : bytes) : Prop :=
  sk_valid rnd = true /\ (debug_assertions = true -> rnd <> zeros 32) /\ take 4 (ellswift_of rnd) <> FUZZ_MAGIC.

Lemma sent_key_ok r rnd : sk_valid rnd = true -> (debug_assertions = true -> rnd <> zeros 32) ->
  fuzz_sent_key r rnd = Ret (Handshake FUZZ_MAGIC r (SentKey (EcdhPoint rnd (ellswift_of rnd)) None), ellswift_of rnd).
Proof.
  intros V D. unfold fuzz_sent_key, hs_new.
  assert (debug_assertions && bytes_eqb rnd (zeros 32) = false) as ->.
  { destruct debug_assertions; [|reflexivity]. cbn [andb]. destruct (bytes_eqb rnd (zeros 32)) eqn:B; [|reflexivity].
    apply bytes_eqb_spec in B. exfalso. now apply D. }
  rewrite V. cbn [bind unwrap].
  destruct (send_key_contract (Handshake FUZZ_MAGIC r (Initialized (EcdhPoint rnd (ellswift_of rnd)))) None (zeros (send_key_len None)))
    as (_ & _ & S & _); [apply ellswift_len|].
  rewrite S by (vm_compute; discriminate). cbn [bind unwrap hs_magic hs_role hs_state in_point elligator_swift].
  change (garbage_bytes None ++ drop _ (zeros (send_key_len None))) with (@nil byte). now rewrite app_nil_r.
Qed.

Lemma sent_version_ok r rnd key :
  len key = 64 -> take 4 key <> FUZZ_MAGIC ->
  exists m h v, fuzz_sent_version (Handshake FUZZ_MAGIC r (SentKey (EcdhPoint rnd (ellswift_of rnd)) None)) key = Ret (h, v) /\
    receive_key (Handshake FUZZ_MAGIC r (SentKey (EcdhPoint rnd (ellswift_of rnd)) None)) key =
      Ret (Ok (Handshake FUZZ_MAGIC r (ReceivedKey m None))) /\
    len (terminator m r) = 16 /\ len (terminator m (opp r)) = 16 /\ take 16 v = terminator m r /\ 16 <= len v /\
    remote_garbage_terminator (hs_state h) = terminator m (opp r).
Proof.
  intros L V. destruct (receive_key_v1 (Handshake FUZZ_MAGIC r (SentKey (EcdhPoint rnd (ellswift_of rnd)) None)) key L eq_refl) as (_ & K).
  destruct (K V) as (m & RK & KF). cbn zeta in KF.
  cbn [hs_magic hs_role hs_state sk_point sk_local_garbage elligator_swift secret_key] in RK, KF.
  assert (forall rr, len (terminator m rr) = 16) as TL.
  { intros rr. destruct (in_order r _ key). eapply terminator_len, KF. }
  destruct (send_version_contract (Handshake FUZZ_MAGIC r (ReceivedKey m None)) (zeros (send_version_len None)) None)
    as (oc & _ & SV & SL); [apply TL|reflexivity|rewrite send_version_len_eq, len_zeros; apply N.le_refl|].
  cbn [hs_magic hs_role hs_state session_keys rk_local_garbage] in SV, SL.
  eexists m, _, _. split.
  { unfold fuzz_sent_version. rewrite slice_ok by lia. change (64 - 0) with 64. rewrite drop_0, take_all by lia. cbn [bind].
    rewrite RK. cbn [bind unwrap]. rewrite SV. cbn [bind unwrap]. reflexivity. }
  split; [exact RK|]. split; [apply TL|]. split; [apply TL|]. split; [|split; [|reflexivity]].
  - unfold bip_second_flight. rewrite <- !app_assoc. rewrite take_app_exact; [reflexivity|]. symmetry. apply TL.
  - rewrite len_app, SL. lia.
Qed.

End Targets.

(** The targets never panic. *)
Theorem C77_no_panic : forall (E : Env) (EL : EnvLaws E) rnd rnd2 data, good_seed rnd -> good_seed rnd2 ->
  (exists x, fuzz_receive_key rnd data = Ret x) /\ (exists x, fuzz_receive_garbage rnd rnd2 data = Ret x).
Proof.
  intros E EL rnd rnd2 data (V1 & D1 & M1) (V2 & D2 & M2). split.
  - unfold fuzz_receive_key. destruct (len data =? 64) eqn:L; [|eexists; reflexivity]. cbn [negb]. rewrite sent_key_ok by assumption. cbn [bind].
    destruct (C26_no_panic_calls E EL) as (RK & _). destruct (RK (Handshake FUZZ_MAGIC Initiator (SentKey (EcdhPoint rnd (ellswift_of rnd)) None)) data)
      as (x & ->); [apply N.eqb_eq, L|reflexivity|]. eexists. reflexivity.
  - unfold fuzz_receive_garbage. destruct (5000 <? len data); [eauto|]. rewrite !sent_key_ok by assumption. cbn [bind].
    destruct (sent_version_ok Responder rnd2 (ellswift_of rnd) (ellswift_len _) M1) as (m & h & v & -> & _ & _ & _ & _ & Lv & _). cbn [bind].
    rewrite slice_ok by lia. cbn [bind].
    destruct (sent_version_ok Initiator rnd (ellswift_of rnd2) (ellswift_len _) M2) as (m' & h' & v' & -> & _ & _ & T & _ & _ & Q). cbn [bind].
    destruct (C26_no_panic_calls E EL) as (_ & RG & _). destruct (RG h' (data ++ take (16 - 0) (drop 0 v))) as (x & ->); [congruence|]. eexists. reflexivity.
Qed.
Print Assumptions C77_no_panic.

(** The only error is V1 detection; every other key of 64 bytes is accepted. *)
Theorem C77_receive_key : forall (E : Env) (EL : EnvLaws E) rnd data x, good_seed rnd ->
  fuzz_receive_key rnd data = Ret x ->
  match x with
  | None => len data <> 64
  | Some (Ok _) => len data = 64 /\ take 4 data <> mainnet
  | Some (Err e) => len data = 64 /\ take 4 data = mainnet /\ e = V1Protocol
  end.
Proof.
  intros E EL rnd data x (V & D & M) H. unfold fuzz_receive_key in H. destruct (len data =? 64) eqn:L; cbn [negb] in H.
  - apply N.eqb_eq in L. rewrite sent_key_ok in H by assumption. cbn [bind] in H.
    destruct (receive_key_v1 (Handshake FUZZ_MAGIC Initiator (SentKey (EcdhPoint rnd (ellswift_of rnd)) None)) data L eq_refl) as (K1 & K2).
    cbn [hs_magic hs_role] in K1, K2. destruct (bytes_eqb (take 4 data) FUZZ_MAGIC) eqn:B.
    + apply bytes_eqb_spec in B. rewrite (proj2 K1 B) in H. injection H as <-. auto.
    + apply bytes_eqb_neq in B. destruct (K2 B) as (m & Q & _). rewrite Q in H. injection H as <-. auto.
  - apply N.eqb_neq in L. injection H as <-. exact L.
Qed.
Print Assumptions C77_receive_key.

(** The garbage target always ends at the first terminator or refuses; [NeedMoreData] is never reached. *)
Theorem C77_receive_garbage : forall (E : Env) (EL : EnvLaws E) rnd rnd2, EcdhAgrees E -> good_seed rnd -> good_seed rnd2 ->
  exists m, keys_from (bip_prk mainnet (bip_secret (ellswift_of rnd) (ellswift_of rnd2) rnd PartyA)) m /\
    let t := responder_garbage_terminator m in
    forall data x, fuzz_receive_garbage rnd rnd2 data = Ret x ->
    match x with
    | None => 5000 < len data
    | Some (Ok (FoundGarbage _ n)) => exists i, i <= 4095 /\ first_at t (data ++ t) i /\ n = i + 16
    | Some (Ok (NeedMoreData _)) => False
    | Some (Err e) => e = NoGarbageTerminator /\ 4095 < len data <= 5000 /\ forall i, i <= 4095 -> ~ occurs_at t (data ++ t) i
    end.
Proof.
  intros E EL rnd rnd2 Ec (V1 & D1 & M1) (V2 & D2 & M2).
  destruct (sent_version_ok Responder rnd2 (ellswift_of rnd) (ellswift_len _) M1) as (m & h & v & F1 & K1 & T1 & _ & Tv & Lv & _).
  destruct (sent_version_ok Initiator rnd (ellswift_of rnd2) (ellswift_len _) M2) as (m' & h' & v' & F2 & K2 & _ & T2 & _ & _ & Q).
  destruct (C20_same_session E EL FUZZ_MAGIC rnd rnd2 None None Ec eq_refl V1 V2 M1 M2) as (m0 & A1 & A2).
  rewrite A1 in K2. rewrite A2 in K1. injection K1 as <-. injection K2 as <-. exists m0. split.
  { destruct (C18_v1_detection E EL (Handshake FUZZ_MAGIC Initiator (SentKey (EcdhPoint rnd (ellswift_of rnd)) None)) (ellswift_of rnd2)
      (ellswift_len _) eq_refl) as (_ & K). destruct (K M2) as (m & RK & KF). cbn [hs_magic hs_role hs_state sk_local_garbage] in RK.
    rewrite A1 in RK. injection RK as <-. exact KF. }
  cbn zeta. intros data x H. unfold fuzz_receive_garbage in H. destruct (5000 <? len data) eqn:L5.
  { apply N.ltb_lt in L5. injection H as <-. exact L5. }
  apply N.ltb_ge in L5. rewrite !sent_key_ok in H by assumption. cbn [bind] in H. rewrite F1 in H. cbn [bind] in H.
  rewrite slice_ok in H by lia. cbn [bind] in H. rewrite F2 in H. cbn [bind] in H.
  change (16 - 0) with 16 in H. rewrite drop_0, Tv in H. cbn [terminator opp] in *.
  set (t := responder_garbage_terminator m0) in *. apply bind_ret_inv in H. destruct H as (r & RG & H). injection H as <-.
  destruct (C22_garbage_exact h' (data ++ t) r ltac:(congruence) RG) as (G1 & G2 & G3). rewrite Q in G1, G2, G3.
  assert (occurs_at t (data ++ t) (len data)) as Oc.
  { split; [rewrite len_app; lia|]. rewrite drop_app_exact by reflexivity. now rewrite take_all. }
  destruct r as [[g n|g]|e].
  - destruct (proj1 (G1 g n) eq_refl) as (i & Li & Fi & -> & _). eauto.
  - assert (Ok (NeedMoreData g) = Ok (NeedMoreData h') :> result error garbage_result) as W.
    { destruct (C22_garbage_total h' (data ++ t)) as (r & R1 & _); [congruence|]. rewrite RG in R1. injection R1 as <-.
      destruct (receive_garbage_cases h' (data ++ t)) as [(i & _ & _ & Z)|[(_ & _ & Z)|(_ & _ & Z)]]; [congruence|..];
        rewrite RG in Z; unfold found in Z; congruence. }
    apply (proj1 G3) in W. destruct W as [W1 W2]. rewrite len_app in W2. apply (W1 (len data)); [lia|assumption].
  - assert (e = NoGarbageTerminator) as ->.
    { destruct (C22_garbage_total h' (data ++ t)) as (r & R1 & R2); [congruence|]. rewrite RG in R1. injection R1 as <-. exact R2. }
    destruct (proj1 G2 eq_refl) as [W1 W2]. split; [reflexivity|]. split; [|exact W1]. split; [|assumption].
    apply N.nle_gt. intros Le. now apply (W1 (len data) Le).
Qed.
Print Assumptions C77_receive_garbage.

(** The comments in receive_key.rs (46-51) expect an invalid encoding and a failing key derivation. *)
Theorem C77_invalid_key_refuted :
  ~ exists (E : Env) (EL : EnvLaws E) rnd data e,
      good_seed rnd /\ fuzz_receive_key rnd data = Ret (Some (Err e)) /\ e <> V1Protocol.
Proof.
  intros (E & EL & rnd & data & e & S & H & N). apply (C77_receive_key E EL _ _ _ S) in H. cbn in H. destruct H as (_ & _ & ->). now apply N.
Qed.
Print Assumptions C77_invalid_key_refuted.

(** receive_garbage.rs does not test what happens when the terminator has not arrived. *)
Theorem C77_incomplete_garbage_refuted :
  ~ exists (E : Env) (EL : EnvLaws E) rnd rnd2 data h,
      EcdhAgrees E /\ good_seed rnd /\ good_seed rnd2 /\ fuzz_receive_garbage rnd rnd2 data = Ret (Some (Ok (NeedMoreData h))).
Proof.
  intros (E & EL & rnd & rnd2 & data & h & Ec & S1 & S2 & H).
  destruct (C77_receive_garbage E EL rnd rnd2 Ec S1 S2) as (m & _ & K). exact (K _ _ H).
Qed.
Print Assumptions C77_incomplete_garbage_refuted.

(** All outcomes there are; the terminator in the data is found first. *)
Example C77_example :
  good_seed (E := toy true) ska /\ good_seed (E := toy true) skb /\
  @fuzz_receive_key (toy true) ska (zeros 63) = Ret None /\
  @fuzz_receive_key (toy true) ska ([xf9; xbe; xb4; xd9] ++ zeros 60) = Ret (Some (Err V1Protocol)) /\
  (exists h, @fuzz_receive_key (toy true) ska (zeros 64) = Ret (Some (Ok h))) /\
  @fuzz_receive_garbage (toy true) ska skb (zeros 5001) = Ret None /\
  @fuzz_receive_garbage (toy true) ska skb (zeros 4096) = Ret (Some (Err NoGarbageTerminator)) /\
  (exists h, @fuzz_receive_garbage (toy true) ska skb (zeros 4095) = Ret (Some (Ok (FoundGarbage h 4111)))) /\
  (exists h, @fuzz_receive_garbage (toy true) ska skb (zeros 3) = Ret (Some (Ok (FoundGarbage h 19)))) /\
  @fuzz_receive_key (toy true) [] (zeros 64) = Panic.
Proof.
  split; [repeat split; vm_compute; congruence|]. split; [repeat split; vm_compute; congruence|].
  repeat split; try (vm_compute; reflexivity); eexists; vm_compute; reflexivity.
Qed.
