(** * PropsBytestream: no byte an endpoint sends behind its key and garbage is given away by the format (C83) *)
From Coq Require Import List PeanoNat NArith Bool Lia ZifyBool ZifyN ZifyNat String.
From Coq.Strings Require Import Byte.
From Verif Require Import Base BaseFacts Env FsChacha Spec Cipher Histories FsChachaProofs CipherProofs Handshake SpecHandshake HsDriver
  HandshakeProofs HsRunProofs IntegrityProofs OversizeProofs SpecSecrecy SecrecyProofs Toy PropsCipher PropsHandshake PropsSecrecy.
Import ListNotations.
Local Open Scope N_scope.

(** All an endpoint sends: key and garbage; terminator, decoys and version in answer to the peer's key [their]; and packets. *)
Definition spoken {E : Env} (magic : bytes) (r : role) (sk : bytes) (g : option bytes) (d : option (list bytes))
    (their : bytes) (ms : list msg) : run (option bytes) :=
  let! x := party_start magic r sk g in
  match x with
  | Err _ => Ret None
  | Ok (h, first) =>
    let! y := party_key h their d in
    match y with
    | Err _ => Ret None
    | Ok (h, second) =>
      let! (pkts, _) := send_all (outbound (sv_cipher (hs_state h))) ms in
      Ret (Some (first ++ second ++ List.concat pkts))
    end
  end.

(** [E] with another key stream, another MAC, and other garbage terminators; the keys and everything else are derived as
    before. *)
Definition other_bytes (E E' : Env) : Prop :=
  overflow_checks (Env := E') = overflow_checks (Env := E) /\ debug_assertions (Env := E') = debug_assertions (Env := E) /\
  sk_valid (Env := E') = sk_valid (Env := E) /\ ellswift_of (Env := E') = ellswift_of (Env := E) /\
  ecdh_xonly (Env := E') = ecdh_xonly (Env := E) /\ hkdf_extract (Env := E') = hkdf_extract (Env := E) /\
  forall prk info n, info <> list_byte_of_string "garbage_terminators" ->
    hkdf_expand (Env := E') prk info n = hkdf_expand (Env := E) prk info n.

(** The key material of an endpoint. *)
Definition keys_of {E : Env} (magic : bytes) (r : role) (sk their : bytes) (m : key_material) : Prop :=
  let '(ei, er) := in_order r (ellswift_of sk) their in keys_from (bip_prk magic (bip_secret ei er sk (party_of r))) m.

Definition with_terminators (E : Env) (t : bytes) : Env :=
  {| overflow_checks := @overflow_checks E;
     debug_assertions := @debug_assertions E;
     keystream := @keystream E;
     mac := @mac E;
     sk_valid := @sk_valid E;
     ellswift_of := @ellswift_of E;
     ecdh_xonly := @ecdh_xonly E;
     hkdf_extract := @hkdf_extract E;
     hkdf_expand := fun prk info n =>
       if bytes_eqb info (list_byte_of_string "garbage_terminators") && (n =? 32) then Some (t ++ t)
       else @hkdf_expand E prk info n |}.

Lemma with_terminators_laws E (EL : EnvLaws E) t : len t = 16 -> EnvLaws (with_terminators E t).
Proof.
  intros L. constructor.
  - apply (@keystream_len E EL).
  - apply (@mac_len E EL).
  - apply (@ellswift_len E EL).
  - intros prk info. cbn [hkdf_expand with_terminators]. rewrite N.eqb_refl, andb_true_r.
    destruct (bytes_eqb info _); [|apply (@hkdf_expand_32 E EL)]. exists (t ++ t). split; [reflexivity|]. rewrite len_app. lia.
Qed.

Lemma keys_with_terminators E t ks mc magic r sk their m m' : len t = 16 ->
  @keys_of E magic r sk their m -> @keys_of (with_primitives (with_terminators E t) ks mc) magic r sk their m' ->
  terminator m' r = t /\ forall r', send_length_key m' r' = send_length_key m r' /\ send_packet_key m' r' = send_packet_key m r'.
Proof.
  intros Lt. unfold keys_of. cbn [ellswift_of with_primitives with_terminators].
  destruct (in_order r (@ellswift_of E sk) their) as [ei er].
  unfold keys_from, bip_derived, bip_prk, bip_secret. cbn [hkdf_expand hkdf_extract ecdh_xonly with_primitives with_terminators].
  set (prk := @hkdf_extract E _ _).
  intros (A1 & A2 & A3 & A4 & A5 & _) (B1 & B2 & B3 & B4 & B5 & B6 & _ & _ & _ & _ & _ & L1 & L2).
  change (bytes_eqb _ _) with false in B2, B3, B4, B5. change (bytes_eqb _ _) with true in B6. cbn [andb] in B2, B3, B4, B5, B6.
  change (32 =? 32) with true in B6. cbv iota in B6. injection B6 as B6. apply app_inj_len in B6; [|lia]. destruct B6 as [T1 T2].
  split; [destruct r; cbn [terminator]; congruence|]. intros r'. destruct r'; cbn [send_length_key send_packet_key]; split; congruence.
Qed.

Lemma wire_size_app xs ys : wire_size (xs ++ ys) = wire_size xs + wire_size ys.
Proof. unfold wire_size. induction xs as [|x xs IH]; cbn [app fold_right]; [reflexivity|]. rewrite IH. lia. Qed.

Lemma stream_size {E : Env} {EL : EnvLaws E} kL kP ms : forall n,
  len (List.concat (bip_stream kL kP n (map to_bip ms))) = wire_size ms.
Proof.
  induction ms as [|x ms IH]; intros n; [reflexivity|]. cbn [map].
  destruct (to_bip x) as [[dc aad] ct] eqn:B. unfold to_bip in B. injection B as _ _ <-.
  cbn [bip_stream List.concat wire_size fold_right]. fold (wire_size ms). rewrite len_app, IH.
  unfold bip_packet, bip_body, rfc_aead, bip_length_prefix. rewrite !len_app, mac_len, !len_xor_with, len_le_bytes, len_cons. lia.
Qed.

(** ** C83 *)

Theorem C83_any_bytes : forall (E : Env) (EL : EnvLaws E) magic r sk g d their ms m w,
  len magic = 4 -> sk_valid sk = true -> (debug_assertions = true -> sk <> zeros 32) -> len (garbage_bytes g) <= 4095 ->
  len their = 64 -> take 4 their <> magic -> keys_of magic r sk their m ->
  len (decoy_list d) + 1 + len ms < 2 ^ 32 ->
  apart (length_keys m r) (packet_keys m r) (len (decoy_list d) + 1 + len ms) ->
  len w = 16 + wire_size (version_msgs g (decoy_list d)) + wire_size ms ->
  exists E', other_bytes E E' /\ EnvLaws E' /\ (KeystreamSplits E -> KeystreamSplits E') /\
    @spoken E' magic r sk g d their ms = Ret (Some (ellswift_of sk ++ garbage_bytes g ++ w)).
Proof.
  intros E EL magic r sk g d their ms m w Hm Hv Hz Hg Ht Hn K L A Lw.
  set (ds := decoy_list d) in *. set (vs := version_msgs g ds) in *.
  assert (Lv : len vs = len ds + 1) by apply version_msgs_len.
  set (t := take 16 w). set (w' := drop 16 w).
  assert (Lt : len t = 16) by (unfold t; rewrite len_take; lia).
  assert (Lw' : len w' = wire_size (vs ++ ms)).
  { unfold w'. rewrite len_drop, Lw, wire_size_app. lia. }
  set (E1 := with_terminators E t). assert (EL1 : EnvLaws E1) by (now apply with_terminators_laws).
  assert (L' : len (vs ++ ms) < 2 ^ 32) by (rewrite len_app; lia).
  assert (A1 : apart (@length_keys E1 m r) (@packet_keys E1 m r) (len (vs ++ ms))) by (rewrite len_app, Lv; exact A).
  assert (exists ws, Forall2 fits (vs ++ ms) ws /\ List.concat ws = w') as (ws & F & Hw).
  { clearbody w'. clear - Lw'. revert w' Lw'. generalize (vs ++ ms). intros l. induction l as [|x l IH]; intros w Hw; cbn [wire_size fold_right] in Hw.
    - exists []. apply len_0_nil in Hw. subst. split; [constructor|reflexivity].
    - fold (wire_size l) in Hw. set (k := len (m_contents x) + 20) in *.
      assert (La : len (take k w) = k) by (rewrite len_take; lia).
      assert (Hb : len (drop k w) = wire_size l) by (rewrite len_drop; lia).
      destruct (IH _ Hb) as (ws & F & Hc). exists (take k w :: ws). split; [constructor; assumption|].
      cbn [List.concat]. rewrite Hc. apply take_drop. }
  set (kL := send_length_key m r) in *. set (kP := send_packet_key m r) in *.
  set (ks := @any_ks E1 kL kP (vs ++ ms) ws). set (mc := @any_mac E1 kP (vs ++ ms) ws).
  pose proof (@any_stream E1 EL1 kL kP (vs ++ ms) ws L' F A1) as S. fold ks mc in S.
  set (E' := with_primitives E1 ks mc) in *.
  assert (EL' : EnvLaws E').
  { apply (with_laws E1 EL1); [apply masked_len|intros; now apply any_mac_len]. }
  exists E'. split; [|split; [exact EL'|split]].
  { repeat (split; [reflexivity|]). intros prk info n Hi. cbn [hkdf_expand E' with_primitives E1 with_terminators].
    destruct (bytes_eqb info _) eqn:B; [|reflexivity]. apply bytes_eqb_spec in B. now elim Hi. }
  { intros Sp. exact (@masked_splits E1 EL1 _ Sp). }
  unfold spoken. rewrite (@start_ok E' EL' magic r sk g Hv Hz Hg). cbn [bind].
  destruct (@key_ok E' EL' magic r (EcdhPoint sk (ellswift_of sk)) g their d Hm Ht Hn) as (m' & ps & oc & K' & S1 & ->).
  { intros _. fold ds. lia. }
  cbn [bind hs_state sv_cipher outbound].
  destruct (keys_with_terminators E t ks mc magic r sk their m m' Lt K K') as [T KK]. destruct (KK r) as [KL KP].
  destruct (@stream_conforms E' EL' m' r (vs ++ ms) L') as [c Hc]. rewrite KL, KP in Hc. fold kL kP in Hc. rewrite S in Hc.
  fold ds in S1. fold vs in S1.
  apply (@send_all_app E') in Hc. destruct Hc as (p1 & c1 & pkts & Q1 & Q2 & Hc). rewrite S1 in Q1. injection Q1 as <- <-.
  rewrite Q2. cbn [bind].
  rewrite T. unfold bip_first_flight. cbn [ellswift_of E' with_primitives E1 with_terminators]. do 2 f_equal.
  rewrite <- !app_assoc. do 2 f_equal. rewrite <- concat_app. transitivity (t ++ List.concat ws); [now rewrite Hc|]. rewrite Hw. unfold t, w'. apply take_drop.
Qed.
Print Assumptions C83_any_bytes.

(** What remains visible: the key, the garbage, and the number of bytes. *)
Theorem C83_sizes : forall (E : Env) (EL : EnvLaws E) magic r sk g d their ms,
  len magic = 4 -> sk_valid sk = true -> (debug_assertions = true -> sk <> zeros 32) -> len (garbage_bytes g) <= 4095 ->
  len their = 64 -> take 4 their <> magic -> len (decoy_list d) + 1 + len ms < 2 ^ 32 ->
  exists w, spoken magic r sk g d their ms = Ret (Some (ellswift_of sk ++ garbage_bytes g ++ w)) /\
    len w = 16 + wire_size (version_msgs g (decoy_list d)) + wire_size ms.
Proof.
  intros E EL magic r sk g d their ms Hm Hv Hz Hg Ht Hn L.
  set (ds := decoy_list d) in *. set (vs := version_msgs g ds) in *.
  assert (Lv : len vs = len ds + 1) by apply version_msgs_len.
  assert (L' : len (vs ++ ms) < 2 ^ 32) by (rewrite len_app; lia).
  unfold spoken. rewrite start_ok by assumption. cbn [bind].
  destruct (key_ok magic r (EcdhPoint sk (ellswift_of sk)) g their d Hm Ht Hn) as (m & ps & oc & K & S1 & ->); [intros _; fold ds; lia|].
  cbn [bind hs_state sv_cipher outbound].
  destruct (stream_conforms m r (vs ++ ms) L') as [c Hc]. fold ds in S1. fold vs in S1.
  apply send_all_app in Hc. destruct Hc as (p1 & c1 & pkts & Q1 & Q2 & Hc). rewrite S1 in Q1. injection Q1 as <- <-.
  rewrite Q2. cbn [bind]. exists (terminator m r ++ List.concat (ps ++ pkts)). split.
  { unfold bip_first_flight. rewrite concat_app, <- !app_assoc. reflexivity. }
  assert (len (terminator m r) = 16) as T.
  { cbn [elligator_swift secret_key] in K. destruct (in_order r (ellswift_of sk) their). exact (terminator_len _ m r K). }
  rewrite len_app, T, <- Hc, <- N.add_assoc. f_equal. rewrite <- wire_size_app. apply stream_size.
Qed.
Print Assumptions C83_sizes.


(** An initiator with garbage, two decoy packets and three messages: all its 149 bytes behind the garbage can be zero. *)
Definition talk_their : bytes := Eval vm_compute in @ellswift_of (toy false) skb.
Definition talk_keys : key_material := Eval vm_compute in
  match @from_ecdh (toy false) (@ellswift_of (toy false) ska) talk_their ska (party_of Initiator) mainnet with
  | Ret (Ok m) => m
  | _ => sample_km
  end.
Definition talk_msgs : list msg := version_msgs (Some [x0a; x0b]) [[x01]; [x02; x03]] ++ three.
Definition talk_zero : list bytes := map (fun x => zeros (len (m_contents x) + 20)) talk_msgs.
Definition talk_env : Env :=
  let E := with_terminators (toy false) (zeros 16) in
  with_primitives E (@any_ks E (initiator_length_key talk_keys) (initiator_packet_key talk_keys) talk_msgs talk_zero)
    (@any_mac E (initiator_packet_key talk_keys) talk_msgs talk_zero).

Example C83_example :
  @apart (@length_keys (toy false) talk_keys Initiator) (@packet_keys (toy false) talk_keys Initiator) 6 /\
  (let said E := @spoken E mainnet Initiator ska (Some [x0a; x0b]) (Some [[x01]; [x02; x03]]) talk_their three in
   said talk_env = Ret (Some (@ellswift_of (toy false) ska ++ [x0a; x0b] ++ zeros (16 + wire_size talk_msgs))) /\
   match said (toy false) with
   | Ret (Some w) => len w = 64 + 2 + 149 /\ drop 66 w <> zeros 149
   | _ => False
   end).
Proof.
  split.
  - intros e He. destruct e as [|e]; [vm_compute; discriminate|]. lia.
  - vm_compute. repeat split. discriminate.
Qed.
