(** * PropsMiddle: the key exchange does not tell who the peer is (C84) *)
From Coq Require Import List PeanoNat NArith Bool Lia ZifyBool ZifyN ZifyNat String.
From Coq.Strings Require Import Byte.
From Verif Require Import Base BaseFacts Env FsChacha Spec Cipher Histories FsChachaProofs CipherProofs Handshake SpecHandshake HsDriver
  HandshakeProofs HsRunProofs IntegrityProofs Toy PropsCipher PropsHandshake.
Import ListNotations.
Local Open Scope N_scope.

(** What somebody between an initiator and a responder knows and can do: the keys of both sessions, and ciphers in step with
    both endpoints, with which everything sent can be read and anything be put in its place. *)
Definition reads_all {E : Env} (sender reader : cipher) : Prop :=
  forall ms pkts c', Forall (fun x => len (m_contents x) < 2 ^ 24) ms -> send_all sender ms = Ret (pkts, c') ->
    recv_all reader (map m_aad ms) (List.concat pkts) = Ret (Some (map (fun x => (m_type x, m_contents x)) ms), c', []).

(** ** C84 *)

Theorem C84_in_the_middle : forall (E : Env) (EL : EnvLaws E) magic ska skb sk1 sk2 ga gb da db,
  EcdhAgrees E -> len magic = 4 -> Forall (fun sk => sk_valid sk = true) [ska; skb; sk1; sk2] ->
  (debug_assertions = true -> Forall (fun sk => sk <> zeros 32) [ska; skb; sk1; sk2]) ->
  Forall (fun sk => take 4 (ellswift_of sk) <> magic) [ska; skb; sk1; sk2] ->
  len (garbage_bytes ga) <= 4095 -> len (garbage_bytes gb) <= 4095 ->
  Forall (fun d => len d < 2 ^ 24) (decoy_list da) -> Forall (fun d => len d < 2 ^ 24) (decoy_list db) ->
  len (decoy_list da) + 1 < 2 ^ 32 -> len (decoy_list db) + 1 < 2 ^ 32 ->
  exists ha fa hb fb ha' wa hb' wb ma mb,
    (* what the two endpoints send, with the keys of the one in the middle for those of the peer *)
    party_start magic Initiator ska ga = Ret (Ok (ha, fa)) /\ party_start magic Responder skb gb = Ret (Ok (hb, fb)) /\
    party_key ha (ellswift_of sk1) da = Ret (Ok (ha', wa)) /\ party_key hb (ellswift_of sk2) db = Ret (Ok (hb', wb)) /\
    (* the keys, from what the endpoints have sent and the secrets of the one in the middle *)
    keys_from (bip_prk magic (bip_secret (take 64 fa) (ellswift_of sk1) sk1 PartyB)) ma /\
    keys_from (bip_prk magic (bip_secret (ellswift_of sk2) (take 64 fb) sk2 PartyA)) mb /\
    (first_at (initiator_garbage_terminator ma) (garbage_bytes ga ++ initiator_garbage_terminator ma) (len (garbage_bytes ga)) ->
     first_at (responder_garbage_terminator mb) (garbage_bytes gb ++ responder_garbage_terminator mb) (len (garbage_bytes gb)) ->
     exists h1 f1 h1' w1 h2 f2 h2' w2 ca cb c1 c2,
       (* the one in the middle is a responder for the initiator and an initiator for the responder *)
       party_start magic Responder sk1 None = Ret (Ok (h1, f1)) /\ party_key h1 (take 64 fa) None = Ret (Ok (h1', w1)) /\
       party_start magic Initiator sk2 None = Ret (Ok (h2, f2)) /\ party_key h2 (take 64 fb) None = Ret (Ok (h2', w2)) /\
       (* all four handshakes complete *)
       party_finish ha' (drop 64 f1 ++ w1) = Ret (Ok ca, []) /\ party_finish hb' (drop 64 f2 ++ w2) = Ret (Ok cb, []) /\
       party_finish h1' (drop 64 fa ++ wa) = Ret (Ok c1, []) /\ party_finish h2' (drop 64 fb ++ wb) = Ret (Ok c2, []) /\
       (* everything is read, and anything can be said *)
       reads_all (outbound ca) (inbound c1) /\ reads_all (outbound c2) (inbound cb) /\
       reads_all (outbound cb) (inbound c2) /\ reads_all (outbound c1) (inbound ca) /\
       id ca = session_id ma /\ id cb = session_id mb).
Proof.
  intros E EL magic ska skb sk1 sk2 ga gb da db EA Hm V Z P Ga Gb Da Db La Lb.
  inversion V as [|? ? V1 V']; subst. inversion V' as [|? ? V2 V'']; subst. inversion V'' as [|? ? V3 V3']; subst.
  inversion V3' as [|? ? V4 _]; subst. clear V V' V'' V3'.
  inversion P as [|? ? P1 P']; subst. inversion P' as [|? ? P2 P'']; subst. inversion P'' as [|? ? P3 P3']; subst.
  inversion P3' as [|? ? P4 _]; subst. clear P P' P'' P3'.
  assert (Z1 : debug_assertions = true -> ska <> zeros 32 /\ sk1 <> zeros 32).
  { intros D. specialize (Z D). rewrite !Forall_cons_iff in Z. tauto. }
  assert (Z2 : debug_assertions = true -> sk2 <> zeros 32 /\ skb <> zeros 32).
  { intros D. specialize (Z D). rewrite !Forall_cons_iff in Z. tauto. }
  assert (N0 : len (garbage_bytes None) <= 4095) by (vm_compute; discriminate).
  destruct (C25_honest_handshake E EL magic ska sk1 ga None da None [] [] EA Hm V1 V3 Z1 Ga N0 Da (Forall_nil _))
    as (ha & fa & h1 & f1 & ha' & wa & h1' & w1 & ma & S1 & S2 & K1 & K2 & KM & F1); [intros _; split; [exact La|reflexivity]|assumption..|].
  destruct (C25_honest_handshake E EL magic sk2 skb None gb None db [] [] EA Hm V4 V2 Z2 N0 Gb (Forall_nil _) Db)
    as (h2 & f2 & hb & fb & h2' & w2 & hb' & wb & mb & T1 & T2 & L1 & L2 & LM & F2); [intros _; split; [reflexivity|exact Lb]|assumption..|].
  assert (A : forall r sk g h f, sk_valid sk = true -> (debug_assertions = true -> sk <> zeros 32) -> len (garbage_bytes g) <= 4095 ->
    party_start magic r sk g = Ret (Ok (h, f)) -> take 64 f = ellswift_of sk).
  { intros r sk g h f U1 U2 U3 H. rewrite start_ok in H by assumption. injection H as _ <-. unfold bip_first_flight.
    apply take_app_exact. now rewrite ellswift_len. }
  pose proof (A _ _ _ _ _ V1 (fun d => proj1 (Z1 d)) Ga S1) as Ka. pose proof (A _ _ _ _ _ V3 (fun d => proj2 (Z1 d)) N0 S2) as K1'.
  pose proof (A _ _ _ _ _ V4 (fun d => proj1 (Z2 d)) N0 T1) as K2'. pose proof (A _ _ _ _ _ V2 (fun d => proj2 (Z2 d)) Gb T2) as Kb.
  rewrite K1' in K1. rewrite K2' in L2.
  exists ha, fa, hb, fb, ha', wa, hb', wb, ma, mb.
  split; [exact S1|]. split; [exact T2|]. split; [exact K1|]. split; [exact L2|].
  split. { rewrite Ka. unfold bip_secret in *. rewrite <- (EA _ _ V1 V3). exact KM. }
  split. { rewrite Kb. exact LM. }
  intros X Y.
  assert (R0 : forall t, first_at t (garbage_bytes None ++ t) (len (garbage_bytes None))).
  { intros t. split; [|intros j Hj; change (len (garbage_bytes None)) with 0 in Hj; lia].
    cbn [garbage_bytes app]. change (len []) with 0. split; [lia|]. rewrite drop_0. apply take_all. lia. }
  destruct (F1 X (R0 _)) as (ca & c1 & G1 & G2 & I1 & I2 & O1 & O2).
  destruct (F2 (R0 _) Y) as (c2 & cb & G3 & G4 & I3 & I4 & O3 & O4).
  rewrite app_nil_r in G1, G2, G3, G4.
  exists h1, f1, h1', w1, h2, f2, h2', w2, ca, cb, c1, c2.
  assert (RA : forall c c', c = c' -> reads_all c c').
  { intros c c' <- ms pkts c2' F H. rewrite <- (app_nil_r (List.concat pkts)). now apply C01_round_trip_any_state. }
  repeat match goal with |- _ /\ _ => split end; auto.
Qed.
Print Assumptions C84_in_the_middle.

(** The session ids tell: if both endpoints have the same, then they have used the same two public keys, or ECDH, HKDF-Extract
    or HKDF-Expand has given one result for two different inputs. *)
Theorem C84_session_ids : forall (E : Env) magic ei er ei' er' sk sk' ma mb,
  let sa := bip_secret ei er sk PartyA in
  let sb := bip_secret ei' er' sk' PartyB in
  keys_from (bip_prk magic sa) ma -> keys_from (bip_prk magic sb) mb -> session_id ma = session_id mb ->
  (ei = ei' /\ er = er') \/
  ((ei, er) <> (ei', er') /\ sa = sb) \/
  (sa <> sb /\ bip_prk magic sa = bip_prk magic sb) \/
  (bip_prk magic sa <> bip_prk magic sb /\
   hkdf_expand (bip_prk magic sa) (list_byte_of_string "session_id") 32 =
   hkdf_expand (bip_prk magic sb) (list_byte_of_string "session_id") 32).
Proof.
  intros E magic ei er ei' er' sk sk' ma mb sa sb (KA & _) (KB & _) H. unfold bip_derived in KA, KB. rewrite <- H, <- KA in KB.
  assert (D : forall a b : bytes, a = b \/ a <> b).
  { intros a b. destruct (bytes_eqb a b) eqn:B; [left; now apply bytes_eqb_spec|]. right. intros ->.
    assert (bytes_eqb b b = true) by (now apply bytes_eqb_spec). congruence. }
  destruct (D (bip_prk magic sa) (bip_prk magic sb)) as [P|P]; [|right; right; right; split; [exact P|congruence]].
  destruct (D sa sb) as [Q|Q]; [|right; right; left; now split].
  destruct (D ei ei') as [<-|N1]; [|right; left; split; [congruence|exact Q]].
  destruct (D er er') as [<-|N1]; [|right; left; split; [congruence|exact Q]].
  left. split; reflexivity.
Qed.
Print Assumptions C84_session_ids.

(** An environment whose keys depend on both public keys. *)
Definition toy_keyed (chk : bool) : Env := {|
  overflow_checks := chk;
  debug_assertions := chk;
  keystream := @keystream (toy chk);
  mac := @mac (toy chk);
  sk_valid := @sk_valid (toy chk);
  ellswift_of := @ellswift_of (toy chk);
  ecdh_xonly := fun a b _ _ _ => xor_with (take 32 a) (take 32 b);
  hkdf_extract := fun _ ikm => ikm;
  hkdf_expand := fun prk info n =>
    if n <=? 8160 then Some (xor_with (counting (sum_bytes info) (N.to_nat n)) (take n (prk ++ zeros n))) else None
|}.

#[export] Instance toy_keyed_laws chk : EnvLaws (toy_keyed chk).
Proof.
  constructor.
  - apply (@keystream_len _ (toy_laws chk)).
  - apply (@mac_len _ (toy_laws chk)).
  - apply (@ellswift_len _ (toy_laws chk)).
  - intros prk info. cbn [toy_keyed hkdf_expand]. change (32 <=? 8160) with true. eexists. split; [reflexivity|].
    rewrite len_xor_with, len_take, len_app, len_zeros. lia.
Qed.

Lemma toy_keyed_ecdh chk : EcdhAgrees (toy_keyed chk).
Proof. intros ? ? ? ?; reflexivity. Qed.

(** It is not so that an initiator and a responder that both complete are in one session: the keys are taken as they come. *)
Theorem C84_same_session_refuted :
  ~ forall (E : Env) (EL : EnvLaws E) magic ska skb ka kb ha fa hb fb ha' wa hb' wb ina inb ca cb,
      EcdhAgrees E -> len magic = 4 -> len ka = 64 -> len kb = 64 ->
      party_start magic Initiator ska None = Ret (Ok (ha, fa)) -> party_start magic Responder skb None = Ret (Ok (hb, fb)) ->
      party_key ha ka None = Ret (Ok (ha', wa)) -> party_key hb kb None = Ret (Ok (hb', wb)) ->
      party_finish ha' ina = Ret (Ok ca, []) -> party_finish hb' inb = Ret (Ok cb, []) ->
      id ca = id cb.
Proof.
  intros H.
  assert (V : Forall (fun sk => @sk_valid (toy_keyed false) sk = true) [ska; skb; counting 9 32; counting 100 32]) by (repeat constructor).
  assert (P : Forall (fun sk => take 4 (@ellswift_of (toy_keyed false) sk) <> mainnet) [ska; skb; counting 9 32; counting 100 32]).
  { do 4 (constructor; [vm_compute; discriminate|]). constructor. }
  assert (G : len (garbage_bytes None) <= 4095) by (vm_compute; discriminate).
  assert (D : len (decoy_list None) + 1 < 2 ^ 32) by reflexivity.
  destruct (C84_in_the_middle (toy_keyed false) (toy_keyed_laws false) mainnet ska skb (counting 9 32) (counting 100 32) None None None None
    (toy_keyed_ecdh false) eq_refl V (fun X => ltac:(discriminate X)) P G G (Forall_nil _) (Forall_nil _) D D)
    as (ha & fa & hb & fb & ha' & wa & hb' & wb & ma & mb & S1 & S2 & K1 & K2 & KA & KB & R).
  assert (R0 : forall t, first_at t (garbage_bytes None ++ t) (len (garbage_bytes None))).
  { intros t. split; [|intros j Hj; change (len (garbage_bytes None)) with 0 in Hj; lia].
    cbn [garbage_bytes app]. change (len []) with 0. split; [lia|]. rewrite drop_0. apply take_all. lia. }
  destruct (R (R0 _) (R0 _)) as (h1 & f1 & h1' & w1 & h2 & f2 & h2' & w2 & ca & cb & c1 & c2 & _ & _ & _ & _ & Fa & Fb & _ & _ & _ & _ & _ & _ & Ia & Ib).
  specialize (H (toy_keyed false) (toy_keyed_laws false) mainnet ska skb _ _ ha fa hb fb ha' wa hb' wb _ _ ca cb (toy_keyed_ecdh false)
    eq_refl (@ellswift_len _ (toy_keyed_laws false) _) (@ellswift_len _ (toy_keyed_laws false) _) S1 S2 K1 K2 Fa Fb).
  rewrite start_ok in S1, S2; try reflexivity; try discriminate; try exact G.
  injection S1 as <- <-. injection S2 as <- <-. rewrite Ia, Ib in H. destruct KA as [KA _], KB as [KB _]. unfold bip_derived in KA, KB. rewrite H in KA. rewrite <- KA in KB.
  revert KB. vm_compute. discriminate.
Qed.
Print Assumptions C84_same_session_refuted.

(** Somebody between two endpoints reads the three messages of the initiator and gives the responder another one. *)
Definition middle (E : Env) : option (list (packet_type * bytes) * list (packet_type * bytes) * bool) :=
  match party_start mainnet Initiator ska (Some [x0a; x0b]), party_start mainnet Responder skb None,
        party_start mainnet Responder (counting 9 32) None, party_start mainnet Initiator (counting 100 32) None with
  | Ret (Ok (ha, fa)), Ret (Ok (hb, fb)), Ret (Ok (h1, f1)), Ret (Ok (h2, f2)) =>
    match party_key ha (take 64 f1) (Some [[x01]]), party_key hb (take 64 f2) None, party_key h1 (take 64 fa) None,
          party_key h2 (take 64 fb) None with
    | Ret (Ok (ha, wa)), Ret (Ok (hb, wb)), Ret (Ok (h1, w1)), Ret (Ok (h2, w2)) =>
      match party_finish ha (drop 64 f1 ++ w1), party_finish hb (drop 64 f2 ++ w2), party_finish h1 (drop 64 fa ++ wa),
            party_finish h2 (drop 64 fb ++ wb) with
      | Ret (Ok ca, []), Ret (Ok cb, []), Ret (Ok c1, []), Ret (Ok c2, []) =>
        match send_all (outbound ca) three, send_all (outbound c2) [Msg Genuine None [x2a; x2b]] with
        | Ret (ps, _), Ret (ps', _) =>
          match recv_all (inbound c1) (map m_aad three) (List.concat ps), recv_all (inbound cb) [None] (List.concat ps') with
          | Ret (Some read, _, []), Ret (Some said, _, []) => Some (read, said, bytes_eqb (id ca) (id cb))
          | _, _ => None
          end
        | _, _ => None
        end
      | _, _, _, _ => None
      end
    | _, _, _, _ => None
    end
  | _, _, _, _ => None
  end.

Example C84_example :
  middle (toy_keyed true) = Some (map (fun x => (m_type x, m_contents x)) three, [(Genuine, [x2a; x2b])], false).
Proof. vm_compute. reflexivity. Qed.
