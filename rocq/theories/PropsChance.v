(** * Property C112: for how few keys a handshake completes on bytes that were not made for it *)
From Coq Require Import List NArith PeanoNat Bool Lia.
From Coq.Strings Require Import Byte.
From Verif Require Import Base BaseFacts Env Toy FsChacha Spec FsChachaProofs Cipher CipherFacts Histories CipherProofs Handshake SpecHandshake
  HsDriver HandshakeProofs HsRunProofs Transport Io SpecIo SpecIntegrity Sessions TransportProofs IoProofs IoRunProofs EndpointProofs IntegrityProofs
  SessionProofs PropsHandshake PropsIo PropsMiddle SpecReplay PropsReplay Rfc Curve RfcCurve PropsReal SpecForgery PolyProofs ForgeryProofs PropsForgery SpecDraws DrawsProofs PropsCoincidence SpecChance.
Import ListNotations.
Local Open Scope N_scope.

(** ** C112 *)
(** There are at most 4096 terminators that a search can find in given bytes, one for each place; 2^128 there are. *)
Theorem C112_terminators : forall s,
  len (windows s) = N.min 4096 (len s - 15) /\
  (forall t, len t = 16 -> (In t (windows s) <-> exists i, i <= 4095 /\ occurs_at t s i)) /\
  exists all : list bytes, NoDup all /\ len all = 2 ^ 128 /\ forall t, In t all <-> len t = 16.
Proof.
  intros s. split; [|split].
  - unfold windows, len at 1. rewrite map_length, seq_length. apply N2Nat.id.
  - intros t L. unfold windows. rewrite in_map_iff. split.
    + intros (i & Q & I). apply in_seq in I. exists (N.of_nat i). unfold occurs_at. rewrite L.
      assert (D : drop (N.of_nat i) s = skipn i s) by (unfold drop; now rewrite Nnat.Nat2N.id). rewrite D. unfold len in *. split; [lia|]. split; [lia|exact Q].
    + intros (i & H & O). unfold occurs_at in O. rewrite L in O. destruct O as (O1 & O2). exists (N.to_nat i). split; [exact O2|]. apply in_seq. unfold len in *. lia.
  - destruct (with_prefix 16 []) as (ks & D & I & Lk). exists ks. split; [exact D|]. split; [rewrite Lk; reflexivity|].
    intros t. rewrite I. change (take (len (@nil byte)) t) with (@nil byte). change (len (@nil byte) + N.of_nat 16) with 16. tauto.
Qed.
Print Assumptions C112_terminators.

(** The search of the library finds exactly these. *)
Theorem C112_search : forall h s, len (remote_garbage_terminator (hs_state h)) = 16 ->
  ((exists h' n, receive_garbage h s = Ret (Ok (FoundGarbage h' n))) <-> In (remote_garbage_terminator (hs_state h)) (windows s)).
Proof.
  intros h s L. rewrite (proj1 (proj2 (C112_terminators s)) _ L).
  destruct (C22_garbage_total h s L) as (r & R & T). destruct (C22_garbage_exact h s r L R) as (X & Y & Z). rewrite R. split.
  - intros (h' & n & Q). injection Q as ->. destruct (proj1 (X h' n) eq_refl) as (i & Hi & (O & _) & _). eauto.
  - intros (i & Hi & O). destruct r as [[h' n|h']|e].
    + eauto.
    + exfalso. assert (h' = h) as ->.
      { unfold receive_garbage in R. apply bind_ret_inv in R. destruct R as ([[g1 g2]|e] & _ & R); [discriminate|]. destruct e; try discriminate R. now injection R as <-. }
      exact (proj1 (proj1 Z eq_refl) i Hi O).
    + exfalso. subst e. exact (proj1 (proj1 Y eq_refl) i Hi O).
Qed.
Print Assumptions C112_search.

(** Bodies of a packet, and the clamped one-time keys that fit any of them, with the associated data before them. *)
Lemma bodies_len s : len (bodies s) = N.min 3999999 (len s - 15).
Proof. unfold bodies, len at 1. rewrite map_length, seq_length. apply N2Nat.id. Qed.
Lemma in_bodies s more b : 16 <= len b -> len b <= 4000014 -> s = b ++ more -> In b (bodies s).
Proof.
  intros L1 L2 ->. unfold bodies. apply in_map_iff. exists (N.to_nat (len b - 16)). split.
  - rewrite N2Nat.id, N.sub_add by exact L1. apply take_app_exact. reflexivity.
  - apply in_seq. rewrite len_app. lia.
Qed.

Definition candidates (garbage rest : bytes) : list bytes :=
  flat_map (fun body => keys_for (mac_input garbage (tagged body)) (tag_in body)) (bodies (drop 3 rest)).

Lemma candidates_few garbage rest : len (candidates garbage rest) = N.min 3999999 (len rest - 18) * 2 ^ 106.
Proof.
  unfold candidates. replace (len rest - 18) with (len (drop 3 rest) - 15) by (rewrite len_drop; lia). rewrite <- bodies_len.
  induction (bodies (drop 3 rest)) as [|b l IH]; [reflexivity|]. cbn [flat_map]. rewrite len_app, IH, keys_for_len, len_cons. lia.
Qed.

Section WithEnv.
Context {E : Env} {EL : EnvLaws E}.

Lemma completes_fits m r h' received ic rest : real_tags E ->
  remote_garbage_terminator (hs_state h') = terminator m (opp r) -> inbound (sv_cipher (hs_state h')) = inbound (session_new m r) ->
  completes h' received ic rest ->
  exists garbage behind, received = garbage ++ terminator m (opp r) ++ behind /\ len garbage <= 4095 /\
    first_at (terminator m (opp r)) received (len garbage) /\
    In (clamp (one_time_key E (send_packet_key m (opp r)) 0)) (candidates garbage behind).
Proof.
  intros RT Tm In0 (garbage & packets & ds & x & Rc & Lg & Fi & R & _ & Fit). rewrite Tm in Rc, Fi. rewrite In0 in R.
  exists garbage, (packets ++ rest). split; [exact Rc|]. split; [exact Lg|]. split; [exact Fi|]. clear Rc Fi.
  cbn [recv_all] in R.
  apply bind_ret_inv in R. destruct R as ([[[v|] c1] w1] & R1 & R); [|discriminate].
  assert (FV : fits v).
  { apply bind_ret_inv in R. destruct R as ([[o c2] w2] & _ & R). destruct o as [vs|]; [|discriminate R].
    injection R as Q _ _. destruct ds as [|d ds]; cbn [app] in Q, Fit; injection Q as -> _; now inversion Fit. }
  apply recv_one_opens in R1. destruct R1 as (lb & body & cl & Pk & Ll & _ & Pc & Op). rewrite in_key_at in Pc.
  destruct Op as (mb & tg & pt & pc & Bd & Lt & D & Lp & Vq & _). apply fp_decrypt_some in D. destruct D as (Ht & _).
  rewrite Pc, fp_nonce_at in Ht. cbn [fp_key fp_at] in Ht.
  assert (aad_or_default (some_nonempty garbage) = garbage) as Ga by (destruct garbage; reflexivity).
  rewrite Ga in Ht. change (N.to_nat (0 / 224)) with 0%nat in Ht.
  assert (V : tag_verifies (send_packet_key m (opp r)) 0 garbage body).
  { exists mb. rewrite Bd, Ht. reflexivity. }
  destruct (verifies_parts _ _ _ _ _ RT V) as (Lt' & U). unfold candidates. apply in_flat_map. exists body. split.
  - apply (in_bodies _ (w1 ++ rest)).
    + rewrite Bd, len_app. lia.
    + subst v. unfold fits in FV. cbn [snd] in FV. rewrite len_drop, Lp in FV. change MAX_PACKET_SIZE_FOR_ALLOCATION with 4000014 in FV.
      rewrite Bd, len_app. lia.
    + rewrite Pk, <- app_assoc, drop_app_exact by (symmetry; exact Ll). now rewrite <- app_assoc.
  - apply in_keys_for; [exact Lt'|]. split; [apply clamp_clamped, one_time_len|]. rewrite clamp_same by apply one_time_len. exact U.
Qed.

End WithEnv.

Lemma find_first (f : nat -> bool) n i : (i < n)%nat -> f i = true -> (forall j, (j < i)%nat -> f j = false) -> find f (seq 0 n) = Some i.
Proof.
  intros L T F. assert (G : forall k a, (a <= i)%nat -> (i < a + k)%nat -> find f (seq a k) = Some i).
  { induction k as [|k IH]; intros a L1 L2; [lia|]. cbn [seq find]. destruct (Nat.eq_dec a i) as [->|N]; [now rewrite T|].
    rewrite F by lia. apply IH; lia. }
  apply G; lia.
Qed.

(** Bytes that were not made for the key of an endpoint, such as a recording or what another attempt left over: they determine, before
    the key is chosen, at most 4096 of the 2^128 terminators, and for each of these less than one in 2^106 of the 2^234 one-time keys;
    a handshake over them completes only if its keys give one of these terminators and one of its one-time keys. *)
Theorem C112_handshake : exists (terminators : bytes -> list bytes) (fitting : bytes -> bytes -> list bytes),
  (forall s, len (terminators s) <= 4096) /\
  (forall s t, len (fitting s t) * 2 ^ 106 < 2 ^ 234) /\
  forall (E : Env) (EL : EnvLaws E) fl magic r sk g d s w o i oc sr,
  real_tags E -> len magic = 4 -> io_handshake fl magic r sk g d s w = Ret o -> ho_result o = Ok (i, oc, sr) ->
  exists m, keys_of magic r sk (take 64 (content s)) m /\
    In (terminator m (opp r)) (terminators (drop 64 (content s))) /\
    In (clamp (one_time_key E (send_packet_key m (opp r)) 0)) (fitting (drop 64 (content s)) (terminator m (opp r))).
Proof.
  pose (place s t := find (fun i => if list_eq_dec Byte.byte_eq_dec (take 16 (drop (N.of_nat i) s)) t then true else false) (seq 0 (N.to_nat 4096))).
  exists windows, (fun s t => match place s t with Some i => candidates (take (N.of_nat i) s) (drop (N.of_nat i + 16) s) | None => [] end).
  split; [intros s; rewrite (proj1 (C112_terminators s)); lia|]. split.
  { intros s t. destruct (place s t); [|reflexivity]. rewrite candidates_few. change (2 ^ 234) with (2 ^ 22 * 2 ^ 106 * 2 ^ 106).
    apply N.mul_lt_mono_pos_r; [reflexivity|]. apply N.mul_lt_mono_pos_r; [reflexivity|]. lia. }
  intros E EL fl magic r sk g d s w o i oc sr RT Hm H R.
  destruct (handshake_content fl magic r sk g d s w o i oc sr Hm H R) as (h & fa & h' & wa & their & received & ST & Lt & PK & Ct & Cm & _).
  destruct (start_facts _ _ _ _ _ _ ST) as (_ & _ & _ & -> & _). destruct (key_facts _ _ _ _ _ _ _ _ Hm Lt PK) as (_ & m & ps & oc' & K & _ & -> & _).
  pose proof (fun A B => completes_fits m r _ _ _ _ RT A B Cm) as G. destruct (G eq_refl eq_refl) as (garbage & behind & Q & Lg & Fi & I).
  exists m. rewrite Ct, take_app_exact, drop_app_exact by (now symmetry). split; [exact K|].
  assert (TL : len (terminator m (opp r)) = 16).
  { clear - K. unfold keys_of in K. destruct (in_order r (ellswift_of sk) their) as [ei er]. exact (terminator_len _ _ (opp r) K). }
  split.
  - apply (proj1 (proj2 (C112_terminators received)) _ TL). exists (len garbage). split; [exact Lg|exact (proj1 Fi)].
  - assert (P : place received (terminator m (opp r)) = Some (N.to_nat (len garbage))).
    { unfold place. destruct Fi as (O & N). unfold occurs_at in O, N. rewrite TL in O, N. apply find_first with (n := N.to_nat 4096).
      - unfold len in *. lia.
      - rewrite N2Nat.id. destruct (list_eq_dec _ _ _) as [|X]; [reflexivity|]. exfalso. exact (X (proj2 O)).
      - intros j Hj. destruct (list_eq_dec _ _ _) as [X|]; [|reflexivity]. exfalso. apply (N (N.of_nat j)); [lia|]. split; [lia|exact X]. }
    rewrite P, N2Nat.id. rewrite Q at 1. rewrite take_app_exact by reflexivity. replace (drop (len garbage + 16) received) with behind; [exact I|].
    rewrite Q, app_assoc. symmetry. apply drop_app_exact. rewrite len_app, TL. reflexivity.
Qed.
Print Assumptions C112_handshake.

(** 16 bytes from each place on; 40 bytes behind a terminator can begin with 22 bodies of packets; a search that finds its terminator. *)
Example C112_example :
  windows (counting 1 18) = [counting 1 16; counting 2 16; counting 3 16] /\
  len (windows (counting 1 200)) = 185 /\ len (windows (zeros 5000)) = 4096 /\
  len (candidates [x01; x02] (zeros 40)) = 22 * 2 ^ 106 /\ 22 * 2 ^ 106 * 2 ^ 106 < 2 ^ 234 /\
  (exists h n, receive_garbage sample_sent (zeros 30 ++ counting 170 17) = Ret (Ok (FoundGarbage h n))) /\
  In (remote_garbage_terminator (hs_state sample_sent)) (windows (zeros 30 ++ counting 170 17)).
Proof.
  split; [vm_compute; reflexivity|]. split; [rewrite (proj1 (C112_terminators _)); reflexivity|]. split; [rewrite (proj1 (C112_terminators _)), len_zeros; reflexivity|].
  split; [rewrite candidates_few; reflexivity|]. split; [reflexivity|].
  assert (F : exists h n, receive_garbage sample_sent (zeros 30 ++ counting 170 17) = Ret (Ok (FoundGarbage h n))) by (vm_compute; eauto).
  split; [exact F|]. apply C112_search; [reflexivity|exact F].
Qed.
