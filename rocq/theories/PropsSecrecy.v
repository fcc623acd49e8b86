(** * PropsSecrecy: what the packets of a session tell an eavesdropper (C80) *)
From Coq Require Import List PeanoNat NArith Bool Lia ZifyBool ZifyN ZifyNat.
From Coq.Strings Require Import Byte.
From Verif Require Import Base BaseFacts Env FsChacha Cipher Spec Histories FsChachaProofs CipherProofs SpecSecrecy SecrecyProofs
  Toy PropsCipher Rfc.
Import ListNotations.
Local Open Scope N_scope.

(** The key chains of the direction in which [r] sends. *)
Definition length_keys {E : Env} (m : key_material) (r : role) : nat -> bytes := bip_length_key (send_length_key m r).
Definition packet_keys {E : Env} (m : key_material) (r : role) : nat -> bytes := bip_packet_key (send_packet_key m r).

(** [ks] differs from the key stream of [E] only behind the first block of the key streams of the first [count] packets
    that [r] sends. *)
Definition only_contents {E : Env} (m : key_material) (r : role) (count : N) (ks : bytes -> bytes -> N -> N -> bytes) : Prop :=
  forall k n off c,
    off + c <= 64 \/ (forall i, i < count -> ~ (k = packet_keys m r (N.to_nat (i / 224)) /\ n = bip_packet_nonce i)) ->
    ks k n off c = keystream k n off c.

Lemma with_laws (E : Env) (EL : EnvLaws E) ks mc :
  (forall k n off c, len (ks k n off c) = c) -> (forall k n a c, len (mc k n a c) = 16) -> EnvLaws (with_primitives E ks mc).
Proof.
  intros H1 H2. constructor; [exact H1|exact H2| |].
  - intros sk. apply (@ellswift_len E EL).
  - intros prk info. apply (@hkdf_expand_32 E EL).
Qed.

(** ** C80 *)

(** Whatever the contents and types: a sequence of messages with the same sizes and associated data gives the same
    packets, and leaves the sender in the same state, for another key stream. All else, the MAC and the key stream of the
    length prefixes and of the rekeying among it, is the same. *)
Theorem C80_contents : forall (E : Env) (EL : EnvLaws E) m r ms ms',
  len ms < 2 ^ 32 -> Forall2 alike ms ms' -> apart (length_keys m r) (packet_keys m r) (len ms) ->
  exists ks pkts c,
    EnvLaws (with_keystream E ks) /\ (KeystreamSplits E -> KeystreamSplits (with_keystream E ks)) /\
    only_contents m r (len ms) ks /\
    @send_all E (outbound (session_new m r)) ms = Ret (pkts, c) /\
    @send_all (with_keystream E ks) (outbound (session_new m r)) ms' = Ret (pkts, c).
Proof.
  intros E EL m r ms ms' L F A.
  set (kL := send_length_key m r) in *. set (kP := send_packet_key m r) in *.
  set (ks := hidden_ks kP ms ms').
  assert (EL' : EnvLaws (with_keystream E ks)).
  { apply (with_laws E EL); [apply masked_len|apply (@mac_len E EL)]. }
  assert (Ll : len ms' = len ms) by (unfold len; now rewrite (alike_length _ _ F)).
  exists ks, (bip_stream kL kP 0 (map to_bip ms)), (Cipher (fc_at kL (0 + len ms)) (fp_at kP (0 + len ms))).
  split; [exact EL'|]. split; [exact (masked_splits _)|]. split.
  { intros k n off c H. now apply hidden_outside. }
  split.
  - rewrite session_out_at, send_all_at by lia. reflexivity.
  - rewrite (@session_out_at (with_keystream E ks)), (@send_all_at (with_keystream E ks) EL') by lia.
    rewrite Ll. fold kL kP.
    pose proof (own_stream kL kP ms ms' L F A) as O. fold ks in O. rewrite O. unfold fc_at, fp_at.
    assert (0 + len ms < 2 ^ 32) as L' by lia.
    assert (B : N.of_nat (N.to_nat ((0 + len ms) / 224)) * 224 < 2 ^ 32) by (pose proof (N.mul_div_le (0 + len ms) 224); lia).
    pose proof (hidden_packet_key kP ms ms' L kP _ B) as P. fold ks in P. rewrite P.
    pose proof (hidden_length_key kP ms ms' L kL _ A B) as Q. fold ks in Q. rewrite Q. reflexivity.
Qed.
Print Assumptions C80_contents.

(** Both directions of a session at once. *)
Theorem C80_both_directions : forall (E : Env) (EL : EnvLaws E) m ms ms' ns ns',
  len ms < 2 ^ 32 -> len ns < 2 ^ 32 -> Forall2 alike ms ms' -> Forall2 alike ns ns' ->
  apart (length_keys m Initiator) (packet_keys m Initiator) (len ms) ->
  apart (length_keys m Responder) (packet_keys m Initiator) (len ms) ->
  apart (packet_keys m Responder) (packet_keys m Initiator) (N.max (len ms) (len ns)) ->
  apart (length_keys m Responder) (packet_keys m Responder) (len ns) ->
  apart (length_keys m Initiator) (packet_keys m Responder) (len ns) ->
  exists ks,
    EnvLaws (with_keystream E ks) /\ (KeystreamSplits E -> KeystreamSplits (with_keystream E ks)) /\
    forall E0, E0 = with_keystream E ks ->
      (exists pkts c c', @send_all E (outbound (session_new m Initiator)) ms = Ret (pkts, c) /\
         @send_all E0 (outbound (session_new m Initiator)) ms' = Ret (pkts, c')) /\
      (exists pkts c c', @send_all E (outbound (session_new m Responder)) ns = Ret (pkts, c) /\
         @send_all E0 (outbound (session_new m Responder)) ns' = Ret (pkts, c')).
Proof.
  intros E EL m ms ms' ns ns' Lm Ln Fm Fn A1 A2 A3 A4 A5.
  set (kLi := send_length_key m Initiator). set (kPi := send_packet_key m Initiator).
  set (kLr := send_length_key m Responder). set (kPr := send_packet_key m Responder).
  set (ks1 := hidden_ks kPi ms ms'). set (E1 := with_keystream E ks1).
  assert (EL1 : EnvLaws E1) by (apply (with_laws E EL); [apply masked_len|apply (@mac_len E EL)]).
  assert (KP : forall k e, N.of_nat e * 224 < 2 ^ 32 -> @bip_packet_key E1 k e = @bip_packet_key E k e).
  { intros k e H. exact (hidden_packet_key kPi ms ms' Lm k e H). }
  assert (KL : forall k e, apart (@bip_length_key E k) (@packet_keys E m Initiator) (len ms) -> N.of_nat e * 224 < 2 ^ 32 ->
     @bip_length_key E1 k e = @bip_length_key E k e).
  { intros k e A H. exact (hidden_length_key kPi ms ms' Lm k e A H). }
  assert (B4 : apart (@bip_length_key E1 kLr) (@bip_packet_key E1 kPr) (len ns)).
  { intros e He. rewrite KP, KL by (try assumption; lia). now apply A4. }
  assert (B5 : apart (@bip_length_key E1 kLi) (@bip_packet_key E1 kPr) (len ns)).
  { intros e He. rewrite KP, KL by (try assumption; lia). now apply A5. }
  assert (B3 : apart (@bip_packet_key E1 kPi) (@bip_packet_key E1 kPr) (len ns)).
  { intros e He. rewrite !KP by lia. intros X. symmetry in X. revert X. apply A3. lia. }
  set (ks2 := @hidden_ks E1 kPr ns ns'). set (E2 := with_keystream E1 ks2).
  assert (EL2 : EnvLaws E2) by (apply (with_laws E1 EL1); [apply masked_len|apply (@mac_len E1 EL1)]).
  assert (A3' : apart (@packet_keys E m Responder) (@packet_keys E m Initiator) (len ms)).
  { intros e He. apply A3. lia. }
  exists ks2. change (with_keystream E ks2) with E2. split; [exact EL2|]. split.
  { intros Sp. exact (@masked_splits E1 EL1 _ (@masked_splits E EL _ Sp)). }
  intros E0 ->.
  assert (len ms' = len ms) as Lm' by (unfold len; now rewrite (alike_length _ _ Fm)).
  assert (len ns' = len ns) as Ln' by (unfold len; now rewrite (alike_length _ _ Fn)).
  split.
  - destruct (@stream_conforms E EL m Initiator ms Lm) as [c Hc].
    destruct (@stream_conforms E2 EL2 m Initiator ms') as [c' Hc']; [lia|].
    exists (@bip_stream E kLi kPi 0 (map to_bip ms)), c, c'. split; [exact Hc|]. rewrite Hc'. fold kLi kPi. f_equal. f_equal.
    transitivity (@bip_stream E1 kLi kPi 0 (map to_bip ms')).
    + apply (@other_stream E1 EL1 kPr ns ns' Ln); [unfold len in *; rewrite map_length; lia|exact B5|exact B3].
    + exact (@own_stream E EL kLi kPi ms ms' Lm Fm A1).
  - destruct (@stream_conforms E EL m Responder ns Ln) as [c Hc].
    destruct (@stream_conforms E2 EL2 m Responder ns') as [c' Hc']; [lia|].
    exists (@bip_stream E kLr kPr 0 (map to_bip ns)), c, c'. split; [exact Hc|]. rewrite Hc'. fold kLr kPr. f_equal. f_equal.
    transitivity (@bip_stream E1 kLr kPr 0 (map to_bip ns)).
    + exact (@own_stream E1 EL1 kLr kPr ns ns' Ln Fn B4).
    + apply (@other_stream E EL kPi ms ms' Lm); [unfold len in *; rewrite map_length; lia|exact A2|exact A3'].
Qed.
Print Assumptions C80_both_directions.

(** The same for messages chosen by whoever watches the packets: no strategy tells two senders apart whose answers
    look alike. *)
Theorem C80_chosen : forall (E : Env) (EL : EnvLaws E) m r (s s' : list bytes -> msg) wire,
  (forall w, alike (s w) (s' w)) -> len wire < 2 ^ 32 -> apart (length_keys m r) (packet_keys m r) (len wire) ->
  @transcript E (outbound (session_new m r)) s wire ->
  exists ks, EnvLaws (with_keystream E ks) /\ (KeystreamSplits E -> KeystreamSplits (with_keystream E ks)) /\
    only_contents m r (len wire) ks /\
    @transcript (with_keystream E ks) (outbound (session_new m r)) s' wire.
Proof.
  intros E EL m r s s' wire Hs L A [c' H].
  assert (La : len (asked s wire) = len wire) by (unfold asked, len; now rewrite map_length, seq_length).
  destruct (C80_contents E EL m r (asked s wire) (asked s' wire)) as (ks & pkts & c & E1 & E2 & E3 & H1 & H2).
  - lia.
  - unfold asked. induction (seq 0 (length wire)) as [|i l IH]; cbn [map]; constructor; [apply Hs|exact IH].
  - now rewrite La.
  - rewrite H in H1. injection H1 as <- <-. rewrite La in E3. exists ks. repeat (split; [assumption|]). exists c'. exact H2.
Qed.
Print Assumptions C80_chosen.

(** Nothing at all, if nothing is known of the MAC either: every string of bytes of the right size is the stream of every
    sequence of messages, in particular wherever the packets begin and end. *)
Theorem C80_any_stream : forall (E : Env) (EL : EnvLaws E) m r ms w,
  len ms < 2 ^ 32 -> len w = wire_size ms -> apart (length_keys m r) (packet_keys m r) (len ms) ->
  exists ks mc pkts c,
    EnvLaws (with_primitives E ks mc) /\ (KeystreamSplits E -> KeystreamSplits (with_primitives E ks mc)) /\
    @send_all (with_primitives E ks mc) (outbound (session_new m r)) ms = Ret (pkts, c) /\ concat pkts = w.
Proof.
  intros E EL m r ms w L Hw A.
  assert (exists ws, Forall2 fits ms ws /\ concat ws = w) as (ws & F & <-).
  { clear L A. revert w Hw. induction ms as [|x ms IH]; intros w Hw; cbn [wire_size fold_right] in Hw.
    - exists []. apply len_0_nil in Hw. subst. split; [constructor|reflexivity].
    - fold (wire_size ms) in Hw. set (k := len (m_contents x) + 20) in *.
      assert (La : len (take k w) = k) by (rewrite len_take; lia).
      assert (Hb : len (drop k w) = wire_size ms) by (rewrite len_drop; lia).
      destruct (IH _ Hb) as (ws & F & Hc). exists (take k w :: ws). split; [constructor; assumption|].
      cbn [concat]. rewrite Hc. apply take_drop. }
  set (kL := send_length_key m r) in *. set (kP := send_packet_key m r) in *.
  set (ks := any_ks kL kP ms ws). set (mc := any_mac kP ms ws).
  assert (EL' : EnvLaws (with_primitives E ks mc)).
  { apply (with_laws E EL); [apply masked_len|intros; now apply any_mac_len]. }
  destruct (@stream_conforms (with_primitives E ks mc) EL' m r ms L) as [c Hc].
  exists ks, mc, ws, c. split; [exact EL'|]. split; [exact (masked_splits _)|]. split; [|reflexivity].
  rewrite Hc. fold kL kP. f_equal. f_equal. exact (any_stream kL kP ms ws L F A).
Qed.
Print Assumptions C80_any_stream.

(** The key streams of the toy and of RFC 8439 split. *)
Lemma counting_app a b : forall s, counting s (a + b) = counting s a ++ counting (s + N.of_nat a) b.
Proof.
  induction a as [|a IH]; intros s; cbn [Nat.add counting app]; [f_equal; lia|]. rewrite IH. do 3 f_equal. lia.
Qed.

Lemma toy_splits chk : KeystreamSplits (toy chk).
Proof. intros k n off a b. cbn [keystream toy]. rewrite N2Nat.inj_add, counting_app, N2Nat.id. do 2 f_equal. lia. Qed.

Lemma drop_blocks key nonce q m : forall counter,
  drop (64 * N.of_nat q) (chacha_blocks key nonce counter (q + m)) = chacha_blocks key nonce (counter + N.of_nat q) m.
Proof.
  induction q as [|q IH]; intros counter; cbn [Nat.add chacha_blocks].
  - change (64 * N.of_nat 0) with 0. rewrite drop_0. f_equal. lia.
  - rewrite drop_app_ge by (rewrite len_chacha_block; lia). rewrite len_chacha_block.
    replace (64 * N.of_nat (S q) - 64) with (64 * N.of_nat q) by lia. rewrite IH. f_equal. lia.
Qed.

Lemma stream_from_start key nonce off c m : off + c <= 64 * N.of_nat m ->
  chacha_stream key nonce off c = take c (drop off (chacha_blocks key nonce 0 m)).
Proof.
  intros H. unfold chacha_stream.
  pose proof (N.div_mod off 64 ltac:(discriminate)) as D. pose proof (N.mod_lt off 64 ltac:(discriminate)) as B.
  pose proof (enough_blocks off c) as En.
  set (nb := N.to_nat ((off mod 64 + c + 63) / 64)).
  assert (Hn : off mod 64 + c <= 64 * N.of_nat nb) by (unfold nb; rewrite N2Nat.id; exact En).
  set (q := N.to_nat (off / 64)). set (r := off mod 64) in *.
  assert (Hq : 64 * N.of_nat q + r = off) by (unfold q; rewrite N2Nat.id; lia).
  set (l := chacha_blocks key nonce 0 (q + (nb + m))).
  assert (Eq : chacha_blocks key nonce (off / 64) nb = take (64 * N.of_nat nb) (drop (64 * N.of_nat q) l)).
  { unfold l. rewrite drop_blocks, N.add_0_l, chacha_blocks_more by lia. unfold q. now rewrite N2Nat.id. }
  assert (Em : chacha_blocks key nonce 0 m = take (64 * N.of_nat m) l) by (unfold l; rewrite chacha_blocks_more by lia; reflexivity).
  rewrite Eq, Em.
  rewrite (take_drop_comm c r), take_take, N.min_l by lia. rewrite <- (take_drop_comm c r), drop_drop, Hq.
  rewrite (take_drop_comm c off (take _ l)), take_take, N.min_l by lia. now rewrite <- (take_drop_comm c off).
Qed.

Lemma rfc_splits chk : KeystreamSplits (rfc chk).
Proof.
  intros k n off a b. cbn [keystream rfc]. set (m := N.to_nat (off + (a + b))).
  rewrite !(stream_from_start _ _ _ _ m) by (unfold m; lia). now rewrite take_add, drop_drop.
Qed.

(** The keys of the lengths and of the contents have to differ: the code uses them with the same nonces. *)
Definition null : Env := with_keystream (toy false) (fun _ _ _ c => zeros c).
Lemma null_laws : EnvLaws null.
Proof. apply (with_laws _ (toy_laws false)); [intros; apply len_zeros|apply (@mac_len _ (toy_laws false))]. Qed.
Lemma null_splits : KeystreamSplits null.
Proof. intros k n off a b. cbn. unfold zeros. now rewrite N2Nat.inj_add, repeat_app. Qed.
Definition same_keys : key_material :=
  KeyMaterial (counting 1 32) (counting 2 32) (counting 2 32) (counting 4 32) (counting 5 32) (counting 6 16) (counting 7 16).

Lemma stream_nth {E : Env} kL kP : forall ps n i d a c, nth_error ps i = Some (d, a, c) ->
  nth_error (bip_stream kL kP n ps) i = Some (bip_packet kL kP (n + N.of_nat i) d a c).
Proof.
  induction ps as [|[[d' a'] c'] ps IH]; intros n [|i] d a c H; try discriminate; cbn [bip_stream nth_error] in *.
  - injection H as -> -> ->. now rewrite N.add_0_r.
  - rewrite (IH _ _ _ _ _ H). do 2 f_equal. lia.
Qed.

Theorem C80_same_keys_refuted :
  ~ forall (E : Env) (EL : EnvLaws E) m r ms ms',
      KeystreamSplits E -> len ms < 2 ^ 32 -> Forall2 alike ms ms' ->
      exists ks pkts c c',
        EnvLaws (with_keystream E ks) /\ KeystreamSplits (with_keystream E ks) /\
        @send_all E (outbound (session_new m r)) ms = Ret (pkts, c) /\
        @send_all (with_keystream E ks) (outbound (session_new m r)) ms' = Ret (pkts, c').
Proof.
  intros H.
  pose (ms := Msg Genuine None (zeros 6) :: repeat (Msg Genuine None []) 22).
  pose (ms' := Msg Genuine None (repeat xff 6) :: repeat (Msg Genuine None []) 22).
  destruct (H null null_laws same_keys Initiator ms ms' null_splits) as (ks & pkts & c & c' & L & Sp & H1 & H2).
  { reflexivity. }
  { unfold ms, ms'. constructor; [split; reflexivity|]. cbn [repeat]. repeat (constructor; [split; reflexivity|]). constructor. }
  set (E' := with_keystream null ks) in *.
  destruct (@stream_conforms null null_laws same_keys Initiator ms eq_refl) as [d Hd].
  destruct (@stream_conforms E' L same_keys Initiator ms' eq_refl) as [d' Hd'].
  rewrite Hd in H1. rewrite Hd' in H2. injection H1 as H1 _. injection H2 as H2 _. rewrite <- H1 in H2. clear H1 Hd Hd' d d' c c' pkts.
  set (kk := counting 2 32) in *.
  assert (P0 : @bip_packet E' kk kk 0 false [] (repeat xff 6) = @bip_packet null kk kk 0 false [] (zeros 6)).
  { pose proof (f_equal (fun l => nth_error l 0) H2) as X. injection X as X. exact X. }
  assert (P22 : @bip_packet E' kk kk 22 false [] [] = @bip_packet null kk kk 22 false [] []).
  { assert (X : nth_error (@bip_stream E' kk kk 0 (map to_bip ms')) 22 = nth_error (@bip_stream null kk kk 0 (map to_bip ms)) 22)
      by (exact (f_equal (fun l => nth_error l 22) H2)).
    rewrite (@stream_nth E' kk kk (map to_bip ms') 0 22 false [] [] eq_refl) in X.
    rewrite (@stream_nth null kk kk (map to_bip ms) 0 22 false [] [] eq_refl) in X. injection X as X. exact X. }
  clear H2. unfold bip_packet in P0, P22.
  apply app_inj_len in P0; [|unfold bip_length_prefix; now rewrite !len_xor_with]. destruct P0 as [_ P0].
  apply app_inj_len in P22; [|unfold bip_length_prefix; rewrite !len_xor_with; reflexivity]. destruct P22 as [P22 _].
  unfold bip_body, rfc_aead in P0. apply app_inj_len in P0; [|rewrite !len_xor_with; reflexivity]. destruct P0 as [P0 _].
  unfold bip_length_prefix in P22.
  change (xor_with (ks kk (zeros 12) 66 3) [x00; x00; x00] = [x00; x00; x00]) in P22.
  change (xor_with (ks kk (zeros 12) 64 7) (x00 :: repeat xff 6) = zeros 7) in P0.
  assert (K : ks kk (zeros 12) 64 7 = ks kk (zeros 12) 64 2 ++ ks kk (zeros 12) 66 3 ++ ks kk (zeros 12) 69 2).
  { pose proof (Sp kk (zeros 12) 64 2 5) as X. pose proof (Sp kk (zeros 12) 66 3 2) as Y.
    change (ks kk (zeros 12) 64 7 = ks kk (zeros 12) 64 2 ++ ks kk (zeros 12) 66 5) in X.
    change (ks kk (zeros 12) 66 5 = ks kk (zeros 12) 66 3 ++ ks kk (zeros 12) 69 2) in Y. now rewrite X, Y. }
  assert (L3 : len (ks kk (zeros 12) 66 3) = 3) by apply (@keystream_len E' L).
  assert (L2 : len (ks kk (zeros 12) 64 2) = 2) by apply (@keystream_len E' L).
  rewrite K in P0. destruct (ks kk (zeros 12) 64 2) as [|a [|b [|]]]; try (unfold len in L2; cbn [length] in L2; lia).
  destruct (ks kk (zeros 12) 66 3) as [|c [|d [|e [|]]]]; try (unfold len in L3; cbn [length] in L3; lia).
  cbn [app repeat xor_with] in P0, P22. injection P22 as Q1 _ _. injection P0 as _ _ Q2 _ _ _.
  rewrite bxor_0_r in Q1. subst c. discriminate Q2.
Qed.
Print Assumptions C80_same_keys_refuted.

(** Three messages, of which the second is a decoy, against three others, of which the first is; and a stream of zeros.
    The key chains of the example are apart. *)
Definition others : list msg :=
  [Msg Decoy (Some (counting 9 5)) (repeat xab 7); Msg Genuine None (counting 77 3); Msg Genuine None []].

Example C80_example :
  Forall2 alike three others /\ three <> others /\
  @apart (@length_keys (toy false) km Initiator) (@packet_keys (toy false) km Initiator) 500 /\
  (let E' := with_keystream (toy false) (@hidden_ks (toy false) (counting 3 32) three others) in
   match @send_all (toy false) (outbound (session_new km Initiator)) three, @send_all E' (outbound (session_new km Initiator)) others with
   | Ret (p, c), Ret (p', c') => p = p' /\ c = c' /\ map (@len byte) p = [27; 23; 20]
   | _, _ => False
   end) /\
  (let zero := [zeros 27; zeros 23; zeros 20] in
   let E' := with_primitives (toy false) (@any_ks (toy false) (counting 2 32) (counting 3 32) three zero)
               (@any_mac (toy false) (counting 3 32) three zero) in
   match @send_all E' (outbound (session_new km Initiator)) three with
   | Ret (p, _) => p = zero
   | _ => False
   end).
Proof.
  split; [repeat (constructor; [split; reflexivity|]); constructor|].
  split; [discriminate|]. split.
  - intros e He. do 3 (destruct e as [|e]; [vm_compute; discriminate|]). lia.
  - vm_compute. repeat split.
Qed.
