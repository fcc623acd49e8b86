(** * PropsForward: what the state of a cipher tells about the packets before (C81) *)
From Coq Require Import List PeanoNat NArith Bool Lia ZifyBool ZifyN ZifyNat.
From Coq.Strings Require Import Byte.
From Verif Require Import Base BaseFacts Env FsChacha Cipher Spec Histories FsChachaProofs CipherProofs SpecSecrecy SecrecyProofs
  Toy PropsCipher PropsSecrecy.
Import ListNotations.
Local Open Scope N_scope.

(** The packets before the last rekeying. *)
Definition erased (n : N) : N := 224 * (n / 224).

Lemma skipn_seq {A B} (g : A -> B) : forall s (l : list A) (F : nat -> B),
  (forall i x, nth_error l i = Some x -> (s <= i)%nat -> F i = g x) ->
  map (fun j => F (s + j)%nat) (seq 0 (length l - s)) = map g (skipn s l).
Proof.
  induction s as [|s IH]; intros l F H.
  - cbn [Nat.add skipn]. rewrite Nat.sub_0_r. revert F H. induction l as [|x l IHl]; intros F H; [reflexivity|].
    cbn [length seq map]. f_equal; [now apply H; [|lia]|].
    rewrite <- seq_shift, map_map. apply (IHl (fun j => F (S j))). intros i y Hi _. apply H; [exact Hi|lia].
  - destruct l as [|x l]; [reflexivity|]. cbn [length skipn]. rewrite Nat.sub_succ.
    apply (IH l (fun j => F (S j))). intros i y Hi Hs. apply H; [exact Hi|lia].
Qed.

Lemma nth_skipn_same {A} (xs ys : list A) s i : skipn s xs = skipn s ys -> (s <= i)%nat -> nth_error xs i = nth_error ys i.
Proof.
  intros H Hi. assert (N : forall l : list A, nth_error l i = nth_error (skipn s l) (i - s)).
  { intros l. revert i Hi. clear H. revert l. induction s as [|s IH]; intros l i Hi; [now rewrite Nat.sub_0_r|].
    assert (Z : forall n, nth_error (@nil A) n = None) by (intros [|]; reflexivity).
    destruct l as [|x l]; [cbn [skipn]; now rewrite !Z|]. destruct i as [|i]; [lia|]. cbn [nth_error skipn].
    rewrite IH by lia. f_equal. }
  now rewrite !N, H.
Qed.

(** ** C81 *)

(** Whoever has seen all packets of a direction, then gets the state of its cipher, and can compute the key stream of every
    key except the erased ones, cannot tell what was sent before the last rekeying: everything would be the same
    for other messages of these sizes. *)
Theorem C81_past_hidden : forall (E : Env) (EL : EnvLaws E) m r ms ms',
  len ms < 2 ^ 32 -> Forall2 alike ms ms' -> drop (erased (len ms)) ms = drop (erased (len ms)) ms' ->
  apart (length_keys m r) (packet_keys m r) (len ms) ->
  exists ks pkts c,
    EnvLaws (with_keystream E ks) /\ (KeystreamSplits E -> KeystreamSplits (with_keystream E ks)) /\
    @send_all E (outbound (session_new m r)) ms = Ret (pkts, c) /\
    @send_all (with_keystream E ks) (outbound (session_new m r)) ms' = Ret (pkts, c) /\
    (forall k, (forall e, N.of_nat e < len ms / 224 -> k <> packet_keys m r e) -> forall n off count,
       ks k n off count = keystream k n off count) /\
    fp_key (packet_cipher c) = packet_keys m r (N.to_nat (len ms / 224)).
Proof.
  intros E EL m r ms ms' L F T A.
  set (kL := send_length_key m r) in *. set (kP := send_packet_key m r) in *.
  set (ks := hidden_ks kP ms ms').
  assert (EL' : EnvLaws (with_keystream E ks)).
  { apply (with_laws E EL); [apply masked_len|apply (@mac_len E EL)]. }
  assert (Ll : len ms' = len ms) by (unfold len; now rewrite (alike_length _ _ F)).
  exists ks, (bip_stream kL kP 0 (map to_bip ms)), (Cipher (fc_at kL (0 + len ms)) (fp_at kP (0 + len ms))).
  split; [exact EL'|]. split; [exact (masked_splits _)|].
  split; [rewrite session_out_at, send_all_at by lia; reflexivity|]. split.
  { rewrite (@session_out_at (with_keystream E ks)), (@send_all_at (with_keystream E ks) EL') by lia.
    rewrite Ll. fold kL kP.
    pose proof (own_stream kL kP ms ms' L F A) as O. fold ks in O. rewrite O. unfold fc_at, fp_at.
    assert (0 + len ms < 2 ^ 32) as L' by lia.
    assert (B : N.of_nat (N.to_nat ((0 + len ms) / 224)) * 224 < 2 ^ 32) by (pose proof (N.mul_div_le (0 + len ms) 224); lia).
    pose proof (hidden_packet_key kP ms ms' L kP _ B) as P. fold ks in P. rewrite P.
    pose proof (hidden_length_key kP ms ms' L kL _ A B) as Q. fold ks in Q. rewrite Q. reflexivity. }
  split; [|reflexivity].
  intros k Hk n off count. apply (hidden_same kP ms ms'); [exact L|]. intros i Hi Hd [Ek _].
  destruct (N.lt_ge_cases (i / 224) (len ms / 224)) as [C|C].
  - apply (Hk (N.to_nat (i / 224))); [lia|exact Ek].
  - apply Hd. apply (nth_skipn_same _ _ (N.to_nat (erased (len ms)))); [exact T|]. unfold erased.
    pose proof (N.mul_div_le i 224 ltac:(lia)). nia.
Qed.
Print Assumptions C81_past_hidden.

(** The messages since the last rekeying can be read with the key in the state. *)
Theorem C81_epoch_exposed : forall (E : Env) (EL : EnvLaws E) m r ms pkts c,
  len ms < 2 ^ 32 -> send_all (outbound (session_new m r)) ms = Ret (pkts, c) ->
  exposed (fp_key (packet_cipher c)) (fp_ctr (packet_cipher c)) pkts =
  map (fun x => bip_header (is_decoy (m_type x)) :: m_contents x) (drop (erased (len ms)) ms) /\
  len (drop (erased (len ms)) ms) = len ms mod 224.
Proof.
  intros E EL m r ms pkts c L H. rewrite session_out_at, send_all_at in H by lia. injection H as <- <-.
  unfold fp_at. cbn [packet_cipher fp_key fp_ctr]. change (0 + len ms) with (len ms).
  pose proof (N.div_mod (len ms) 224 ltac:(discriminate)) as D.
  assert (Le : len (drop (erased (len ms)) ms) = len ms mod 224) by (rewrite len_drop; unfold erased; lia).
  split; [|exact Le]. unfold exposed. fold (erased (len ms)).
  replace (N.to_nat (len ms mod 224)) with (length ms - N.to_nat (erased (len ms)))%nat by (unfold erased, len in *; lia).
  set (kP := send_packet_key m r). set (kL := send_length_key m r).
  set (s := erased (len ms)). unfold drop.
  rewrite <- (skipn_seq (fun x => bip_header (is_decoy (m_type x)) :: m_contents x) (N.to_nat s) ms
    (fun i => opened (bip_packet_key kP (N.to_nat (len ms / 224))) (N.of_nat i) (nth i (bip_stream kL kP 0 (map to_bip ms)) []))).
  - apply map_ext. intros j. f_equal; lia.
  - intros i x Hx Hi.
    assert (Li : (i < length ms)%nat) by (apply nth_error_Some; congruence).
    assert (Hn : nth i (bip_stream kL kP 0 (map to_bip ms)) [] =
      bip_packet kL kP (N.of_nat i) (is_decoy (m_type x)) (aad_or_default (m_aad x)) (m_contents x)).
    { apply nth_error_nth. rewrite (stream_nth kL kP (map to_bip ms) 0 i (is_decoy (m_type x)) (aad_or_default (m_aad x)) (m_contents x)).
      - f_equal.
      - rewrite nth_error_map, Hx. reflexivity. }
    rewrite Hn. unfold opened, bip_packet, bip_body, rfc_aead.
    assert (He : N.of_nat i / 224 = len ms / 224).
    { unfold s, erased, len in *. apply N.le_antisymm; [apply N.div_le_mono; lia|]. apply N.div_le_lower_bound; lia. }
    rewrite He. set (k := bip_packet_key kP _). set (nn := bip_packet_nonce _). set (p := bip_header _ :: _).
    set (ct := xor_with (keystream k nn 64 (len p)) p).
    assert (Lc : len ct = len p) by (unfold ct; apply len_xor_with).
    assert (L3 : len (bip_length_prefix kL (N.of_nat i) (len (m_contents x))) = 3) by (unfold bip_length_prefix; now rewrite len_xor_with, len_le_bytes).
    rewrite drop_app_exact by (now rewrite L3). rewrite !len_app, L3, mac_len.
    rewrite take_app_exact by lia. rewrite Lc. unfold ct. apply xor_with_invol.
Qed.
Print Assumptions C81_epoch_exposed.

(** So can every later message: nothing fresh enters the keys. *)
Theorem C81_future_exposed : forall (E : Env) (EL : EnvLaws E) m r ms pkts c later pkts' c',
  send_all (outbound (session_new m r)) ms = Ret (pkts, c) -> send_all c later = Ret (pkts', c') ->
  Forall (fun x => len (m_contents x) < 2 ^ 24) later ->
  recv_all c (map m_aad later) (concat pkts') = Ret (Some (map (fun x => (m_type x, m_contents x)) later), c', []).
Proof.
  intros E EL m r ms pkts c later pkts' c' _ H F. rewrite <- (app_nil_r (concat pkts')). now apply C01_round_trip_any_state.
Qed.
Print Assumptions C81_future_exposed.

(** It is not so that what has been sent is safe from then on: rekeying happens every 224 packets, not after each. *)
Theorem C81_safe_once_sent_refuted :
  ~ forall (E : Env) (EL : EnvLaws E) m r ms ms' pkts c,
      len ms < 2 ^ 32 -> Forall2 alike ms ms' -> apart (length_keys m r) (packet_keys m r) (len ms) ->
      @send_all E (outbound (session_new m r)) ms = Ret (pkts, c) ->
      exists ks, EnvLaws (with_keystream E ks) /\
        @send_all (with_keystream E ks) (outbound (session_new m r)) ms' = Ret (pkts, c) /\
        (forall n off count, ks (fp_key (packet_cipher c)) n off count = keystream (fp_key (packet_cipher c)) n off count).
Proof.
  intros H.
  pose (ms := [Msg Genuine None [x01]]). pose (ms' := [Msg Genuine None [x02]]).
  destruct (@stream_conforms (toy false) (toy_laws false) km Initiator ms eq_refl) as [c Hc].
  set (pkts := @bip_stream (toy false) _ _ _ _) in Hc.
  specialize (H (toy false) (toy_laws false) km Initiator ms ms' pkts c eq_refl).
  destruct H as (ks & L & H2 & Hk); [| |exact Hc|].
  { constructor; [split; reflexivity|constructor]. }
  { intros e He. destruct e as [|e]; [vm_compute; discriminate|]. change (len ms) with 1 in He. lia. }
  destruct (C81_epoch_exposed (toy false) (toy_laws false) km Initiator ms _ c eq_refl Hc) as [X _].
  destruct (C81_epoch_exposed (with_keystream (toy false) ks) L km Initiator ms' _ c eq_refl H2) as [Y _].
  assert (forall n p, @exposed (with_keystream (toy false) ks) (fp_key (packet_cipher c)) n p = @exposed (toy false) (fp_key (packet_cipher c)) n p) as Z.
  { intros n p. unfold exposed. apply map_ext. intros j. unfold opened. cbn [keystream with_keystream with_primitives]. now rewrite Hk. }
  rewrite Z, X in Y. discriminate Y.
Qed.
Print Assumptions C81_safe_once_sent_refuted.

(** 226 messages: 224 that are erased, and two that can be read. *)
Definition past (b : byte) : list msg := repeat (Msg Genuine None [b]) 224 ++ [Msg Decoy None [x07]; Msg Genuine None [x08; x09]].

Definition past_state := Eval vm_compute in @send_all (toy false) (outbound (session_new km Initiator)) (past x01).

Example C81_example :
  Forall2 alike (past x01) (past x02) /\ past x01 <> past x02 /\
  drop (erased (len (past x01))) (past x01) = drop (erased (len (past x01))) (past x02) /\
  apart (@length_keys (toy false) km Initiator) (@packet_keys (toy false) km Initiator) (len (past x01)) /\
  @send_all (toy false) (outbound (session_new km Initiator)) (past x01) = past_state /\
  match past_state with
  | Ret (pkts, c) =>
      @exposed (toy false) (fp_key (packet_cipher c)) (fp_ctr (packet_cipher c)) pkts = [[x80; x07]; [x00; x08; x09]]
  | _ => False
  end.
Proof.
  split. { unfold past. apply Forall2_app; [|repeat (constructor; [split; reflexivity|]); constructor].
    generalize 224%nat as n. intros n. induction n as [|n IH]; cbn [repeat]; constructor; [split; reflexivity|exact IH]. }
  split; [discriminate|]. split; [vm_compute; reflexivity|]. split.
  { intros e He. do 2 (destruct e as [|e]; [vm_compute; discriminate|]). exfalso.
    change (len (past x01)) with 226 in He. lia. }
  split; [vm_compute; reflexivity|]. vm_compute. reflexivity.
Qed.
