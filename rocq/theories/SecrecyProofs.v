(** * SecrecyProofs: changing the key stream where messages use it *)
From Coq Require Import List PeanoNat NArith Bool Lia ZifyBool ZifyN ZifyNat.
From Coq.Strings Require Import Byte.
From Verif Require Import Base BaseFacts Env FsChacha Cipher Spec Histories FsChachaProofs CipherProofs SpecSecrecy.
Import ListNotations.
Local Open Scope N_scope.

(** ** Masks *)

Definition range (off c : N) : list N := map (fun i => off + N.of_nat i) (seq 0 (N.to_nat c)).

Lemma len_range off c : len (range off c) = c.
Proof. unfold range, len. rewrite map_length, seq_length. lia. Qed.

Lemma range_add off a b : range off (a + b) = range off a ++ range (off + a) b.
Proof.
  unfold range. rewrite N2Nat.inj_add, seq_app, map_app. f_equal.
  generalize (N.to_nat b). intros n. rewrite Nat.add_0_l.
  assert (forall k s, map (fun i => off + N.of_nat i) (seq (N.to_nat a + s) k) = map (fun i => off + a + N.of_nat i) (seq s k)) as H.
  { induction k as [|k IH]; intros s; [reflexivity|]. cbn [seq map]. rewrite <- Nat.add_succ_r, IH. f_equal. lia. }
  specialize (H n 0%nat). rewrite Nat.add_0_r in H. exact H.
Qed.

Lemma xor_app a b c d : len a = len c -> xor_with (a ++ b) (c ++ d) = xor_with a c ++ xor_with b d.
Proof.
  revert c. induction a as [|x a IH]; intros [|y c] H; try (cbn in H; lia); [reflexivity|].
  cbn [app xor_with]. rewrite !len_cons in H. now rewrite IH by lia.
Qed.

Lemma xor_null a d : len a = len d -> Forall (fun b => b = x00) a -> xor_with a d = d.
Proof.
  intros L F. rewrite xor_with_comm by assumption. replace a with (zeros (len d)).
  - now apply xor_with_zeros.
  - rewrite <- L. unfold zeros, len. rewrite Nat2N.id. clear L. induction F as [|x a -> F IH]; [reflexivity|].
    cbn [length repeat]. now rewrite IH.
Qed.

Lemma xor_assoc a b c : len a = len b -> len b = len c -> xor_with (xor_with a b) c = xor_with a (xor_with b c).
Proof.
  assert (B : forall x y z, bxor (bxor x y) z = bxor x (bxor y z)).
  { intros x y z. unfold bxor.
    destruct (Byte.to_bits x) as (x0,(x1,(x2,(x3,(x4,(x5,(x6,x7))))))).
    destruct (Byte.to_bits y) as (y0,(y1,(y2,(y3,(y4,(y5,(y6,y7))))))).
    destruct (Byte.to_bits z) as (z0,(z1,(z2,(z3,(z4,(z5,(z6,z7))))))).
    rewrite !Byte.to_bits_of_bits. now rewrite !xorb_assoc. }
  revert b c. induction a as [|x a IH]; intros [|y b] [|z c] L1 L2; rewrite ?len_cons, ?len_nil in *; try lia; try reflexivity.
  cbn [xor_with]. now rewrite B, IH by lia.
Qed.

Section Masked.
Context {E : Env} {EL : EnvLaws E}.
Variable D : bytes -> bytes -> N -> byte.

Definition masked (k n : bytes) (off c : N) : bytes := xor_with (map (D k n) (range off c)) (keystream k n off c).

Lemma masked_len k n off c : len (masked k n off c) = c.
Proof. unfold masked. rewrite len_xor_with. apply keystream_len. Qed.

Lemma masked_splits : KeystreamSplits E -> forall k n off a b,
  masked k n off (a + b) = masked k n off a ++ masked k n (off + a) b.
Proof.
  intros Sp k n off a b. unfold masked. rewrite range_add, map_app, Sp. apply xor_app.
  rewrite keystream_len. unfold len. rewrite map_length. apply len_range.
Qed.

Lemma masked_null k n off c : (forall p, off <= p < off + c -> D k n p = x00) -> masked k n off c = keystream k n off c.
Proof.
  intros H. unfold masked. apply xor_null.
  - rewrite keystream_len. unfold len. rewrite map_length. apply len_range.
  - apply Forall_forall. intros b I. apply in_map_iff in I. destruct I as (p & <- & I). apply H.
    apply in_map_iff in I. destruct I as (i & <- & I). apply in_seq in I. lia.
Qed.

Lemma masked_diff k n off d : (forall i, N.of_nat i < len d -> D k n (off + N.of_nat i) = nth i d x00) ->
  masked k n off (len d) = xor_with d (keystream k n off (len d)).
Proof.
  intros H. unfold masked. f_equal. apply (nth_ext _ _ x00 x00).
  - unfold range, len. rewrite !map_length, seq_length. lia.
  - intros i Hi. unfold range in *. rewrite !map_length, seq_length in Hi.
    rewrite map_map, (nth_indep _ _ (D k n (off + N.of_nat 0))) by (rewrite map_length, seq_length; lia).
    rewrite (map_nth (fun x => D k n (off + N.of_nat x))), seq_nth by lia. rewrite Nat.add_0_l. apply H. unfold len in *. lia.
Qed.
End Masked.

(** ** Nonces *)

(** The index of the packet that uses this nonce. *)
Definition index_of (n : bytes) : N := le_val (take 4 n) + 224 * le_val (drop 4 n).

Lemma index_of_packet i : i < 2 ^ 64 -> index_of (bip_packet_nonce i) = i.
Proof.
  intros H. unfold index_of, bip_packet_nonce.
  rewrite take_app_exact, drop_app_exact by (rewrite len_le_bytes; reflexivity).
  rewrite !le_val_le_bytes. change (256 ^ N.of_nat 4) with (2 ^ 32). change (256 ^ N.of_nat 8) with (2 ^ 64).
  assert (i mod 224 < 224) by (apply N.mod_lt; lia).
  assert (i / 224 <= i) by (apply N.div_le_upper_bound; lia).
  rewrite !N.mod_small by (try assumption; change (2 ^ 32) with 4294967296; lia).
  rewrite (N.div_mod i 224) at 3 by lia. lia.
Qed.

Lemma length_nonce_packet e : bip_length_nonce e = bip_packet_nonce (224 * e).
Proof.
  unfold bip_length_nonce, bip_packet_nonce. rewrite N.mul_comm, N.mod_mul, N.div_mul by lia. reflexivity.
Qed.

Lemma rekey_not_packet e i : bytes_eqb (bip_rekey_nonce e) (bip_packet_nonce i) = false.
Proof. apply bytes_eqb_neq. intros X. symmetry in X. now apply bip_packet_rekey_nonce_disjoint in X. Qed.

Lemma rekey_not_length e i : bytes_eqb (bip_rekey_nonce e) (bip_length_nonce i) = false.
Proof. rewrite length_nonce_packet. apply rekey_not_packet. Qed.

(** ** Keys and streams do not change where their key stream does not *)

Section Frame.
Context {E : Env} {EL : EnvLaws E}.
Variable ks : bytes -> bytes -> N -> N -> bytes.
Variable mc : bytes -> bytes -> bytes -> bytes -> bytes.
Let E' := with_primitives E ks mc.
Hypothesis ks_len : forall k n off c, len (ks k n off c) = c.

Lemma packet_key_frame kP count :
  (forall e, N.of_nat e * 224 < count ->
     ks (bip_packet_key kP e) (bip_rekey_nonce (N.of_nat e)) 64 32 =
     keystream (bip_packet_key kP e) (bip_rekey_nonce (N.of_nat e)) 64 32) ->
  forall e, N.of_nat e * 224 < count + 224 -> @bip_packet_key E' kP e = bip_packet_key kP e.
Proof.
  intros H. induction e as [|e IH]; intros L; [reflexivity|]. cbn [bip_packet_key]. rewrite IH by lia.
  unfold rfc_aead. change (@keystream E') with ks. rewrite len_zeros, H by lia.
  rewrite !take_app_exact; [reflexivity| |]; rewrite len_xor_with; reflexivity.
Qed.

Lemma length_key_frame kL count :
  (forall e, N.of_nat e * 224 < count ->
     ks (bip_length_key kL e) (bip_length_nonce (N.of_nat e)) 672 32 =
     keystream (bip_length_key kL e) (bip_length_nonce (N.of_nat e)) 672 32) ->
  forall e, N.of_nat e * 224 < count + 224 -> @bip_length_key E' kL e = bip_length_key kL e.
Proof.
  intros H. induction e as [|e IH]; intros L; [reflexivity|]. cbn [bip_length_key]. rewrite IH by lia.
  change (@keystream E') with ks. change (224 * 3) with 672. apply H. lia.
Qed.
End Frame.

Lemma stream_ext (E E' : Env) kL kP : forall ps ps' n,
  length ps = length ps' ->
  (forall i d a c d' a' c', nth_error ps i = Some (d, a, c) -> nth_error ps' i = Some (d', a', c') ->
     @bip_packet E' kL kP (n + N.of_nat i) d' a' c' = @bip_packet E kL kP (n + N.of_nat i) d a c) ->
  @bip_stream E' kL kP n ps' = @bip_stream E kL kP n ps.
Proof.
  induction ps as [|[[d a] c] ps IH]; intros [|[[d' a'] c'] ps'] n L H; try discriminate; [reflexivity|].
  cbn [bip_stream]. f_equal.
  - rewrite <- (N.add_0_r n). exact (H 0%nat d a c d' a' c' eq_refl eq_refl).
  - apply IH; [now injection L|]. intros i. intros. replace (n + 1 + N.of_nat i) with (n + N.of_nat (S i)) by lia.
    eapply (H (S i)); eassumption.
Qed.

Lemma epoch_of_nat i : N.of_nat (N.to_nat (i / 224)) = i / 224.
Proof. lia. Qed.

Lemma epoch_bound i count : i < count -> N.of_nat (N.to_nat (i / 224)) * 224 < count.
Proof. intros H. rewrite epoch_of_nat. pose proof (N.mul_div_le i 224 ltac:(lia)). lia. Qed.

(** ** The same sizes: only the key stream of the contents changes *)

Lemma alike_length : forall xs ys, Forall2 alike xs ys -> length xs = length ys.
Proof. induction 1; cbn; congruence. Qed.

Lemma alike_nth : forall xs ys, Forall2 alike xs ys -> forall i x y, nth_error xs i = Some x -> nth_error ys i = Some y -> alike x y.
Proof. induction 1; intros [|i] a b Ha Hb; cbn in *; try discriminate; [congruence|eauto]. Qed.

Section Hidden.
Context {E : Env} {EL : EnvLaws E}.
Variables kL kP : bytes.
Variables ms ms' : list msg.
Hypothesis few : len ms < 2 ^ 32.
Hypothesis same : Forall2 alike ms ms'.
Hypothesis LP : apart (bip_length_key kL) (bip_packet_key kP) (len ms).

Definition plain (x : msg) : bytes := to_byte (m_type x) :: m_contents x.

Definition diff (i : N) : bytes :=
  match nth_error ms (N.to_nat i), nth_error ms' (N.to_nat i) with
  | Some x, Some y => xor_with (plain x) (plain y)
  | _, _ => []
  end.

Definition content_mask (k n : bytes) (p : N) : byte :=
  let i := index_of n in
  if bytes_eqb n (bip_packet_nonce i) && bytes_eqb k (bip_packet_key kP (N.to_nat (i / 224))) && (64 <=? p)
  then nth (N.to_nat (p - 64)) (diff i) x00 else x00.

Definition hidden_ks : bytes -> bytes -> N -> N -> bytes := masked content_mask.

Lemma diff_beyond i : len ms <= i -> diff i = [].
Proof.
  intros H. unfold diff. replace (nth_error ms (N.to_nat i)) with (@None msg); [reflexivity|].
  symmetry. apply nth_error_None. unfold len in *. lia.
Qed.

(** Other key streams are left alone. *)
Lemma hidden_outside k n off c :
  off + c <= 64 \/ (forall i, i < len ms -> ~ (k = bip_packet_key kP (N.to_nat (i / 224)) /\ n = bip_packet_nonce i)) ->
  hidden_ks k n off c = keystream k n off c.
Proof.
  intros H. apply masked_null. intros p Hp. unfold content_mask.
  destruct (bytes_eqb n _) eqn:En; [|reflexivity]. destruct (bytes_eqb k _) eqn:Ek; [|reflexivity].
  destruct (N.leb_spec 64 p); [|reflexivity]. cbn [andb].
  apply bytes_eqb_spec in En. apply bytes_eqb_spec in Ek.
  destruct (N.lt_ge_cases (index_of n) (len ms)) as [L|L].
  - destruct H as [H|H]; [lia|]. exfalso. apply (H (index_of n) L). split; assumption.
  - rewrite (diff_beyond _ L). now destruct (N.to_nat (p - 64)).
Qed.

(** ... and so are those of messages that are the same. *)
Lemma hidden_same k n off c :
  (forall i, i < len ms -> nth_error ms (N.to_nat i) <> nth_error ms' (N.to_nat i) ->
     ~ (k = bip_packet_key kP (N.to_nat (i / 224)) /\ n = bip_packet_nonce i)) ->
  hidden_ks k n off c = keystream k n off c.
Proof.
  intros H. apply masked_null. intros p Hp. unfold content_mask.
  destruct (bytes_eqb n _) eqn:En; [|reflexivity]. destruct (bytes_eqb k _) eqn:Ek; [|reflexivity].
  destruct (N.leb_spec 64 p); [|reflexivity]. cbn [andb].
  apply bytes_eqb_spec in En. apply bytes_eqb_spec in Ek.
  destruct (N.lt_ge_cases (index_of n) (len ms)) as [L|L]; [|rewrite (diff_beyond _ L); now destruct (N.to_nat (p - 64))].
  unfold diff. destruct (nth_error ms (N.to_nat (index_of n))) as [x|] eqn:Hx; [|now destruct (N.to_nat (p - 64))].
  destruct (nth_error ms' (N.to_nat (index_of n))) as [y|] eqn:Hy; [|now destruct (N.to_nat (p - 64))].
  assert (x = y \/ x <> y) as [->|Hxy].
  { assert (T : forall t t' : packet_type, {t = t'} + {t <> t'}) by decide equality.
    assert (B : forall b b' : bytes, {b = b'} + {b <> b'}) by (apply list_eq_dec, byte_eq_dec).
    assert (D : {x = y} + {x <> y}) by (decide equality; decide equality). destruct D; [left|right]; assumption. }
  2: { exfalso. apply (H (index_of n) L); [congruence|]. split; assumption. }
  rewrite <- (xor_with_zeros (plain y) (len (plain y)) eq_refl) at 2. rewrite xor_with_invol. apply nth_repeat.
Qed.

Lemma hidden_rekey k e : hidden_ks k (bip_rekey_nonce e) 64 32 = keystream k (bip_rekey_nonce e) 64 32.
Proof. apply hidden_outside. right. intros i _ [_ H]. now apply (bip_packet_rekey_nonce_disjoint i e). Qed.

(** ... in particular those of any chain of keys that differ from the packet keys. *)
Lemma hidden_other f e : apart f (bip_packet_key kP) (len ms) -> forall i off c, i / 224 = N.of_nat e ->
  i < 2 ^ 32 ->
  hidden_ks (f e) (bip_packet_nonce i) off c = keystream (f e) (bip_packet_nonce i) off c.
Proof.
  intros A i off c He Hi. apply hidden_outside. right. intros j Hj [Hk Hn].
  apply bip_packet_nonce_inj in Hn; [|lia..]. subst j. replace (N.to_nat (i / 224)) with e in Hk by lia.
  apply (A e); [|assumption]. pose proof (N.mul_div_le i 224 ltac:(lia)). lia.
Qed.

Let E' := with_keystream E hidden_ks.

Lemma hidden_packet_key k e : N.of_nat e * 224 < 2 ^ 32 -> @bip_packet_key E' k e = bip_packet_key k e.
Proof.
  intros H. apply (packet_key_frame hidden_ks mac (masked_len content_mask) k (2 ^ 32)); [|lia]. intros e' _. apply hidden_rekey.
Qed.

Lemma hidden_length_key k e : apart (bip_length_key k) (bip_packet_key kP) (len ms) -> N.of_nat e * 224 < 2 ^ 32 ->
  @bip_length_key E' k e = bip_length_key k e.
Proof.
  intros A H. apply (length_key_frame hidden_ks mac (masked_len content_mask) k (2 ^ 32)); [|lia]. intros e' H'. rewrite length_nonce_packet.
  apply (hidden_other _ e' A); [|lia]. rewrite N.mul_comm, N.div_mul by lia. reflexivity.
Qed.

Lemma hidden_prefix k i c : apart (bip_length_key k) (bip_packet_key kP) (len ms) -> i < 2 ^ 32 ->
  @bip_length_prefix E' k i c = bip_length_prefix k i c.
Proof.
  intros A H. unfold bip_length_prefix. pose proof (epoch_bound i _ H) as B. rewrite hidden_length_key by assumption.
  rewrite epoch_of_nat in B. change (@keystream E') with hidden_ks. rewrite length_nonce_packet.
  rewrite (hidden_other _ _ A (224 * (i / 224))); [reflexivity| |lia].
  rewrite N.mul_comm, N.div_mul by lia. lia.
Qed.

(** The stream of a direction with other keys. *)
Lemma other_stream kL2 kP2 ps : len ps < 2 ^ 32 ->
  apart (bip_length_key kL2) (bip_packet_key kP) (len ms) ->
  apart (bip_packet_key kP2) (bip_packet_key kP) (len ms) ->
  @bip_stream E' kL2 kP2 0 ps = bip_stream kL2 kP2 0 ps.
Proof.
  intros Hl A B. apply stream_ext; [reflexivity|]. intros i d a c d' a' c' H H'. rewrite H in H'. injection H' as <- <- <-.
  assert (N.of_nat i < 2 ^ 32) as Hi.
  { assert (nth_error ps i <> None) as X by congruence. apply nth_error_Some in X. unfold len in Hl. lia. }
  rewrite N.add_0_l. unfold bip_packet. rewrite hidden_prefix by assumption. f_equal.
  unfold bip_body, rfc_aead. change (@keystream E') with hidden_ks. change (@mac E') with (@mac E).
  rewrite hidden_packet_key by (now apply epoch_bound).
  rewrite (hidden_other _ _ B) by (try assumption; lia). reflexivity.
Qed.

Lemma own_stream : @bip_stream E' kL kP 0 (map to_bip ms') = bip_stream kL kP 0 (map to_bip ms).
Proof.
  apply stream_ext; [rewrite !map_length; exact (alike_length _ _ same)|].
  intros i d a c d' a' c' H H'. rewrite N.add_0_l.
  rewrite nth_error_map in H, H'.
  destruct (nth_error ms i) as [x|] eqn:Hx; [|discriminate]. destruct (nth_error ms' i) as [y|] eqn:Hy; [|discriminate].
  injection H as <- <- <-. injection H' as <- <- <-.
  assert (N.of_nat i < len ms) as Hi.
  { assert (nth_error ms i <> None) as X by congruence. apply nth_error_Some in X. unfold len. lia. }
  assert (alike x y) as [Hlen Haad].
  { exact (alike_nth _ _ same _ _ _ Hx Hy). }
  unfold bip_packet. rewrite hidden_prefix by (try assumption; lia). rewrite <- Hlen. f_equal.
  unfold bip_body, rfc_aead. rewrite <- !to_byte_header, <- Haad.
  rewrite hidden_packet_key by (apply epoch_bound; lia).
  change (@keystream E') with hidden_ks. change (@mac E') with (@mac E).
  set (k := bip_packet_key kP _). set (nn := bip_packet_nonce (N.of_nat i)).
  change (to_byte (m_type x) :: m_contents x) with (plain x). change (to_byte (m_type y) :: m_contents y) with (plain y).
  assert (Lp : len (plain x) = len (plain y)) by (unfold plain; rewrite !len_cons; lia).
  assert (Hd : diff (N.of_nat i) = xor_with (plain x) (plain y)) by (unfold diff; rewrite Nat2N.id, Hx, Hy; reflexivity).
  assert (Ld : len (diff (N.of_nat i)) = len (plain y)) by (rewrite Hd; apply len_xor_with).
  assert (K : hidden_ks k nn 64 (len (plain y)) = xor_with (diff (N.of_nat i)) (keystream k nn 64 (len (plain y)))).
  { rewrite <- Ld. apply masked_diff. intros j Hj. unfold content_mask, nn. rewrite index_of_packet by lia.
    rewrite bytes_eqb_refl. fold k. rewrite bytes_eqb_refl.
    replace (64 <=? 64 + N.of_nat j) with true by (symmetry; apply N.leb_le; lia). cbn [andb]. f_equal. lia. }
  rewrite K. assert (C : xor_with (xor_with (diff (N.of_nat i)) (keystream k nn 64 (len (plain y)))) (plain y)
    = xor_with (keystream k nn 64 (len (plain x))) (plain x)).
  { rewrite Lp. set (s := keystream k nn 64 (len (plain y))). assert (Ls : len s = len (plain y)) by apply keystream_len.
    rewrite (xor_with_comm (diff _) s) by lia. rewrite xor_assoc by lia. f_equal. rewrite Hd.
    rewrite (xor_with_comm (plain x)) by assumption. rewrite xor_with_comm by (rewrite len_xor_with; assumption).
    apply xor_with_invol. }
  rewrite C. reflexivity.
Qed.
End Hidden.

(** ** Any bytes at all *)

Definition fits (x : msg) (w : bytes) : Prop := len w = len (m_contents x) + 20.

Lemma fits_nth : forall xs ws, Forall2 fits xs ws -> forall i x w, nth_error xs i = Some x -> nth_error ws i = Some w -> fits x w.
Proof. induction 1; intros [|i] a b Ha Hb; cbn in *; try discriminate; [congruence|eauto]. Qed.

Lemma stream_is (E : Env) kL kP : forall ms ws n, Forall2 fits ms ws ->
  (forall i x w, nth_error ms i = Some x -> nth_error ws i = Some w ->
     bip_packet kL kP (n + N.of_nat i) (is_decoy (m_type x)) (aad_or_default (m_aad x)) (m_contents x) = w) ->
  bip_stream kL kP n (map to_bip ms) = ws.
Proof.
  intros ms ws n F. revert n. induction F as [|x w ms ws Hf F IH]; intros n H; [reflexivity|]. cbn [map bip_stream to_bip].
  f_equal.
  - rewrite <- (N.add_0_r n). exact (H 0%nat x w eq_refl eq_refl).
  - apply IH. intros i. intros. replace (n + 1 + N.of_nat i) with (n + N.of_nat (S i)) by lia. now apply (H (S i)).
Qed.

Section Any.
Context {E : Env} {EL : EnvLaws E}.
Variables kL kP : bytes.
Variable ms : list msg.
Variable ws : list bytes.
Hypothesis few : len ms < 2 ^ 32.
Hypothesis sized : Forall2 fits ms ws.
Hypothesis LP : apart (bip_length_key kL) (bip_packet_key kP) (len ms).

(** What the bytes [ws] want from the key stream, against what it is. *)
Definition body_diff (i : N) : bytes :=
  match nth_error ms (N.to_nat i), nth_error ws (N.to_nat i) with
  | Some x, Some w =>
      xor_with (xor_with (take (len (m_contents x) + 1) (drop 3 w)) (plain x))
               (keystream (bip_packet_key kP (N.to_nat (i / 224))) (bip_packet_nonce i) 64 (len (m_contents x) + 1))
  | _, _ => []
  end.

Definition prefix_diff (i : N) : bytes :=
  match nth_error ms (N.to_nat i), nth_error ws (N.to_nat i) with
  | Some x, Some w =>
      xor_with (xor_with (take 3 w) (le_bytes 3 (len (m_contents x))))
               (keystream (bip_length_key kL (N.to_nat (i / 224))) (bip_length_nonce (i / 224)) (3 * (i mod 224)) 3)
  | _, _ => []
  end.

Definition any_mask (k n : bytes) (p : N) : byte :=
  let i := index_of n in
  let e := i / 224 in
  if bytes_eqb n (bip_packet_nonce i) && bytes_eqb k (bip_packet_key kP (N.to_nat e)) && (64 <=? p)
  then nth (N.to_nat (p - 64)) (body_diff i) x00
  else if bytes_eqb n (bip_length_nonce e) && bytes_eqb k (bip_length_key kL (N.to_nat e)) && (p <? 672)
  then nth (N.to_nat (p mod 3)) (prefix_diff (224 * e + p / 3)) x00
  else x00.

Definition any_ks : bytes -> bytes -> N -> N -> bytes := masked any_mask.

Definition any_mac (k n aad ct : bytes) : bytes :=
  let i := index_of n in
  match nth_error ms (N.to_nat i), nth_error ws (N.to_nat i) with
  | Some x, Some w =>
      if bytes_eqb n (bip_packet_nonce i) && bytes_eqb k (bip_packet_key kP (N.to_nat (i / 224)))
         && bytes_eqb aad (aad_or_default (m_aad x)) && bytes_eqb ct (take (len (m_contents x) + 1) (drop 3 w))
      then drop (len (m_contents x) + 4) w
      else mac k n aad ct
  | _, _ => mac k n aad ct
  end.

Let E' := with_primitives E any_ks any_mac.

Lemma any_mac_len k n aad ct : len (any_mac k n aad ct) = 16.
Proof.
  unfold any_mac. destruct (nth_error ms _) as [x|] eqn:Hx; [|apply mac_len].
  destruct (nth_error ws _) as [w|] eqn:Hw; [|apply mac_len].
  destruct (_ && _ && _ && _); [|apply mac_len].
  pose proof (fits_nth _ _ sized _ _ _ Hx Hw) as F. unfold fits in F. rewrite len_drop. lia.
Qed.

Lemma any_packet_key e : N.of_nat e * 224 < 2 ^ 32 -> @bip_packet_key E' kP e = bip_packet_key kP e.
Proof.
  intros H. apply (packet_key_frame any_ks any_mac (masked_len any_mask) kP (2 ^ 32)); [|lia]. intros e' _.
  apply masked_null. intros p _. unfold any_mask.
  rewrite rekey_not_packet, rekey_not_length. reflexivity.
Qed.

Lemma body_diff_beyond i : len ms <= i -> body_diff i = [].
Proof.
  intros H. unfold body_diff. replace (nth_error ms (N.to_nat i)) with (@None msg); [reflexivity|].
  symmetry. apply nth_error_None. unfold len in *. lia.
Qed.

Lemma any_length_key e : N.of_nat e * 224 < 2 ^ 32 -> @bip_length_key E' kL e = bip_length_key kL e.
Proof.
  intros H. apply (length_key_frame any_ks any_mac (masked_len any_mask) kL (2 ^ 32)); [|lia]. intros e' He.
  apply masked_null. intros p Hp. unfold any_mask. rewrite length_nonce_packet, index_of_packet by lia.
  replace (224 * N.of_nat e' / 224) with (N.of_nat e') by (rewrite N.mul_comm, N.div_mul by lia; reflexivity).
  rewrite Nat2N.id. replace (p <? 672) with false by (symmetry; apply N.ltb_ge; lia). rewrite !andb_false_r.
  destruct (bytes_eqb (bip_length_key kL e') (bip_packet_key kP e')) eqn:Ek; [|now rewrite andb_false_r].
  rewrite body_diff_beyond.
  - destruct (_ && _ && _); [now destruct (N.to_nat (p - 64))|reflexivity].
  - apply bytes_eqb_spec in Ek. destruct (N.le_gt_cases (len ms) (224 * N.of_nat e')); [assumption|].
    exfalso. apply (LP e'); [lia|assumption].
Qed.

Lemma any_prefix i x w : i < len ms -> nth_error ms (N.to_nat i) = Some x -> nth_error ws (N.to_nat i) = Some w ->
  @bip_length_prefix E' kL i (len (m_contents x)) = take 3 w.
Proof.
  intros Hi Hx Hw. unfold bip_length_prefix. pose proof (epoch_bound i _ Hi) as B. rewrite any_length_key by lia.
  change (@keystream E') with any_ks.
  pose proof (fits_nth _ _ sized _ _ _ Hx Hw) as F. unfold fits in F.
  assert (Hd : prefix_diff i = xor_with (xor_with (take 3 w) (le_bytes 3 (len (m_contents x))))
    (keystream (bip_length_key kL (N.to_nat (i / 224))) (bip_length_nonce (i / 224)) (3 * (i mod 224)) 3)).
  { unfold prefix_diff. now rewrite Hx, Hw. }
  assert (Ld : len (prefix_diff i) = 3) by (rewrite Hd, len_xor_with; apply keystream_len).
  set (k := bip_length_key kL (N.to_nat (i / 224))) in *. set (nn := bip_length_nonce (i / 224)) in *.
  assert (K : any_ks k nn (3 * (i mod 224)) 3 = xor_with (prefix_diff i) (keystream k nn (3 * (i mod 224)) 3)).
  { pose proof (masked_diff any_mask k nn (3 * (i mod 224)) (prefix_diff i)) as M. rewrite Ld in M. apply M. intros j Hj.
    rewrite epoch_of_nat in B.
    assert (index_of nn = 224 * (i / 224)) as I by (unfold nn; rewrite length_nonce_packet; apply index_of_packet; lia).
    unfold any_mask. rewrite I. cbv zeta.
    replace (224 * (i / 224) / 224) with (i / 224) by (rewrite N.mul_comm, N.div_mul by lia; reflexivity).
    replace (bytes_eqb k (bip_packet_key kP (N.to_nat (i / 224)))) with false.
    2:{ symmetry. apply bytes_eqb_neq. apply LP. rewrite epoch_of_nat. lia. }
    rewrite andb_false_r. cbn [andb]. fold nn k. rewrite !bytes_eqb_refl. cbn [andb].
    assert (i mod 224 < 224) by (apply N.mod_lt; lia).
    replace (3 * (i mod 224) + N.of_nat j <? 672) with true by (symmetry; apply N.ltb_lt; lia).
    assert ((3 * (i mod 224) + N.of_nat j) / 3 = i mod 224) as ->.
    { rewrite N.mul_comm, N.div_add_l by lia. rewrite N.div_small by lia. lia. }
    assert ((3 * (i mod 224) + N.of_nat j) mod 3 = N.of_nat j) as ->.
    { rewrite N.add_comm, N.mul_comm, N.mod_add by lia. apply N.mod_small. lia. }
    rewrite <- N.div_mod by lia. now rewrite Nat2N.id. }
  rewrite K. set (s := keystream k nn (3 * (i mod 224)) 3) in *. assert (Ls : len s = 3) by apply keystream_len.
  rewrite Hd. set (t := take 3 w). set (l := le_bytes 3 (len (m_contents x))).
  assert (Lt : len t = 3) by (unfold t; rewrite len_take; lia). assert (Ll : len l = 3) by apply len_le_bytes.
  rewrite (xor_with_comm (xor_with t l) s), (xor_with_comm (xor_with s _) s) by (rewrite ?len_xor_with; lia).
  rewrite xor_with_invol.
  rewrite (xor_with_comm t l) by lia. rewrite xor_with_comm by (rewrite len_xor_with; lia). apply xor_with_invol.
Qed.

Lemma any_body i x w : i < len ms -> nth_error ms (N.to_nat i) = Some x -> nth_error ws (N.to_nat i) = Some w ->
  @bip_body E' kP i (is_decoy (m_type x)) (aad_or_default (m_aad x)) (m_contents x) = drop 3 w.
Proof.
  intros Hi Hx Hw. unfold bip_body, rfc_aead. rewrite any_packet_key by (apply epoch_bound; lia).
  rewrite <- to_byte_header. change (to_byte (m_type x) :: m_contents x) with (plain x).
  assert (Lp : len (plain x) = len (m_contents x) + 1) by apply len_cons.
  change (@keystream E') with any_ks. change (@mac E') with any_mac.
  pose proof (fits_nth _ _ sized _ _ _ Hx Hw) as F. unfold fits in F.
  set (k := bip_packet_key kP (N.to_nat (i / 224))) in *. set (nn := bip_packet_nonce i) in *.
  set (t := take (len (m_contents x) + 1) (drop 3 w)).
  assert (Lt : len t = len (plain x)) by (unfold t; rewrite len_take, len_drop; lia).
  assert (Hd : body_diff i = xor_with (xor_with t (plain x)) (keystream k nn 64 (len (plain x)))).
  { unfold body_diff. rewrite Hx, Hw, Lp. reflexivity. }
  assert (Ld : len (body_diff i) = len (plain x)) by (rewrite Hd, len_xor_with; apply keystream_len).
  assert (K : any_ks k nn 64 (len (plain x)) = xor_with (body_diff i) (keystream k nn 64 (len (plain x)))).
  { rewrite <- Ld. apply masked_diff. intros j Hj. unfold any_mask, nn. rewrite index_of_packet by lia. fold k nn.
    rewrite !bytes_eqb_refl. replace (64 <=? 64 + N.of_nat j) with true by (symmetry; apply N.leb_le; lia). cbn [andb].
    f_equal. lia. }
  assert (C : xor_with (any_ks k nn 64 (len (plain x))) (plain x) = t).
  { rewrite K, Hd. set (s := keystream k nn 64 (len (plain x))). assert (Ls : len s = len (plain x)) by apply keystream_len.
    rewrite (xor_with_comm (xor_with t (plain x)) s), (xor_with_comm (xor_with s _) s) by (rewrite ?len_xor_with; lia).
    rewrite xor_with_invol.
    rewrite (xor_with_comm t) by assumption. rewrite xor_with_comm by (rewrite len_xor_with; lia). apply xor_with_invol. }
  rewrite C. assert (M : any_mac k nn (aad_or_default (m_aad x)) t = drop (len (m_contents x) + 4) w).
  { unfold any_mac, nn. rewrite index_of_packet by lia. fold nn k. rewrite Hx, Hw. fold t. rewrite !bytes_eqb_refl. reflexivity. }
  rewrite M. unfold t. replace (len (m_contents x) + 4) with (3 + (len (m_contents x) + 1)) by lia. rewrite <- drop_drop.
  apply take_drop.
Qed.

Lemma any_stream : @bip_stream E' kL kP 0 (map to_bip ms) = ws.
Proof.
  apply stream_is; [assumption|]. intros i x w Hx Hw. rewrite N.add_0_l.
  assert (N.of_nat i < len ms) as Hi.
  { assert (nth_error ms i <> None) as X by congruence. apply nth_error_Some in X. unfold len. lia. }
  unfold bip_packet. rewrite (any_prefix (N.of_nat i) x w), (any_body (N.of_nat i) x w) by (rewrite ?Nat2N.id; assumption).
  apply take_drop.
Qed.
End Any.
