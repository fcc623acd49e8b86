(** * ForgeryProofs: the keys that fit a tag, and what two different packets have in common *)
From Coq.Strings Require Import Byte.
From Coq Require Import List NArith ZArith Bool Lia.
From Coq Require Import ZifyBool ZifyNat ZifyN.
From Verif Require Import Base BaseFacts Env Rfc Primes PolyPrime PolyProofs SpecForgery.
Import ListNotations.
Local Open Scope N_scope.

(** ** Clamping *)

Definition clamp_mask : N := 21267647620597763993911028882763415551.

Fixpoint both (l l' : bytes) : bytes :=
  match l, l' with b :: l, c :: l' => byte_of_N (N.land (Byte.to_N b) (Byte.to_N c)) :: both l l' | _, _ => [] end.

Lemma land_bytes a b x y : a < 256 -> b < 256 -> N.land (a + 256 * x) (b + 256 * y) = N.land a b + 256 * N.land x y.
Proof.
  intros A B.
  assert (N.land a b < 256) as AB.
  { destruct (N.eq_dec (N.land a b) 0) as [->|Z]; [reflexivity|]. change 256 with (2 ^ 8). apply N.log2_lt_pow2; [lia|].
    pose proof (N.log2_land a b). destruct (N.eq_dec a 0) as [->|Za]; [now rewrite N.land_0_l in Z|].
    assert (N.log2 a < 8) by (apply N.log2_lt_pow2; [lia|exact A]). lia. }
  assert (S : forall u v, u < 256 -> forall n, N.testbit (u + 256 * v) n = if n <? 8 then N.testbit u n else N.testbit v (n - 8)).
  { intros u v U n. replace (256 * v) with (N.shiftl v 8) by (rewrite N.shiftl_mul_pow2; lia).
    rewrite N.add_nocarry_lxor.
    - rewrite N.lxor_spec. destruct (n <? 8) eqn:L.
      + rewrite N.shiftl_spec_low by lia. apply xorb_false_r.
      + rewrite N.shiftl_spec_high' by lia. rewrite (N.bits_above_log2 u); [apply xorb_false_l|].
        destruct (N.eq_dec u 0) as [->|Z]; [cbn; lia|]. assert (N.log2 u < 8) by (apply N.log2_lt_pow2; [lia|exact U]). lia.
    - apply N.bits_inj. intros k. rewrite N.land_spec, N.bits_0. destruct (N.lt_ge_cases k 8).
      + rewrite N.shiftl_spec_low by lia. apply andb_false_r.
      + rewrite (N.bits_above_log2 u); [apply andb_false_l|].
        destruct (N.eq_dec u 0) as [->|Z]; [cbn; lia|]. assert (N.log2 u < 8) by (apply N.log2_lt_pow2; [lia|exact U]). lia. }
  apply N.bits_inj. intros n. rewrite N.land_spec, !S by assumption. destruct (n <? 8); now rewrite N.land_spec.
Qed.

Lemma land_both l : forall l', length l = length l' -> N.land (le_val l) (le_val l') = le_val (both l l').
Proof.
  induction l as [|b l IH]; intros [|c l'] L; try discriminate; [reflexivity|]. cbn [le_val both].
  rewrite land_bytes by apply to_N_lt. rewrite IH by (injection L; auto). f_equal. rewrite to_N_byte_of_N, N.mod_small; [reflexivity|].
  pose proof (to_N_lt b) as B. destruct (N.eq_dec (N.land (Byte.to_N b) (Byte.to_N c)) 0) as [->|Z]; [reflexivity|].
  change 256 with (2 ^ 8). apply N.log2_lt_pow2; [lia|]. pose proof (N.log2_land (Byte.to_N b) (Byte.to_N c)).
  destruct (N.eq_dec (Byte.to_N b) 0) as [E|Za]; [rewrite E in Z; now rewrite N.land_0_l in Z|].
  assert (N.log2 (Byte.to_N b) < 8) by (apply N.log2_lt_pow2; [lia|exact B]). lia.
Qed.

Definition mask_bytes : bytes := Eval vm_compute in le_bytes 16 clamp_mask.

Lemma band_ff b : byte_of_N (N.land (Byte.to_N b) 255) = b. Proof. destruct b; reflexivity. Qed.
Lemma band_0f b : byte_of_N (N.land (Byte.to_N b) 15) = byte_of_N (Byte.to_N b mod 16). Proof. destruct b; reflexivity. Qed.
Lemma band_fc b : byte_of_N (N.land (Byte.to_N b) 252) = byte_of_N (Byte.to_N b / 4 * 4). Proof. destruct b; reflexivity. Qed.

Definition cleared (r : bytes) : bytes := map (fun x => clear (fst x) (snd x)) (combine (seq 0 16) r).

Lemma cleared_land r : len r = 16 -> N.land (le_val r) clamp_mask = le_val (cleared r).
Proof.
  intros L. replace clamp_mask with (le_val mask_bytes) by reflexivity. unfold len in L.
  rewrite land_both by (cbn; lia). f_equal.
  do 16 (destruct r as [|? r]; [cbn in L; lia|]). destruct r; [|cbn in L; lia].
  unfold mask_bytes, cleared. cbn [both seq combine map fst snd clear].
  change (Byte.to_N xff) with 255. change (Byte.to_N x0f) with 15. change (Byte.to_N xfc) with 252.
  rewrite !band_ff, !band_0f, !band_fc. reflexivity.
Qed.

Lemma clear_may i b : may_stand i (clear i b) = true.
Proof. do 16 (destruct i as [|i]; [destruct b; reflexivity|]). reflexivity. Qed.

Lemma may_clear i b : may_stand i b = true -> clear i b = b.
Proof. do 16 (destruct i as [|i]; [destruct b; first [reflexivity|discriminate]|]). reflexivity. Qed.

Lemma len_cleared r : len r = 16 -> len (cleared r) = 16.
Proof. unfold len, cleared. intros L. rewrite map_length, combine_length, seq_length. lia. Qed.

Lemma len_clamp key : len key = 32 -> len (clamp key) = 32.
Proof. intros L. unfold clamp. fold (cleared (take 16 key)). rewrite len_app, len_cleared, len_drop by (rewrite len_take; lia). lia. Qed.

Lemma nth_cleared r : forall i b, nth_error (cleared r) i = Some b -> exists a, nth_error r i = Some a /\ b = clear i a.
Proof.
  assert (G : forall k n r i b, nth_error (map (fun x => clear (fst x) (snd x)) (combine (seq k n) r)) i = Some b ->
    exists a, nth_error r i = Some a /\ b = clear (k + i) a).
  { intros k n. revert k. induction n as [|n IH]; intros k r' i b H; [destruct i; discriminate|]. destruct r' as [|a r']; [destruct i; discriminate|].
    destruct i as [|i]; cbn in H; [injection H as <-; exists a; rewrite Nat.add_0_r; auto|].
    destruct (IH (S k) r' i b H) as (a' & Ha & ->). exists a'. split; [exact Ha|]. f_equal. lia. }
  intros i b H. exact (G 0%nat 16%nat r i b H).
Qed.

Lemma clamp_clamped key : len key = 32 -> clamped (clamp key).
Proof.
  intros L. split; [now apply len_clamp|]. intros i b I H. unfold clamp in H. fold (cleared (take 16 key)) in H.
  assert (len (cleared (take 16 key)) = 16) as LC by (apply len_cleared; rewrite len_take; lia).
  rewrite nth_error_app1 in H by (unfold len in LC; lia). destruct (nth_cleared _ _ _ H) as (a & _ & ->). apply clear_may.
Qed.

Lemma clamped_clamp key : clamped key -> clamp key = key.
Proof.
  intros (L & H). unfold clamp. rewrite <- (take_drop 16 key) at 3. f_equal.
  assert (length (take 16 key) = 16%nat) as L16. { pose proof (len_take 16 key) as X. unfold len in *. lia. }
  assert (G : forall i b, nth_error (take 16 key) i = Some b -> may_stand i b = true).
  { intros i b Hi. assert (i < length (take 16 key))%nat as X by (apply nth_error_Some; congruence).
    apply (H i b); [lia|]. rewrite <- (take_drop 16 key), nth_error_app1 by lia. exact Hi. }
  revert L16 G. generalize (take 16 key). intros r L16 G.
  do 16 (destruct r as [|? r]; [cbn in L16; lia|]). destruct r; [|cbn in L16; lia].
  cbn [seq combine map fst snd].
  repeat match goal with |- context [clear ?i ?b] => rewrite (may_clear i b (G i b eq_refl)) end. reflexivity.
Qed.

(** ** Tags as numbers *)

Definition r_of (key : bytes) : N := le_val (take 16 (clamp key)).
Definition s_of (key : bytes) : N := le_val (drop 16 key).

Lemma take_clamp key : len key = 32 -> take 16 (clamp key) = cleared (take 16 key) /\ drop 16 (clamp key) = drop 16 key.
Proof.
  intros L. unfold clamp. fold (cleared (take 16 key)).
  assert (len (cleared (take 16 key)) = 16) as LC by (apply len_cleared; rewrite len_take; lia).
  split; [apply take_app_exact|apply drop_app_exact]; now rewrite LC.
Qed.

Lemma poly1305_tag key msg : len key = 32 -> poly1305 key msg = le_bytes 16 (hash (r_of key) msg + s_of key).
Proof.
  intros L. unfold poly1305, r_of, s_of. destruct (take_clamp key L) as [-> _].
  change 21267647620597763993911028882763415551 with clamp_mask. rewrite cleared_land by (rewrite len_take; lia).
  rewrite (take_all 16 (drop 16 key)) by (rewrite len_drop; lia). reflexivity.
Qed.

Lemma clamp_same key msg : len key = 32 -> poly1305 (clamp key) msg = poly1305 key msg.
Proof.
  intros L. rewrite !poly1305_tag by (try apply len_clamp; assumption). unfold r_of, s_of.
  rewrite (clamped_clamp (clamp key)) by now apply clamp_clamped. now destruct (take_clamp key L) as [_ ->].
Qed.

Lemma pow_16 : 256 ^ N.of_nat 16 = 2 ^ 128. Proof. reflexivity. Qed.

Lemma val_16 l : len l = 16 -> le_val l < 2 ^ 128.
Proof. intros L. pose proof (le_val_bound l) as B. rewrite L in B. exact B. Qed.

Lemma tag_iff h s tag : len tag = 16 -> (le_bytes 16 (h + s) = tag <-> (h + s) mod 2 ^ 128 = le_val tag).
Proof.
  intros L. split; intros H.
  - apply (f_equal le_val) in H. rewrite le_val_le_bytes, pow_16 in H. exact H.
  - rewrite <- le_bytes_mod, pow_16, H. rewrite <- (le_bytes_le_val tag) at 2. f_equal. unfold len in L. lia.
Qed.

Lemma r_bound key : len key = 32 -> r_of key < poly_p.
Proof.
  intros L. unfold r_of. assert (le_val (take 16 (clamp key)) < 2 ^ 128) as B by (apply val_16; rewrite len_take, len_clamp by exact L; lia).
  assert (2 ^ 128 < poly_p) by reflexivity. lia.
Qed.

(** The second half of the key that makes a tag what it is. *)
Definition rest_for (h t : N) : N := (t + (2 ^ 128 - h mod 2 ^ 128)) mod 2 ^ 128.

Lemma rest_iff h s t : s < 2 ^ 128 -> t < 2 ^ 128 -> ((h + s) mod 2 ^ 128 = t <-> s = rest_for h t).
Proof.
  intros S T. unfold rest_for. change (2 ^ 128) with 340282366920938463463374607431768211456 in *. lia.
Qed.

(** ** Counting keys *)

Definition all_bytes : list byte := Eval vm_compute in map (fun n => byte_of_N (N.of_nat n)) (seq 0 256).

Lemma in_all b : In b all_bytes.
Proof.
  replace all_bytes with (map (fun n => byte_of_N (N.of_nat n)) (seq 0 256)) by reflexivity.
  apply in_map_iff. exists (N.to_nat (Byte.to_N b)). rewrite N2Nat.id, byte_of_N_to_N. split; [reflexivity|].
  apply in_seq. pose proof (to_N_lt b). lia.
Qed.

Lemma nodup_all : NoDup all_bytes.
Proof.
  apply (NoDup_map_inv (fun b => N.to_nat (Byte.to_N b))). replace (map _ all_bytes) with (seq 0 256) by reflexivity. apply seq_NoDup.
Qed.

Fixpoint lists_of (cs : list (list byte)) : list bytes :=
  match cs with [] => [[]] | c :: cs => flat_map (fun b => map (cons b) (lists_of cs)) c end.

Lemma flat_map_len {A B} (f : A -> list B) n : forall l, (forall x, len (f x) = n) -> len (flat_map f l) = len l * n.
Proof. induction l as [|x l IH]; intros H; [reflexivity|]. cbn [flat_map]. rewrite len_app, len_cons, IH, H by exact H. lia. Qed.

Lemma lists_len cs : len (lists_of cs) = fold_right (fun c n => len c * n) 1 cs.
Proof.
  induction cs as [|c cs IH]; [reflexivity|]. cbn [lists_of fold_right]. rewrite (flat_map_len _ (len (lists_of cs))); [now rewrite IH|].
  intros b. unfold len. now rewrite map_length.
Qed.

Lemma in_lists cs : forall l, In l (lists_of cs) <-> Forall2 (fun b c => In b c) l cs.
Proof.
  induction cs as [|c cs IH]; intros l; cbn [lists_of].
  - split; [intros [<-|[]]; constructor|]. intros H. inversion H. now left.
  - rewrite in_flat_map. split.
    + intros (b & Hb & H). apply in_map_iff in H. destruct H as (l' & <- & H). constructor; [exact Hb|]. now apply IH.
    + intros H. inversion H as [|b c' l' cs' Hb Hl]; subst. exists b. split; [exact Hb|]. apply in_map. now apply IH.
Qed.

Lemma nodup_lists cs : Forall (@NoDup byte) cs -> NoDup (lists_of cs).
Proof.
  induction 1 as [|c cs Hc _ IH]; cbn [lists_of]; [repeat constructor; intros []|].
  induction Hc as [|b c Nb _ IHc]; cbn [flat_map]; [constructor|].
  assert (A : forall B (l m : list B), NoDup l -> NoDup m -> (forall x, In x l -> In x m -> False) -> NoDup (l ++ m)).
  { clear. intros B l m. induction 1 as [|x l N _ IH]; intros M D; [exact M|]. cbn. constructor.
    - intros I. apply in_app_iff in I. destruct I as [I|I]; [contradiction|]. exact (D x (or_introl eq_refl) I).
    - apply IH; [exact M|]. intros y Y. apply D. now right. }
  apply A; [|exact IHc|].
  - apply FinFun.Injective_map_NoDup; [intros x y Q; now injection Q|exact IH].
  - intros l I1 I2. apply in_map_iff in I1. destruct I1 as (l1 & <- & _). apply in_flat_map in I2. destruct I2 as (b' & Hb & I2).
    apply in_map_iff in I2. destruct I2 as (l2 & Q & _). injection Q as -> _. contradiction.
Qed.

Definition choices : list (list byte) := map (fun i => filter (may_stand i) all_bytes) (seq 0 16).
Definition all_r : list bytes := lists_of choices.

Lemma all_r_len : len all_r = 2 ^ 106.
Proof. unfold all_r. rewrite lists_len. vm_compute. reflexivity. Qed.

Lemma all_r_nodup : NoDup all_r.
Proof.
  apply nodup_lists. unfold choices. apply Forall_forall. intros c I. apply in_map_iff in I. destruct I as (i & <- & _).
  apply NoDup_filter, nodup_all.
Qed.

Lemma in_choices n r : In r (lists_of (map (fun i => filter (may_stand i) all_bytes) (seq 0 n))) <->
  length r = n /\ forall i b, nth_error r i = Some b -> may_stand i b = true.
Proof.
  rewrite in_lists.
  assert (G : forall al, (forall b, In b al) -> forall n k r, Forall2 (fun b c => In b c) r (map (fun i => filter (may_stand i) al) (seq k n)) <->
    length r = n /\ forall i b, nth_error r i = Some b -> may_stand (k + i) b = true).
  { clear r n. intros al A. induction n as [|n IH]; intros k r; cbn [seq map].
    - split; [intros H; inversion H; split; [reflexivity|]; intros [|i] b Q; discriminate|]. intros (L & _). destruct r; [constructor|discriminate].
    - split.
      + intros H. inversion H as [|b c r' cs Hb Hr]; subst. apply filter_In in Hb. apply IH in Hr. destruct Hr as (L & Hr). cbn [length].
        split; [now rewrite L|]. intros [|i] b' Q; cbn in Q; [injection Q as <-; rewrite Nat.add_0_r; apply Hb|].
        rewrite <- Nat.add_succ_comm. now apply Hr.
      + intros (L & H). destruct r as [|b r]; [discriminate|]. injection L as L. constructor.
        * apply filter_In. split; [apply A|]. specialize (H 0%nat b eq_refl). now rewrite Nat.add_0_r in H.
        * apply IH. split; [exact L|]. intros i b' Q. rewrite Nat.add_succ_comm. now apply (H (S i)). }
  exact (G all_bytes in_all n 0%nat r).
Qed.

Lemma in_all_r r : In r all_r <-> len r = 16 /\ forall i b, nth_error r i = Some b -> may_stand i b = true.
Proof. unfold all_r, choices. rewrite in_choices. unfold len. split; intros (L & H); split; try exact H; lia. Qed.

(** All keys. *)
Definition all_keys : list bytes := lists_of (map (fun i => filter (may_stand i) all_bytes) (seq 0 32)).

Lemma all_keys_len : len all_keys = 2 ^ 234.
Proof. unfold all_keys. rewrite lists_len. vm_compute. reflexivity. Qed.

Lemma all_keys_nodup : NoDup all_keys.
Proof.
  apply nodup_lists. apply Forall_forall. intros c I. apply in_map_iff in I. destruct I as (i & <- & _). apply NoDup_filter, nodup_all.
Qed.

Lemma in_all_keys key : In key all_keys <-> clamped key.
Proof.
  unfold all_keys. rewrite in_choices. unfold clamped, len. split.
  - intros (L & H). split; [lia|]. intros i b _ Q. now apply H.
  - intros (L & H). split; [lia|]. intros i b Q. destruct (Nat.lt_ge_cases i 16) as [X|X]; [now apply (H i b)|].
    do 16 (destruct i as [|i]; [lia|]). reflexivity.
Qed.

Lemma len_map {A B} (f : A -> B) l : len (map f l) = len l.
Proof. unfold len. now rewrite map_length. Qed.

Definition keys_for (msg tag : bytes) : list bytes :=
  map (fun r => r ++ le_bytes 16 (rest_for (hash (le_val r) msg) (le_val tag))) all_r.

Lemma keys_for_len msg tag : len (keys_for msg tag) = 2 ^ 106.
Proof. unfold keys_for. rewrite len_map. apply all_r_len. Qed.

Lemma keys_for_nodup msg tag : NoDup (keys_for msg tag).
Proof.
  unfold keys_for. assert (forall l, NoDup l -> (forall r, In r l -> len r = 16) ->
    NoDup (map (fun r => r ++ le_bytes 16 (rest_for (hash (le_val r) msg) (le_val tag))) l)) as G.
  { induction 1 as [|r l N _ IH]; intros L; cbn [map]; constructor; [|apply IH; intros; apply L; now right].
    intros I. apply in_map_iff in I. destruct I as (r' & Q & I). apply (f_equal (take 16)) in Q.
    rewrite !take_app_exact in Q by (symmetry; apply L; (now left) || now right). subst. contradiction. }
  apply G; [exact all_r_nodup|]. intros r I. now apply in_all_r in I.
Qed.

Lemma in_keys_for msg tag key : len tag = 16 -> (In key (keys_for msg tag) <-> clamped key /\ poly1305 key msg = tag).
Proof.
  intros Lt. unfold keys_for. rewrite in_map_iff. split.
  - intros (r & <- & I). apply in_all_r in I. destruct I as (Lr & Hr). set (s := rest_for _ _).
    assert (len (r ++ le_bytes 16 s) = 32) as Lk by (rewrite len_app, Lr, len_le_bytes; reflexivity).
    assert (clamped (r ++ le_bytes 16 s)) as C.
    { split; [exact Lk|]. intros i b Hi Q. rewrite nth_error_app1 in Q by (unfold len in Lr; lia). now apply Hr. }
    split; [exact C|]. rewrite poly1305_tag by exact Lk. unfold r_of, s_of. rewrite (clamped_clamp _ C).
    rewrite take_app_exact, drop_app_exact, le_val_le_bytes, pow_16 by now rewrite Lr.
    apply tag_iff; [exact Lt|]. apply rest_iff; [apply N.mod_lt; discriminate|now apply val_16|].
    unfold s. apply N.mod_small. unfold rest_for. apply N.mod_lt. discriminate.
  - intros (C & Q). pose proof C as (Lk & Hk). rewrite poly1305_tag in Q by exact Lk. apply tag_iff in Q; [|exact Lt].
    apply rest_iff in Q; [|apply val_16; rewrite len_drop; lia|now apply val_16].
    exists (take 16 key). split.
    + unfold r_of, s_of in Q. rewrite (clamped_clamp _ C) in Q. rewrite <- Q.
      replace 16%nat with (length (drop 16 key)) by (pose proof (len_drop 16 key) as D; unfold len in *; lia).
      rewrite le_bytes_le_val. apply take_drop.
    + apply in_all_r. split; [rewrite len_take; lia|]. intros i b Hi.
      assert (i < length (take 16 key))%nat as X by (apply nth_error_Some; congruence).
      pose proof (len_take 16 key) as Y. apply (Hk i b); [unfold len in *; lia|].
      rewrite <- (take_drop 16 key), nth_error_app1 by exact X. exact Hi.
Qed.

(** ** Two messages with their tags *)

Definition both_fit (m t m' t' : bytes) : list bytes :=
  map (fun r => le_bytes 16 r ++ le_bytes 16 (rest_for (hash r m) (le_val t))) (two_tags m m' (le_val t) (le_val t')).

Lemma both_fit_few m t m' t' : m <> m' -> len (both_fit m t m' t') <= 8 * N.max (block_count m) (block_count m').
Proof. intros Ne. unfold both_fit. rewrite len_map. now apply two_tags_few. Qed.

Lemma in_both_fit m t m' t' key : len t = 16 -> len t' = 16 -> clamped key -> poly1305 key m = t -> poly1305 key m' = t' ->
  In key (both_fit m t m' t').
Proof.
  intros Lt Lt' C Q Q'. pose proof C as (Lk & _). rewrite poly1305_tag in Q, Q' by exact Lk.
  apply tag_iff in Q; [|exact Lt]. apply tag_iff in Q'; [|exact Lt'].
  unfold both_fit. apply in_map_iff. exists (r_of key). split.
  - apply rest_iff in Q; [|apply val_16; rewrite len_drop; lia|now apply val_16]. rewrite <- Q. unfold r_of, s_of. rewrite (clamped_clamp _ C).
    replace (le_bytes 16 (le_val (take 16 key))) with (take 16 key).
    + replace (le_bytes 16 (le_val (drop 16 key))) with (drop 16 key); [apply take_drop|].
      rewrite <- (le_bytes_le_val (drop 16 key)) at 1. f_equal. pose proof (len_drop 16 key) as D. unfold len in *. lia.
    + rewrite <- (le_bytes_le_val (take 16 key)) at 1. f_equal. pose proof (len_take 16 key) as D. unfold len in *. lia.
  - rewrite <- Q, <- Q'. apply in_two_tags. now apply r_bound.
Qed.

(** ** What a tag takes in *)

Definition mac_input (aad ct : bytes) : bytes := aad ++ pad16 aad ++ ct ++ pad16 ct ++ le_bytes 8 (len aad) ++ le_bytes 8 (len ct).

Lemma len_pad a : len (a ++ pad16 a) = 16 * ((len a + 15) / 16).
Proof. unfold pad16. rewrite len_app, len_zeros. lia. Qed.

Lemma mac_input_blocks aad ct : block_count (mac_input aad ct) = tag_blocks aad ct.
Proof.
  unfold block_count, tag_blocks, mac_input. rewrite !app_assoc, <- (app_assoc _ ct (pad16 ct)), len_app, len_app, len_app, !len_pad, !len_le_bytes.
  change (N.of_nat 8) with 8. lia.
Qed.

Lemma mac_input_inj aad ct aad' ct' : len aad < 2 ^ 64 -> len ct < 2 ^ 64 -> len aad' < 2 ^ 64 -> len ct' < 2 ^ 64 ->
  mac_input aad ct = mac_input aad' ct' -> aad = aad' /\ ct = ct'.
Proof.
  intros L1 L2 L1' L2' H. unfold mac_input in H. rewrite !app_assoc in H.
  assert (G : forall (x y u v : bytes), len u = len v -> x ++ u = y ++ v -> x = y /\ u = v).
  { intros x y u v L Q. assert (len x = len y) as Lx. { apply (f_equal len) in Q. rewrite !len_app in Q. lia. }
    split; [apply (f_equal (take (len x))) in Q; rewrite take_app_exact in Q by reflexivity; rewrite Lx, take_app_exact in Q by reflexivity; exact Q|].
    apply (f_equal (drop (len x))) in Q. rewrite drop_app_exact in Q by reflexivity. rewrite Lx, drop_app_exact in Q by reflexivity. exact Q. }
  apply G in H; [|now rewrite !len_le_bytes]. destruct H as [H C]. apply G in H; [|now rewrite !len_le_bytes]. destruct H as [H A].
  apply le_bytes_inj in C; [|exact L2|exact L2']. apply le_bytes_inj in A; [|exact L1|exact L1'].
  rewrite <- !app_assoc, (app_assoc aad), (app_assoc aad') in H.
  apply G in H; [|rewrite !len_pad, C; reflexivity]. destruct H as [Ha Hc].
  apply (f_equal (take (len aad))) in Ha. rewrite take_app_exact in Ha by reflexivity. rewrite A, take_app_exact in Ha by reflexivity.
  apply (f_equal (take (len ct))) in Hc. rewrite take_app_exact in Hc by reflexivity. rewrite C, take_app_exact in Hc by reflexivity.
  split; assumption.
Qed.
