(** * PropsOrder: C102, the secret keys and the points of the curve

    The base point has prime order and its multiples are all the points of the curve.  So the secret keys in range are the points
    but infinity, each once, and what a peer sends, be it made from a key or not, cannot bring the key exchange to infinity or to a
    point that is known beforehand. *)
From Coq Require Import String List Arith NArith ZArith Znumtheory Bool Lia.
From Coq.Strings Require Import Byte.
From Verif Require Import Base BaseFacts Env Rfc SpecCurve RfcCurve GroupProofs PropsReal.
Import ListNotations.
Local Open Scope N_scope.

Local Notation px := (Curve.px Fp Fzero).
Local Notation on := (Curve.on Fp Fadd Fmul seven).

(** Secret keys are the 32-byte numbers from 1 to n - 1. *)
Lemma in_range_iff sk : sk_in_range sk = true <-> len sk = 32 /\ 0 < be_val sk /\ be_val sk < secp_n.
Proof.
  unfold sk_in_range. change order_n with secp_n. generalize (be_val sk) secp_n. intros k n. rewrite !andb_true_iff, negb_true_iff, N.eqb_eq, N.eqb_neq, N.ltb_lt. lia.
Qed.

Lemma be_val_inj a b : len a = len b -> be_val a = be_val b -> a = b.
Proof.
  unfold be_val, len. intros L E. rewrite <- (rev_involutive a), <- (rev_involutive b). f_equal. apply Nat2N.inj in L.
  rewrite <- (le_bytes_le_val (rev a)), <- (le_bytes_le_val (rev b)), E, !rev_length, L. reflexivity.
Qed.

(** The key that is the number [k]. *)
Lemma key_of k : 0 < k -> k < secp_n -> sk_in_range (be_bytes 32 k) = true /\ be_val (be_bytes 32 k) = k.
Proof.
  intros K0 K1. assert (V : be_val (be_bytes 32 k) = k).
  { unfold be_val, be_bytes. rewrite rev_involutive, le_val_le_bytes. apply N.mod_small. eapply N.lt_trans; [exact K1|reflexivity]. }
  split; [|exact V]. apply in_range_iff. rewrite V. split; [apply len_be_bytes|]. split; assumption.
Qed.

(** ** The group *)

Theorem C102_order : prime (Z.of_N secp_n) /\
  forall k q, multiple base_point k q -> (q = None <-> (secp_n | N.of_nat k)).
Proof.
  split; [exact order_prime|]. intros k q M. rewrite <- (Nat2N.id k) in M. apply multiple_is in M. change secp_n with order_n.
  rewrite <- (kQ_none P P_on P_not_none order_P), M. destruct (kQ P (N.of_nat k)) as [[x y]|]; cbn [coords]; split; (discriminate || reflexivity).
Qed.
Print Assumptions C102_order.

(** Each point of the curve is one multiple of the base point. *)
Theorem C102_points : forall q, on_curve q ->
  exists k, k < secp_n /\ multiple base_point (N.to_nat k) q /\
  forall j, j < secp_n -> multiple base_point (N.to_nat j) q -> j = k.
Proof.
  intros q C. change secp_n with order_n. destruct (point_of q C) as (p & A & <-). destruct (kQ_all P P_on P_not_none order_P p A) as (k & K & ->). exists k.
  split; [exact K|]. split; [apply multiple_base|]. intros j J M. apply multiple_is, coords_inj, (kQ_same P P_on P_not_none order_P) in M.
  rewrite !N.mod_small in M by assumption. symmetry. exact M.
Qed.
Print Assumptions C102_points.

(** ** The secret keys *)

(** The public key of a key in range is a point of the curve and not infinity. *)
Theorem C102_public_key : forall sk, sk_in_range sk = true ->
  exists x y, multiple base_point (N.to_nat (be_val sk)) (Some (x, y)) /\ on_curve (Some (x, y)) /\ x_of (mult (be_val sk) generator) = x.
Proof.
  intros sk R. destruct (C101_public_key sk R) as (_ & X). apply in_range_iff in R. destruct R as (_ & K0 & K1).
  pose proof (kQ_not_none P P_on P_not_none order_P _ K0 K1) as NN. pose proof (multiple_base (be_val sk)) as M.
  pose proof (coords_on _ (kQ_on P P_on (be_val sk))) as C. pose proof (X _ M) as Q.
  revert NN M C Q. destruct (kQ P (be_val sk)) as [[x y]|]; [|contradiction]. intros _ M C Q. exists (val x), (val y). split; [exact M|]. split; [exact C|exact Q].
Qed.
Print Assumptions C102_public_key.

(** Every point but infinity is the public key of one secret key. *)
Theorem C102_secret_key : forall x y, on_curve (Some (x, y)) ->
  exists sk, sk_in_range sk = true /\ multiple base_point (N.to_nat (be_val sk)) (Some (x, y)) /\
  forall sk', sk_in_range sk' = true -> multiple base_point (N.to_nat (be_val sk')) (Some (x, y)) -> sk' = sk.
Proof.
  intros x y C. destruct (C102_points _ C) as (k & K & M & U). assert (K0 : 0 < k).
  { destruct (N.eq_0_gt_0_cases k) as [->|G0]; [|exact G0]. exfalso. change (N.to_nat 0) with O in M. inversion M. }
  destruct (key_of k K0 K) as (R & V). exists (be_bytes 32 k). rewrite V. split; [exact R|]. split; [exact M|]. intros sk' R' M'.
  apply in_range_iff in R, R'. destruct R as (L & _), R' as (L' & R0 & R1). apply be_val_inj; [congruence|]. rewrite V. exact (U _ R1 M').
Qed.
Print Assumptions C102_secret_key.

(** What the other side learns of a public key is its x coordinate: two keys in range have the same one if they add up to the order,
    and only then. *)
Theorem C102_same_key : forall sk sk', sk_in_range sk = true -> sk_in_range sk' = true ->
  (x_of (mult (be_val sk) generator) = x_of (mult (be_val sk') generator) <-> sk = sk' \/ be_val sk + be_val sk' = secp_n).
Proof.
  intros sk sk' R R'. destruct (C101_public_key sk R) as (_ & X). destruct (C101_public_key sk' R') as (_ & X').
  rewrite (X _ (multiple_base _)), (X' _ (multiple_base _)), !abscissa_coords. clear X X'.
  apply in_range_iff in R, R'. destruct R as (L & R0 & R1), R' as (L' & R0' & R1').
  pose proof (kQ_px P P_on P_not_none order_P _ _ R0 R1 R0' R1') as T. change secp_n with order_n. split.
  - intros E. apply val_inj in E. apply T in E. destruct E as [E|E]; [left; apply be_val_inj; [congruence|exact E]|right; exact E].
  - intros [->|E]; [reflexivity|]. f_equal. apply T. right. exact E.
Qed.
Print Assumptions C102_same_key.

(** ** The key exchange *)

(** The number that is hashed, for the bytes [e] of the other side. *)
Definition shared_x (e sk : bytes) : N := x_of (mult (be_val sk) (lift_x (decode_x e))).

Lemma hashed a b sk p data : ellswift_xdh a b sk p data =
  tagged_hash "bip324_ellswift_xonly_ecdh" (a ++ b ++ be_bytes 32 (shared_x (match p with PartyA => b | PartyB => a end) sk)).
Proof. reflexivity. Qed.

Lemma shared_kQ e : exists p, on p /\ p <> None /\ val (px p) = decode_x e /\
  forall sk, sk_in_range sk = true -> shared_x e sk = val (px (kQ p (be_val sk))).
Proof.
  destruct (decoded e) as (p & A & NN & X & S). exists p. split; [exact A|]. split; [exact NN|]. split; [exact X|]. intros sk R.
  destruct (in_range_pos sk R) as (k & K). unfold shared_x, kQ. rewrite K. exact (S k).
Qed.

(** Whatever 64 bytes arrive, the shared point is a point of the curve and not infinity: [shared_x] is the x coordinate of as many
    times the point that the bytes name as the secret key says. *)
Theorem C102_exchange : forall e sk, sk_in_range sk = true ->
  exists y x' y', on_curve (Some (decode_x e, y)) /\
    multiple (Some (decode_x e, y)) (N.to_nat (be_val sk)) (Some (x', y')) /\ on_curve (Some (x', y')) /\ shared_x e sk = x'.
Proof.
  intros e sk R. destruct (shared_kQ e) as (p & A & NN & X & H). rewrite (H sk R). clear H. apply in_range_iff in R. destruct R as (_ & K0 & K1).
  pose proof (kQ_not_none p A NN (all_order p A) _ K0 K1) as NQ. pose proof (multiple_kQ p (be_val sk) A) as M. pose proof (coords_on _ (kQ_on p A (be_val sk))) as C.
  pose proof (coords_on _ A) as CP. revert NQ M C. destruct (kQ p (be_val sk)) as [[x' y']|]; [|contradiction]. intros _ M C.
  destruct p as [[x y]|]; [|contradiction]. cbn [Curve.px coords] in *. rewrite X in *. exists (val y), (val x'), (val y'). split; [exact CP|]. split; [exact M|].
  split; [exact C|reflexivity].
Qed.
Print Assumptions C102_exchange.

(** For any bytes that arrive, the x coordinate of every point of the curve is the number hashed for some secret key, and for two
    of them at most, which add up to the order.  So the bytes a peer chooses leave the number as open as the secret key was. *)
Theorem C102_every_secret : forall e x y, on_curve (Some (x, y)) ->
  exists sk, sk_in_range sk = true /\ shared_x e sk = x /\
  forall sk', sk_in_range sk' = true -> (shared_x e sk' = x <-> sk' = sk \/ be_val sk' + be_val sk = secp_n).
Proof.
  intros e x y C. destruct (shared_kQ e) as (p & A & NN & _ & H). destruct (point_of _ C) as (q & B & Q). destruct (kQ_all p A NN (all_order p A) q B) as (k & K & E).
  assert (K0 : 0 < k). { destruct (N.eq_0_gt_0_cases k) as [Z|G0]; [|exact G0]. exfalso. rewrite E, Z in Q. discriminate Q. }
  destruct (key_of k K0 K) as (R & V). exists (be_bytes 32 k). split; [exact R|].
  assert (X : x = val (px (kQ p k))) by (rewrite <- E, <- abscissa_coords, Q; reflexivity).
  split; [rewrite (H _ R), V, X; reflexivity|]. intros sk' R'. rewrite (H _ R'), V, X. apply in_range_iff in R, R'. destruct R as (L & _), R' as (L' & R0 & R1).
  pose proof (kQ_px p A NN (all_order p A) _ _ R0 R1 K0 K) as T. change secp_n with order_n. split.
  - intros Y. apply val_inj in Y. apply T in Y. destruct Y as [Y|Y]; [left; apply be_val_inj; [congruence|rewrite V; exact Y]|right; exact Y].
  - intros [Y|Y]; f_equal; apply T; [left; rewrite Y; exact V|right; exact Y].
Qed.
Print Assumptions C102_every_secret.

(** For a given key, the bytes matter by the x coordinate they name, and two of these never give the same number. *)
Theorem C102_distinct : forall e e' sk, sk_in_range sk = true -> (shared_x e sk = shared_x e' sk <-> decode_x e = decode_x e').
Proof.
  intros e e' sk R. destruct (shared_kQ e) as (p & A & NN & X & H). destruct (shared_kQ e') as (p' & A' & NN' & X' & H'). rewrite (H _ R), (H' _ R), <- X, <- X'. clear H H' X X'.
  apply in_range_iff in R. destruct R as (_ & K0 & K1). revert K0 K1. generalize (be_val sk). intros k K0 K1. pose proof (all_order p' A') as O'.
  destruct (kQ_all p' A' NN' O' p A) as (c & C1 & C). assert (C0 : 0 < c).
  { destruct (N.eq_0_gt_0_cases c) as [Z|G0]; [|exact G0]. exfalso. apply NN. rewrite C, Z. reflexivity. }
  pose proof (kQ_not_none p' A' NN' O' k K0 K1) as NR. pose proof (kQ_on p' A' k) as AR. assert (E : kQ p k = kQ (kQ p' k) c).
  { rewrite C. rewrite !(kQ_kQ _ _ _ A'). f_equal. apply N.mul_comm. }
  assert (ONE : forall q, kQ q 1 = q) by (intros q; unfold kQ; change (N.to_nat 1) with 1%nat; cbn [Curve.ntimes]; destruct q as [[? ?]|]; reflexivity).
  assert (L1 : 1 < order_n) by reflexivity. assert (L0 : 0 < 1) by reflexivity.
  pose proof (kQ_px p' A' NN' O' c 1 C0 C1 L0 L1) as T. rewrite ONE, <- C in T.
  pose proof (kQ_px _ AR NR (all_order _ AR) c 1 C0 C1 L0 L1) as T'. rewrite ONE, <- E in T'.
  split; intros Y; f_equal; apply val_inj in Y; [apply T, T', Y|apply T', T, Y].
Qed.
Print Assumptions C102_distinct.

(** The number is never 0, which is what the model (and libsecp256k1's x-only arithmetic) would give for infinity. *)
Theorem C102_not_zero : forall e sk, sk_in_range sk = true -> shared_x e sk <> 0.
Proof.
  intros e sk R H. destruct (C102_exchange e sk R) as (y & x' & y' & _ & _ & C & X). rewrite H in X. subst x'. destruct (point_of _ C) as (p & A & Q).
  destruct p as [[u v]|]; [|discriminate Q]. injection Q as U V. apply on_vals in A. rewrite U in A. apply (seven_no_square (val v) (val_lt v)). rewrite A. reflexivity.
Qed.
Print Assumptions C102_not_zero.

(** What goes into the hash differs for any two secret keys that do not add up to the order. *)
Theorem C102_hash_input : forall a b e sk sk', sk_in_range sk = true -> sk_in_range sk' = true ->
  (a ++ b ++ be_bytes 32 (shared_x e sk) = a ++ b ++ be_bytes 32 (shared_x e sk') <-> sk = sk' \/ be_val sk + be_val sk' = secp_n).
Proof.
  intros a b e sk sk' R R'. assert (B : forall k, sk_in_range k = true -> be_val (be_bytes 32 (shared_x e k)) = shared_x e k).
  { intros k K. destruct (C102_exchange e k K) as (y & x' & y' & _ & _ & (C & _) & X). rewrite X. unfold be_val, be_bytes. rewrite rev_involutive, le_val_le_bytes.
    apply N.mod_small. eapply N.lt_trans; [exact C|reflexivity]. }
  destruct (C102_exchange e sk' R') as (y & x' & y' & _ & _ & C & X). destruct (C102_every_secret e x' y' C) as (k & K & KX & U).
  assert (S' : sk' = k \/ be_val sk' + be_val k = secp_n) by (apply (U sk' R'); exact X). pose proof (U sk R) as S0.
  transitivity (shared_x e sk = shared_x e sk').
  - split; [|intros ->; reflexivity]. intros E. apply app_inv_head, app_inv_head in E. rewrite <- (B sk R), E. apply B, R'.
  - rewrite X, S0. clear - S' R R' K. apply in_range_iff in R, R', K. destruct R as (L & R), R' as (L' & R'), K as (LK & K).
    assert (J : forall u v, len u = 32 -> len v = 32 -> (u = v <-> be_val u = be_val v)) by (intros u v LU LV; split; [intros ->; reflexivity|apply be_val_inj; congruence]).
    rewrite (J sk k), (J sk sk') by assumption. rewrite (J sk' k) in S' by assumption. revert R R' K S'. generalize (be_val sk) (be_val sk') (be_val k) secp_n. lia.
Qed.
Print Assumptions C102_hash_input.

(** ** Examples *)

(** 2 is a multiple that is not infinity and the order does not divide it; the order itself gives infinity (as a number: the
    natural number would not fit anywhere). *)
Example C102_small : ~ (secp_n | 2) /\ exists q, multiple base_point 2 q /\ q <> None.
Proof.
  split; [intros H; apply N.divide_pos_le in H; [apply H; reflexivity|reflexivity]|]. exists twice. split; [apply C101_multiples|discriminate].
Qed.
Example C102_infinity : multiple base_point (N.to_nat secp_n) None.
Proof. change secp_n with order_n. pose proof (multiple_base order_n) as M. rewrite order_P in M. exact M. Qed.

(** Two keys with the same x coordinate and one with another; bytes that nobody made from a key, with the numbers that the three
    keys give. *)
Definition low_keys : list bytes := [be_bytes 32 1; be_bytes 32 (secp_n - 1); be_bytes 32 2].
Definition low_xs := Eval vm_compute in
  (map sk_in_range low_keys, map (fun sk => x_of (mult (be_val sk) generator)) low_keys, map (shared_x (zeros 64)) low_keys, decode_x (zeros 64), shared_x (repeat xff 64) (be_bytes 32 1)).
Example C102_example :
  let '(ranges, publics, shareds, named, other) := low_xs in
  ranges = [true; true; true] /\
  (nth 0 publics 0 = nth 1 publics 0 /\ nth 0 publics 0 <> nth 2 publics 0) /\
  (nth 0 shareds 0 = named /\ nth 1 shareds 0 = named /\ nth 2 shareds 0 <> named) /\ other <> named /\ other <> 0.
Proof. cbn. repeat split; discriminate. Qed.
