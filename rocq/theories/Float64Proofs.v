(** * Float64Proofs: rounding errors of the conversions and of the division *)
From Coq Require Import ZArith NArith Lia SpecFloat QArith Qabs Qpower.
From Verif Require Import Base Traffic Float64.
Local Open Scope Z_scope.

(** [X / D] lies in the cell of [m] that the bits [r] and [s] describe. *)
Definition inside (m : Z) (r s : bool) (X D : Z) : Prop :=
  match r, s with
  | false, false => X = m * D
  | false, true => 2 * m * D < 2 * X < 2 * m * D + D
  | true, false => 2 * X = 2 * m * D + D
  | true, true => 2 * m * D + D < 2 * X < 2 * m * D + 2 * D
  end.

Definition holds (x : shr_record) (X D : Z) : Prop := inside (shr_m x) (shr_r x) (shr_s x) X D.

Lemma shr_1_holds x X D : 0 < D -> 0 <= shr_m x -> holds x X D ->
  holds (shr_1 x) X (2 * D) /\ shr_m (shr_1 x) = shr_m x / 2.
Proof.
  destruct x as [m r s]. unfold holds. cbn [shr_m shr_r shr_s]. intros HD Hm H.
  destruct m as [|p|p]; [| |lia].
  - cbn [shr_1 shr_m shr_r shr_s]. split; [|reflexivity]. destruct r, s; cbn [orb inside] in *; nia.
  - destruct p as [p|p|]; cbn [shr_1 shr_m shr_r shr_s].
    + split; [|now rewrite (Pos2Z.inj_xI p), Z.mul_comm, Z.div_add_l by lia].
      rewrite (Pos2Z.inj_xI p) in H. destruct r, s; cbn [orb inside] in *; nia.
    + split; [|rewrite (Pos2Z.inj_xO p), Z.mul_comm, Z.div_mul by lia; reflexivity].
      rewrite (Pos2Z.inj_xO p) in H. destruct r, s; cbn [orb inside] in *; nia.
    + split; [|reflexivity]. destruct r, s; cbn [orb inside] in *; nia.
Qed.

Lemma iter_holds p : forall x X D, 0 < D -> 0 <= shr_m x -> holds x X D ->
  holds (SpecFloat.iter_pos shr_1 p x) X (2 ^ Zpos p * D) /\ shr_m (SpecFloat.iter_pos shr_1 p x) = shr_m x / 2 ^ Zpos p.
Proof.
  assert (T : forall p X D x (f : shr_record -> shr_record),
    (forall x X D, 0 < D -> 0 <= shr_m x -> holds x X D ->
       holds (f x) X (2 ^ Zpos p * D) /\ shr_m (f x) = shr_m x / 2 ^ Zpos p) ->
    0 < D -> 0 <= shr_m x -> holds x X D ->
    holds (f (f x)) X (2 ^ (2 * Zpos p) * D) /\ shr_m (f (f x)) = shr_m x / 2 ^ (2 * Zpos p)).
  { intros q X D x f F HD Hm H. assert (0 < 2 ^ Zpos q) by (apply Z.pow_pos_nonneg; lia).
    destruct (F x X D HD Hm H) as [A1 A2].
    destruct (F (f x) X (2 ^ Zpos q * D)) as [B1 B2]; [nia|rewrite A2; apply Z.div_pos; lia|assumption|].
    replace (2 * Zpos q) with (Zpos q + Zpos q) by lia. rewrite Z.pow_add_r by lia.
    split; [now rewrite <- Z.mul_assoc|]. rewrite B2, A2, Z.div_div by lia. reflexivity. }
  induction p as [p IH|p IH|]; intros x X D HD Hm H; cbn [SpecFloat.iter_pos].
  - destruct (shr_1_holds x X D HD Hm H) as [A1 A2].
    assert (0 <= shr_m (shr_1 x)) by (rewrite A2; apply Z.div_pos; lia).
    destruct (T p X (2 * D) (shr_1 x) (SpecFloat.iter_pos shr_1 p) IH) as [B1 B2]; [lia|assumption..|].
    rewrite (Pos2Z.inj_xI p), Z.pow_add_r by lia. change (2 ^ 1) with 2.
    split; [now rewrite <- Z.mul_assoc|]. rewrite B2, A2, Z.div_div by (try apply Z.pow_pos_nonneg; lia).
    f_equal. lia.
  - rewrite (Pos2Z.inj_xO p). now apply T.
  - exact (shr_1_holds x X D HD Hm H).
Qed.

Lemma digits2_bounds p : 2 ^ (Zpos (digits2_pos p) - 1) <= Zpos p < 2 ^ Zpos (digits2_pos p).
Proof.
  induction p as [p IH|p IH|]; cbn [digits2_pos].
  - rewrite Pos2Z.inj_succ, (Pos2Z.inj_xI p). set (q := Z.pos (digits2_pos p)) in *. assert (0 < q) by lia.
    rewrite (Z.pow_succ_r 2 q) by lia. replace (Z.succ q - 1) with (Z.succ (q - 1)) by lia.
    rewrite (Z.pow_succ_r 2 (q - 1)) by lia. lia.
  - rewrite Pos2Z.inj_succ, (Pos2Z.inj_xO p). set (q := Z.pos (digits2_pos p)) in *. assert (0 < q) by lia.
    rewrite (Z.pow_succ_r 2 q) by lia. replace (Z.succ q - 1) with (Z.succ (q - 1)) by lia.
    rewrite (Z.pow_succ_r 2 (q - 1)) by lia. lia.
  - cbn. lia.
Qed.

Lemma digits_unique m d : 0 < d -> 2 ^ (d - 1) <= m < 2 ^ d -> Zdigits2 m = d.
Proof.
  intros Hd H. assert (0 < 2 ^ (d - 1)) by (apply Z.pow_pos_nonneg; lia).
  destruct m as [|p|p]; [lia| |lia]. cbn [Zdigits2].
  pose proof (digits2_bounds p) as B. assert (Hq : 0 < Z.pos (digits2_pos p)) by lia. revert B Hq. generalize (Z.pos (digits2_pos p)). intros q B Hq.
  destruct (Z.lt_trichotomy q d) as [L|[E|L]]; [|exact E|].
  - assert (2 ^ q <= 2 ^ (d - 1)) by (apply Z.pow_le_mono_r; lia). lia.
  - assert (2 ^ d <= 2 ^ (q - 1)) by (apply Z.pow_le_mono_r; lia). lia.
Qed.

Lemma round_near m r s X D : 0 < D -> inside m r s X D ->
  let n := round_nearest_even m (loc_of_shr_record (Build_shr_record m r s)) in
  (n = m \/ n = m + 1) /\ Z.abs (2 * (n * D) - 2 * X) <= D.
Proof.
  intros HD H. destruct r, s; cbv beta iota zeta delta [inside round_nearest_even loc_of_shr_record] in *;
    try destruct (Z.even m); (split; [lia|]); apply Z.abs_le; nia.
Qed.

Lemma inside_le m r s X D : 0 < D -> inside m r s X D -> m * D <= X < (m + 1) * D.
Proof. intros HD H. destruct r, s; cbv beta iota delta [inside] in H; nia. Qed.

(** Rounding of [X / D * 2^e], of which [m] is the integral part, of at least 53 bits. *)
Lemma round_aux_spec m e l X D k :
  0 < D -> 0 <= k -> 2 ^ (52 + k) <= m < 2 ^ (53 + k) -> -1000 <= e -> e + k <= 900 ->
  holds (shr_record_of_loc m l) X D ->
  exists m' j, binary_round_aux 53 1024 false m e l = S754_finite false m' (e + k + j) /\ (j = 0 \/ j = 1) /\
    2 ^ 52 <= Zpos m' < 2 ^ 53 /\
    Z.abs (2 * (Zpos m' * 2 ^ j * (2 ^ k * D)) - 2 * X) <= 2 ^ k * D /\
    2 ^ 52 * (2 ^ k * D) <= X.
Proof.
  intros HD Hk Hm He1 He2 H. unfold binary_round_aux.
  assert (P : 0 < 2 ^ k) by (apply Z.pow_pos_nonneg; lia).
  assert (Hd : Zdigits2 m = 53 + k) by (apply digits_unique; [lia|]; replace (53 + k - 1) with (52 + k) by lia; assumption).
  assert (exists x, shr_fexp 53 1024 m e l = (x, e + k) /\ holds x X (2 ^ k * D) /\ shr_m x = m / 2 ^ k) as (x & E & Hx & Mx).
  { unfold shr_fexp. rewrite Hd. unfold fexp, emin. replace (Z.max _ _ - e) with k by lia.
    assert (shr_m (shr_record_of_loc m l) = m) as Sm by (destruct l as [|[]]; reflexivity).
    destruct k as [|p|p]; [| |lia].
    - exists (shr_record_of_loc m l). cbn [shr]. rewrite Z.add_0_r, Z.mul_1_l. split; [reflexivity|].
      split; [assumption|]. now rewrite Sm, Z.div_1_r.
    - exists (SpecFloat.iter_pos shr_1 p (shr_record_of_loc m l)). split; [reflexivity|].
      assert (0 <= shr_m (shr_record_of_loc m l)).
      { rewrite Sm. assert (0 < 2 ^ (52 + Z.pos p)) by (apply Z.pow_pos_nonneg; lia). lia. }
      destruct (iter_holds p _ X D HD ltac:(eassumption) H) as [I1 I2]. rewrite Sm in I2. split; assumption. }
  rewrite E. rewrite !Z.pow_add_r in Hm by lia.
  assert (2 ^ 52 <= shr_m x < 2 ^ 53) as Bx.
  { rewrite Mx. split; [apply Z.div_le_lower_bound; lia|apply Z.div_lt_upper_bound; lia]. }
  destruct x as [mx r s]. unfold holds in Hx. cbn [shr_m shr_r shr_s] in *.
  assert (0 < 2 ^ k * D) as PD by nia.
  destruct (round_near mx r s X _ PD Hx) as [N1 N2].
  pose proof (inside_le mx r s X _ PD Hx) as [L _].
  set (n := round_nearest_even mx _) in *.
  assert (n < 2 ^ 53 \/ n = 2 ^ 53) as [Hn|Hn] by lia.
  - unfold shr_fexp. rewrite (digits_unique n 53) by (cbn [Z.sub]; lia).
    unfold fexp, emin. replace (Z.max _ _ - (e + k)) with 0 by lia. cbn [shr shr_record_of_loc shr_m].
    destruct n as [|p|p]; [lia| |lia]. destruct (Z.leb_spec (e + k) (1024 - 53)); [|lia].
    exists p, 0. rewrite Z.add_0_r. split; [reflexivity|]. split; [now left|]. split; [lia|].
    rewrite Z.mul_1_r. split; [assumption|]. nia.
  - rewrite Hn in *. unfold shr_fexp. rewrite (digits_unique (2 ^ 53) 54) by (cbn; lia).
    unfold fexp, emin. replace (Z.max _ _ - (e + k)) with 1 by lia.
    change (2 ^ 53) with (Z.pos (2 ^ 53)) at 1. cbn [shr SpecFloat.iter_pos shr_record_of_loc shr_1 shr_m Pos.pow Pos.iter Pos.mul].
    match goal with |- context [S754_finite false ?q _] => exists q, 1 end.
    destruct (Z.leb_spec (e + k + 1) (1024 - 53)); [|lia].
    split; [reflexivity|]. split; [now right|]. split; [cbn; lia|]. split; [|nia].
    match goal with |- Z.abs (2 * (Z.pos ?q * 2 ^ 1 * _) - _) <= _ => change (Z.pos q * 2 ^ 1) with (2 ^ 53) end.
    assumption.
Qed.

Lemma shift_pos_mul d m : Zpos (shift_pos d m) = Zpos m * 2 ^ Zpos d.
Proof. rewrite shift_pos_correct. change (Z.pow_pos 2 d) with (2 ^ Zpos d). lia. Qed.

(** The conversion: [m * 2^e] is [n] up to half a unit in the last place. *)
Lemma convert n : (0 < n < 2 ^ 64)%N ->
  exists m e, u64_as_f64 n = S754_finite false m e /\ 2 ^ 52 <= Zpos m < 2 ^ 53 /\ -52 <= e <= 12 /\
    2 ^ 53 * Z.abs (Zpos m * 2 ^ (e + 52) - Z.of_N n * 2 ^ 52) <= Z.of_N n * 2 ^ 52 /\
    ((n < 2 ^ 53)%N -> Zpos m * 2 ^ (e + 52) = Z.of_N n * 2 ^ 52).
Proof.
  intros Hn. destruct n as [|p]; [lia|]. unfold u64_as_f64, binary_normalize. cbn [Z.of_N]. unfold binary_round.
  pose proof (digits2_bounds p) as B.
  assert (Hp : Zpos p < 2 ^ 64) by lia.
  assert (HN : (N.pos p < 2 ^ 53)%N -> Zpos p < 2 ^ 53) by lia.
  assert (Hd : 1 <= Z.pos (digits2_pos p)) by lia.
  revert B Hd. generalize (Z.pos (digits2_pos p)). intros d B Hd.
  assert (d <= 64).
  { destruct (Z.le_gt_cases d 64); [assumption|]. assert (2 ^ 64 <= 2 ^ (d - 1)) by (apply Z.pow_le_mono_r; lia). lia. }
  unfold shl_align, fexp, emin. rewrite Z.add_0_r. replace (Z.max (d - 53) _ - 0) with (d - 53) by lia.
  replace (Z.max (d - 53) (3 - 1024 - 53)) with (d - 53) by lia.
  destruct (Z.le_gt_cases d 53) as [L|L].
  - assert (exists mz ez, (match d - 53 with Z.neg q => (shift_pos q p, d - 53) | _ => (p, 0) end) = (mz, ez) /\
      ez = d - 53 /\ Zpos mz = Zpos p * 2 ^ (53 - d)) as (mz & ez & -> & -> & Hz).
    { destruct (d - 53) as [|q|q] eqn:Q; [|lia|].
      - exists p, 0. replace (53 - d) with 0 by lia. rewrite Z.mul_1_r. auto.
      - exists (shift_pos q p), (Z.neg q). rewrite shift_pos_mul. replace (53 - d) with (Z.pos q) by lia. auto. }
    assert (2 ^ 52 <= Zpos mz < 2 ^ 53) as Bz.
    { rewrite Hz. assert (0 < 2 ^ (53 - d)) by (apply Z.pow_pos_nonneg; lia).
      replace (2 ^ 52) with (2 ^ (d - 1) * 2 ^ (53 - d)) by (rewrite <- Z.pow_add_r by lia; f_equal; lia).
      replace (2 ^ 53) with (2 ^ d * 2 ^ (53 - d)) by (rewrite <- Z.pow_add_r by lia; f_equal; lia).
      split; [apply Z.mul_le_mono_nonneg_r|apply Z.mul_lt_mono_pos_r]; lia. }
    destruct (round_aux_spec (Zpos mz) (d - 53) loc_Exact (Zpos mz) 1 0) as (m' & j & -> & J & M & R & _);
      [lia|lia|rewrite !Z.add_0_r; assumption|lia|lia|cbn; lia|].
    rewrite Z.mul_1_r, Z.mul_1_r in R. change (2 ^ 0) with 1 in R.
    assert (E : Zpos m' * 2 ^ j = Zpos mz) by lia.
    assert (V : Zpos m' * 2 ^ (d - 53 + 0 + j + 52) = Z.pos p * 2 ^ 52).
    { replace (d - 53 + 0 + j + 52) with (j + (d - 1)) by lia.
      rewrite Z.pow_add_r by lia. rewrite Z.mul_assoc, E, Hz, <- Z.mul_assoc, <- Z.pow_add_r by lia. do 2 f_equal. lia. }
    exists m', (d - 53 + 0 + j). split; [reflexivity|]. split; [assumption|]. split; [lia|]. rewrite V.
    split; [lia|reflexivity].
  - assert ((match d - 53 with Z.neg q => (shift_pos q p, d - 53) | _ => (p, 0) end) = (p, 0)) as ->.
    { destruct (d - 53) as [|q|q] eqn:Q; [reflexivity|reflexivity|lia]. }
    destruct (round_aux_spec (Zpos p) 0 loc_Exact (Zpos p) 1 (d - 53)) as (m' & j & -> & J & M & R & U);
      [lia|lia|replace (52 + (d - 53)) with (d - 1) by lia; replace (53 + (d - 53)) with d by lia; assumption|lia|lia|cbn; lia|].
    rewrite Z.mul_1_r in R, U. exists m', (0 + (d - 53) + j).
    split; [reflexivity|]. split; [assumption|]. split; [lia|].
    replace (0 + (d - 53) + j + 52) with (j + (d - 53) + 52) by lia.
    rewrite !(Z.pow_add_r 2 _ 52), (Z.pow_add_r 2 j) by lia. rewrite !Z.mul_assoc in *.
    set (Y := Z.pos m' * 2 ^ j * 2 ^ (d - 53)) in *. set (W := 2 ^ (d - 53)) in *.
    split; [lia|]. intros A. specialize (HN A). exfalso.
    assert (2 ^ 53 <= 2 ^ (d - 1)) by (apply Z.pow_le_mono_r; lia). lia.
Qed.

Lemma new_location_holds q r m : 0 < m -> 0 <= r < m -> holds (shr_record_of_loc q (new_location m r)) (q * m + r) m.
Proof.
  intros Hm Hr. unfold new_location, holds. pose proof (Zeq_bool_if r 0) as Hz. revert Hz.
  destruct (Z.even m) eqn:Ev; unfold new_location_even, new_location_odd; destruct (Zeq_bool r 0); intros Hz.
  - cbn [shr_record_of_loc shr_m shr_r shr_s]. unfold inside. lia.
  - destruct (Z.compare_spec (2 * r) m); cbn [shr_record_of_loc shr_m shr_r shr_s]; unfold inside; lia.
  - cbn [shr_record_of_loc shr_m shr_r shr_s]. unfold inside. lia.
  - assert (m <> 2 * r) by (intros ->; now rewrite Z.even_mul in Ev).
    destruct (Z.compare_spec (2 * r + 1) m); cbn [shr_record_of_loc shr_m shr_r shr_s]; unfold inside; lia.
Qed.

(** The division of two numbers of 53 bits. *)
Lemma divide m1 e1 m2 e2 :
  2 ^ 52 <= Zpos m1 < 2 ^ 53 -> 2 ^ 52 <= Zpos m2 < 2 ^ 53 -> -52 <= e1 <= 12 -> -52 <= e2 <= 12 ->
  exists m3 i, SFdiv 53 1024 (S754_finite false m1 e1) (S754_finite false m2 e2) = S754_finite false m3 (e1 - e2 - 53 + i) /\
    2 ^ 52 <= Zpos m3 < 2 ^ 53 /\ 0 <= i <= 2 /\
    2 ^ 53 * Z.abs (Zpos m3 * 2 ^ i * Zpos m2 - Zpos m1 * 2 ^ 53) <= Zpos m1 * 2 ^ 53 /\
    (m1 = m2 -> Zpos m3 * 2 ^ i = 2 ^ 53).
Proof.
  intros B1 B2 E1 E2. unfold SFdiv, SFdiv_core_binary. rewrite (digits_unique (Zpos m1) 53), (digits_unique (Zpos m2) 53) by (cbn; lia).
  unfold fexp, emin. replace (Z.min _ (e1 - e2)) with (e1 - e2 - 53) by lia.
  replace (e1 - e2 - (e1 - e2 - 53)) with 53 by lia. cbv iota. rewrite Z.shiftl_mul_pow2 by lia.
  pose proof (Z_div_mod (Zpos m1 * 2 ^ 53) (Zpos m2) ltac:(lia)) as DM.
  destruct (Z.div_eucl (Zpos m1 * 2 ^ 53) (Zpos m2)) as [q r]. destruct DM as [Q R]. cbn [xorb].
  assert (H := new_location_holds q r (Zpos m2) ltac:(lia) R).
  replace (q * Zpos m2 + r) with (Zpos m1 * 2 ^ 53) in H by lia.
  assert (Bq : 2 ^ 52 <= q < 2 ^ 54) by nia.
  assert (exists k, (k = 0 \/ k = 1) /\ 2 ^ (52 + k) <= q < 2 ^ (53 + k) /\ (q = 2 ^ 53 -> k = 1)) as (k & K & Hk & Kq).
  { destruct (Z.lt_ge_cases q (2 ^ 53)); [exists 0|exists 1]; (split; [lia|]); cbn [Z.add Pos.add Pos.succ] in *; lia. }
  destruct (round_aux_spec q (e1 - e2 - 53) (new_location (Zpos m2) r) (Zpos m1 * 2 ^ 53) (Zpos m2) k)
    as (m3 & j & -> & J & M & Er & U); [lia|lia|assumption|lia|lia|assumption|].
  exists m3, (k + j). split; [f_equal; lia|]. split; [assumption|]. split; [lia|].
  rewrite Z.pow_add_r by lia.
  replace (Zpos m3 * (2 ^ k * 2 ^ j) * Zpos m2) with (Zpos m3 * 2 ^ j * (2 ^ k * Zpos m2)) by ring.
  split; [set (Y := Zpos m3 * 2 ^ j * (2 ^ k * Zpos m2)) in *; set (W := 2 ^ k * Zpos m2) in *; lia|].
  intros ->. assert (Hq : q = 2 ^ 53).
  { apply (Z.div_mod_unique (Zpos m2) q (2 ^ 53) r 0); [left; assumption|left; lia|lia]. }
  rewrite (Kq Hq) in *. change (2 ^ 1) with 2 in *. clear -Er B2.
  set (Y := Zpos m3 * 2 ^ j) in *.
  replace (2 * (Y * (2 * Zpos m2)) - 2 * (Zpos m2 * 2 ^ 53)) with (2 * Zpos m2 * (2 * Y - 2 ^ 53)) in Er by ring.
  rewrite Z.abs_mul, (Z.abs_eq (2 * Zpos m2)) in Er by lia.
  assert (Z.abs (2 * Y - 2 ^ 53) <= 1) by (apply (Z.mul_le_mono_pos_l _ _ (2 * Zpos m2)); lia).
  replace (Zpos m3 * (2 * 2 ^ j)) with (2 * Y) by (unfold Y; ring). lia.
Qed.

(** Both conversions and the division. *)
Lemma quotient w r : (0 < w < 2 ^ 64)%N -> (0 < r < 2 ^ 64)%N ->
  exists m e, f64_quotient w r = S754_finite false m e /\ 2 ^ 52 <= Zpos m < 2 ^ 53 /\ -117 <= e <= 13 /\
    2 ^ 51 * Z.abs (Zpos m * 2 ^ (e + 200) * Z.of_N r - Z.of_N w * 2 ^ 200) <= Z.of_N w * 2 ^ 200 /\
    ((w < 2 ^ 53)%N -> (r < 2 ^ 53)%N ->
       2 ^ 53 * Z.abs (Zpos m * 2 ^ (e + 200) * Z.of_N r - Z.of_N w * 2 ^ 200) <= Z.of_N w * 2 ^ 200) /\
    (w = r -> Zpos m * 2 ^ (e + 200) = 2 ^ 200).
Proof.
  intros Hw Hr. unfold f64_quotient.
  destruct (convert w Hw) as (m1 & e1 & C1 & B1 & X1 & A1 & S1).
  destruct (convert r Hr) as (m2 & e2 & C2 & B2 & X2 & A2 & S2).
  rewrite C1, C2. destruct (divide m1 e1 m2 e2 B1 B2 X1 X2) as (m3 & i & -> & B3 & I & A3 & S3).
  exists m3, (e1 - e2 - 53 + i). split; [reflexivity|]. split; [assumption|]. split; [lia|].
  set (V1 := Zpos m1 * 2 ^ (e1 + 52)) in *. set (V2 := Zpos m2 * 2 ^ (e2 + 52)) in *.
  set (V3 := Zpos m3 * 2 ^ (e1 - e2 - 53 + i + 200)).
  set (P := V3 * V2).
  assert (A : 2 ^ 53 * Z.abs (P - V1 * 2 ^ 200) <= V1 * 2 ^ 200).
  { assert (HP : P = Zpos m3 * 2 ^ i * Zpos m2 * 2 ^ (e1 + 199)).
    { unfold P, V3, V2. replace (e1 - e2 - 53 + i + 200) with (i + (e1 - e2 + 147)) by lia. rewrite Z.pow_add_r by lia.
      replace (e1 + 199) with (e1 - e2 + 147 + (e2 + 52)) by lia. rewrite (Z.pow_add_r 2 (e1 - e2 + 147)) by lia. ring. }
    assert (HV : V1 * 2 ^ 200 = Zpos m1 * 2 ^ 53 * 2 ^ (e1 + 199)).
    { unfold V1. rewrite <- !Z.mul_assoc, <- !Z.pow_add_r by lia. do 2 f_equal. lia. }
    rewrite HP, HV. assert (0 < 2 ^ (e1 + 199)) by (apply Z.pow_pos_nonneg; lia).
    rewrite <- Z.mul_sub_distr_r, Z.abs_mul, (Z.abs_eq (2 ^ (e1 + 199))), Z.mul_assoc by lia.
    apply Z.mul_le_mono_nonneg_r; [lia|assumption]. }
  assert (0 < V3) as P3.
  { unfold V3. assert (0 < 2 ^ (e1 - e2 - 53 + i + 200)) by (apply Z.pow_pos_nonneg; lia). lia. }
  set (Y := V3 * (Z.of_N r * 2 ^ 52)).
  assert (HY : V3 * Z.of_N r * 2 ^ 52 = Y) by (unfold Y; ring).
  assert (B : 2 ^ 53 * Z.abs (P - Y) <= Y).
  { unfold P, Y. rewrite <- Z.mul_sub_distr_l, Z.abs_mul, (Z.abs_eq V3) by lia.
    replace (2 ^ 53 * (V3 * Z.abs (V2 - Z.of_N r * 2 ^ 52))) with (V3 * (2 ^ 53 * Z.abs (V2 - Z.of_N r * 2 ^ 52))) by ring.
    apply Z.mul_le_mono_nonneg_l; lia. }
  set (D := V3 * Z.of_N r) in *. set (W := Z.of_N w) in *.
  split; [lia|]. split.
  - intros Lw Lr. specialize (S1 Lw). specialize (S2 Lr).
    assert (P = Y) by (unfold P, Y; now rewrite S2). lia.
  - intros ->. rewrite C1 in C2. injection C2 as -> ->. specialize (S3 eq_refl). unfold V3.
    replace (e2 - e2 - 53 + i + 200) with (i + 147) by lia. rewrite Z.pow_add_r, Z.mul_assoc, S3 by lia. reflexivity.
Qed.
