(** * GroupProofs: the points of secp256k1 are the multiples of the base point, and there are as many as the order says *)
From Coq Require Import List NArith ZArith Znumtheory Zpow_facts Bool Lia.
From Verif Require Import Base BaseFacts Env Rfc Primes FieldPrime Curve SpecCurve RfcCurve GroupOrder Cyclic.
Import ListNotations.
Local Open Scope N_scope.

Local Notation pt := (Curve.pt Fp).
Local Notation on := (Curve.on Fp Fadd Fmul seven).
Local Notation neg := (Curve.neg Fp Fopp).
Local Notation plus := (Curve.plus Fp Fzero Fone Fadd Fmul Fsub Fopp Fdiv Fp_eq_dec).
Local Notation ntimes := (Curve.ntimes Fp Fzero Fone Fadd Fmul Fsub Fopp Fdiv Fp_eq_dec).
Local Notation affine := (Curve.affine Fp Fzero Fmul Fdiv Fp_eq_dec).

(** ** The group, as Cyclic.v wants it *)

Definition P : pt := affine G.
Lemma P_on : on P.
Proof. exact G_on. Qed.

Lemma plus_on p q : on p -> on q -> on (plus p q).
Proof. destruct nonzero_constants as (N2 & N3 & N7). apply (Curve.plus_on _ _ _ _ _ _ _ _ _ _ Fp_field); assumption. Qed.
Lemma neg_on p : on p -> on (neg p).
Proof. apply (Curve.on_neg _ _ _ _ _ _ _ _ _ _ Fp_field). Qed.
Lemma plus_comm p q : on p -> on q -> plus p q = plus q p.
Proof. destruct nonzero_constants as (N2 & N3 & N7). apply (Curve.plus_comm _ _ _ _ _ _ _ _ _ _ Fp_field); assumption. Qed.
Lemma plus_assoc p q r : on p -> on q -> on r -> plus (plus p q) r = plus p (plus q r).
Proof. destruct nonzero_constants as (N2 & N3 & N7). apply (Curve.plus_assoc _ _ _ _ _ _ _ _ _ _ Fp_field); assumption. Qed.
Lemma plus_neg p : plus p (neg p) = None.
Proof. apply (Curve.plus_neg _ _ _ _ _ _ _ _ _ Fp_field). Qed.

Definition pt_eq_dec (p q : pt) : {p = q} + {p <> q}.
Proof.
  destruct p as [[x y]|], q as [[x' y']|]; try (right; discriminate); [|left; reflexivity].
  destruct (Fp_eq_dec x x') as [->|NE]; [|right; congruence]. destruct (Fp_eq_dec y y') as [->|NE]; [left; reflexivity|right; congruence].
Defined.

Lemma ntimes_same k p : Cyclic.times pt None plus k p = ntimes k p.
Proof. induction k as [|k IH]; cbn [Cyclic.times Curve.ntimes]; [reflexivity|]. rewrite IH. reflexivity. Qed.

(** ** The climb of GroupOrder.v *)

Definition kP (k : N) : pt := ntimes (N.to_nat k) P.
Lemma kP_on k : on (kP k).
Proof. apply ntimes_on. Qed.
Lemma kP_add a b : kP (a + b) = plus (kP a) (kP b).
Proof.
  destruct nonzero_constants as (N2 & N3 & N7). unfold kP. rewrite N2Nat.inj_add.
  apply (Curve.ntimes_add _ _ _ _ _ _ _ _ _ seven Fp_field); try assumption. exact P_on.
Qed.

Definition names (xy : Z * Z) (p : pt) : Prop :=
  coords p = Some (Z.to_N (fst xy), Z.to_N (snd xy)) /\ (0 <= fst xy)%Z /\ (0 <= snd xy < p256)%Z.

Lemma z_congruent a b k : Z.of_N a = (Z.of_N b + k * p256)%Z -> congruent a b.
Proof.
  intros H. unfold congruent. apply N2Z.inj. rewrite !N2Z.inj_mod. change (Z.of_N secp_p) with p256. rewrite H. apply Z.mod_add. discriminate.
Qed.

Lemma in_field_spec x : in_field x = true -> (0 <= x < p256)%Z /\ Z.to_N x < secp_p.
Proof.
  unfold in_field. intros H. apply andb_prop in H. destruct H as (A & B). apply Z.leb_le in A. apply Z.ltb_lt in B. split; [split; assumption|].
  apply N2Z.inj_lt. rewrite Z2N.id by exact A. exact B.
Qed.

Lemma out_of_ok k : out_of k = (k * p256)%Z.
Proof. unfold out_of. rewrite left_out_ok by discriminate. reflexivity. Qed.

Ltac to_z := rewrite ?N2Z.inj_add, ?N2Z.inj_mul, ?Z2N.id by assumption; change (Z.of_N 2) with 2%Z; change (Z.of_N 3) with 3%Z.

Lemma third_ok_spec x1 y1 x2 l : (0 <= x1)%Z -> (0 <= y1)%Z -> (0 <= x2)%Z -> third_ok (x1, y1) x2 l = true ->
  third_point (Z.to_N (l_slope l)) (Z.to_N x1) (Z.to_N y1) (Z.to_N x2) (Z.to_N (l_x l)) (Z.to_N (l_y l)) /\
  (0 <= l_slope l)%Z /\ (0 <= l_x l)%Z /\ (0 <= l_y l < p256)%Z.
Proof.
  intros X1 Y1 X2 H. unfold third_ok in H. cbn [fst snd] in H. rewrite !andb_true_iff in H. destruct H as ((((S & X3) & Y3) & E1) & E2).
  apply in_field_spec in S, X3, Y3. destruct S as ((S & _) & _), X3 as ((X3 & _) & X3'), Y3 as ((Y3 & Y3u) & Y3'). apply Z.eqb_eq in E1, E2. rewrite out_of_ok in E1, E2. rewrite Z.square_spec in E1.
  split; [|split; [exact S|split; [exact X3|split; [exact Y3|exact Y3u]]]]. split; [exact X3'|]. split; [exact Y3'|]. split.
  - apply cong_sym, (z_congruent _ _ (l_k2 l)). to_z. symmetry. exact E1.
  - apply (z_congruent _ _ (l_k3 l)). to_z. clear - E2. lia.
Qed.

Lemma double_ok_spec xy p l : on p -> names xy p -> double_ok xy l = true -> names (l_x l, l_y l) (plus p p).
Proof.
  intros O (E & X & Y) H. destruct xy as [x y]. unfold double_ok in H. cbn [fst snd] in *. rewrite !andb_true_iff in H. destruct H as (((Y0 & Yp) & S) & T).
  apply third_ok_spec in T; [|lia..]. destruct T as (T & S0 & X3 & Y3). apply Z.eqb_eq in S. rewrite out_of_ok, Z.square_spec in S. apply negb_true_iff in Y0, Yp. apply Z.eqb_neq in Y0, Yp.
  split; [|cbn [fst snd]; split; assumption]. symmetry. cbn [fst snd]. apply sum_unique; [exact O|exact O|]. rewrite E.
  destruct Y as (Yl & Yu). apply (sum_tangent (Z.to_N (l_slope l))).
  - intros C. unfold congruent in C. apply (f_equal Z.of_N) in C. rewrite !N2Z.inj_mod, N2Z.inj_add, Z2N.id in C by exact Yl. change (Z.of_N secp_p) with p256 in C.
    rewrite (Z.mod_small (Z.of_N 0)) in C by (split; [discriminate|reflexivity]). apply Z.mod_divide in C; [|discriminate]. destruct C as (c & C). change (Z.of_N 0) with 0%Z in C.
    assert (c = 0 \/ c = 1)%Z as [-> | ->]; nia.
  - apply (z_congruent _ _ (l_k1 l)). to_z. exact S.
  - exact T.
Qed.

Lemma add_ok_spec xy1 xy2 p q l : on p -> on q -> names xy1 p -> names xy2 q -> add_ok xy1 xy2 l = true -> names (l_x l, l_y l) (plus p q).
Proof.
  intros O1 O2 (E1 & X1 & Y1) (E2 & X2 & Y2) H. destruct xy1 as [x1 y1], xy2 as [x2 y2]. unfold add_ok in H. cbn [fst snd] in *. rewrite !andb_true_iff in H. destruct H as ((D & S) & T).
  apply third_ok_spec in T; [|lia..]. destruct T as (T & S0 & X3 & Y3). apply Z.eqb_eq in S. rewrite out_of_ok in S. apply negb_true_iff in D. apply Z.eqb_neq in D.
  split; [|cbn [fst snd]; split; assumption]. symmetry. cbn [fst snd]. apply sum_unique; [exact O1|exact O2|]. rewrite E1, E2.
  destruct Y1 as (Y1 & _), Y2 as (Y2 & _). apply (sum_chord (Z.to_N (l_slope l))).
  - intros C. apply D. rewrite <- (Z2N.id x1), <- (Z2N.id x2) by assumption. rewrite C. reflexivity.
  - apply (z_congruent _ _ (l_k1 l)). to_z. clear - S; lia.
  - exact T.
Qed.

Definition climbing (c : climb) : Prop :=
  match c_sum c with Some q => names q (kP (c_n c)) | None => c_n c = 0 end /\ names (c_power c) (kP (c_e c)).

Lemma climb_step_ok m c c' : climbing c -> climb_step m c = Some c' -> climbing c'.
Proof.
  intros (A & B). unfold climb_step, climbing. destruct c as [s w k e]. cbn [c_sum c_power c_n c_e] in *. destruct m as [|l|l]; destruct s as [q|]; try discriminate.
  - intros H. injection H as <-. cbn [c_sum c_power c_n c_e]. split; [|exact B]. rewrite A. exact B.
  - destruct (add_ok q w l) eqn:K; [|discriminate]. intros H. injection H as <-. cbn [c_sum c_power c_n c_e]. split; [|exact B]. rewrite kP_add. exact (add_ok_spec _ _ _ _ _ (kP_on _) (kP_on _) A B K).
  - destruct (double_ok w l) eqn:K; [|discriminate]. intros H. injection H as <-. cbn [c_sum c_power c_n c_e]. split; [exact A|]. rewrite kP_add. exact (double_ok_spec _ _ _ (kP_on _) B K).
  - destruct (double_ok w l) eqn:K; [|discriminate]. intros H. injection H as <-. cbn [c_sum c_power c_n c_e]. split; [exact A|]. rewrite kP_add. exact (double_ok_spec _ _ _ (kP_on _) B K).
Qed.

Lemma climb_all_ok ms : forall c c', climbing c -> climb_all ms c = Some c' -> climbing c'.
Proof.
  induction ms as [|m ms IH]; intros c c' C H; cbn [climb_all] in H; [injection H as <-; exact C|].
  destruct (climb_step m c) as [c1|] eqn:S; [|discriminate]. exact (IH _ _ (climb_step_ok _ _ _ C S) H).
Qed.

Lemma coords_inj p q : coords p = coords q -> p = q.
Proof.
  destruct p as [[x y]|], q as [[x' y']|]; cbn [coords]; intros H; try discriminate; [|reflexivity].
  injection H as X Y. apply val_inj in X, Y. subst. reflexivity.
Qed.

Lemma kP_1 : kP 1 = P.
Proof. unfold kP. change (N.to_nat 1) with 1%nat. cbn [Curve.ntimes]. destruct P as [[x y]|]; reflexivity. Qed.

Lemma curve_cancel p q r : on p -> on q -> on r -> plus p q = plus p r -> q = r.
Proof. exact (Cyclic.cancel pt None plus neg on neg_on (fun _ => eq_refl) plus_comm plus_assoc (fun p _ => plus_neg p) p q r). Qed.

Lemma kP_rest a b c : c = a + b -> kP a = kP c -> kP b = None.
Proof.
  intros -> E. rewrite kP_add in E. apply (curve_cancel (kP a)); [apply kP_on|apply kP_on|exact I|]. rewrite <- E. destruct (kP a) as [[x y]|]; reflexivity.
Qed.

(** [n] times the base point is the point at infinity. *)
Theorem order_ok : kP order_n = None.
Proof.
  assert (B : climbing (Climb None base 0 1)).
  { split; [reflexivity|]. cbn [c_power c_e]. rewrite kP_1. split; [exact G_coords|]. split; [discriminate|]. split; [discriminate|reflexivity]. }
  pose proof (climb_all_ok _ _ _ B climbed) as ((E1 & _) & (E2 & _)). cbn [c_sum c_power c_n c_e] in E1, E2.
  rewrite <- E2 in E1. apply coords_inj in E1. revert E1. apply kP_rest. reflexivity.
Qed.

(** ** No point is its own negative *)

Lemma no_cube r : Fmul (Fmul r r) r <> Fopp seven.
Proof.
  intros E. apply (f_equal val) in E. rewrite !val_Fmul, val_Fopp in E. assert (P0 : field_p <> 0) by discriminate.
  pose proof (val_lt r) as R. set (x := val r) in *. clearbody x. clear r.
  assert (S : fmul x x < field_p) by (rewrite fmul_mod by exact R; apply mod_p_lt).
  rewrite fmul_mod in E by assumption. rewrite fmul_mod in E by exact R. rewrite N.mul_mod_idemp_l in E by exact P0.
  change (fneg (val seven)) with (field_p - 7) in E.
  assert (NZ : x mod field_p <> 0). { rewrite N.mod_small by exact R. intros Q. rewrite Q in E. discriminate E. }
  pose proof (fermat_p _ NZ) as FM. pose proof (power_p _ _ _ _ cube_power) as (c & C).
  match type of C with (_ ^ Z.pos ?e - _ = _)%Z => set (h := e) in * end.
  assert (T : (field_p - 7) ^ N.pos h mod field_p = 1).
  { rewrite <- FM, <- E. replace (field_p - 1) with (N.pos h + N.pos h + N.pos h) by reflexivity. rewrite !N.pow_add_r, <- !N.pow_mul_l.
    apply N2Z.inj. rewrite !N2Z.inj_mod, !N2Z.inj_pow, N2Z.inj_mod. symmetry. apply Zpower_mod. reflexivity. }
  apply (f_equal Z.of_N) in T. rewrite N2Z.inj_mod, N2Z.inj_pow in T. change (Z.of_N (field_p - 7)) with (p256 - 7)%Z in T. change (Z.of_N (N.pos h)) with (Z.pos h) in T.
  change (Z.of_N field_p) with p256 in T. change (Z.of_N 1) with 1%Z in T.
  replace (p256 - 7)%Z with ((-7) mod p256)%Z in T by reflexivity. rewrite <- Zpower_mod in T by reflexivity.
  revert C T. generalize ((-7) ^ Z.pos h)%Z. intros w C T. assert (C' : w = (cube + c * p256)%Z) by (clear - C; lia). rewrite C' in T. rewrite Z.mod_add in T by discriminate.
  rewrite Z.mod_small in T by (split; [discriminate|reflexivity]). discriminate T.
Qed.

Add Field Fp_ring : Fp_field.

Lemma no_own_negative p : on p -> plus p p = None -> p = None.
Proof.
  destruct nonzero_constants as (N2 & _ & _). destruct p as [[x y]|]; [|reflexivity]. cbn [Curve.on Curve.plus]. intros O H. exfalso.
  destruct (Fp_eq_dec x x) as [_|NE]; [|contradiction]. destruct (Fp_eq_dec (Fadd y y) Fzero) as [Y|_]; [|discriminate H].
  apply (Curve.own_negative _ _ _ _ _ _ _ _ _ Fp_field Fp_eq_dec N2) in Y. apply (no_cube x).
  assert (Q : Fadd (Fmul (Fmul x x) x) seven = Fzero). { rewrite <- O, Y. ring. }
  transitivity (Fsub (Fadd (Fmul (Fmul x x) x) seven) seven); [ring|]. rewrite Q. ring.
Qed.

(** ** There are at most 2 p + 1 points *)

Definition code (p : pt) : nat :=
  match p with None => O | Some (x, y) => S (2 * N.to_nat (val x) + (if N.odd (val y) then 1 else 0)) end%nat.

Lemma code_bound p : (code p < 2 * N.to_nat field_p + 1)%nat.
Proof.
  destruct p as [[x y]|]; cbn [code]; [|generalize (N.to_nat field_p); intros; lia]. pose proof (val_lt x) as X. revert X. generalize field_p (val x). intros f v X.
  assert (N.to_nat v < N.to_nat f)%nat by lia. destruct (N.odd (val y)); lia.
Qed.

Lemma opposite_parity y y' : y <> y' -> Fadd y y' = Fzero -> N.odd (val y) <> N.odd (val y').
Proof.
  intros NE H O. apply (f_equal val) in H. rewrite val_Fadd in H. change (val Fzero) with 0 in H. pose proof (val_lt y) as A. pose proof (val_lt y') as B.
  assert (NV : val y <> val y') by (intros Q; apply NE, val_inj, Q). clear NE. revert H A B NV O. generalize (val y) (val y'). intros a b H A B NV O.
  rewrite fadd_mod in H by assumption. apply N.mod_divide in H; [|discriminate]. destruct H as (c & C).
  assert (c = 1) as ->.
  { destruct c as [|[q|q|]]; [lia| | |reflexivity]; exfalso; clear - C A B; revert C A B; generalize field_p; intros f C A B; nia. }
  rewrite N.mul_1_l in C. apply (f_equal N.odd) in C. rewrite N.odd_add, O in C. destruct (N.odd b); discriminate C.
Qed.

Lemma code_inj p q : on p -> on q -> code p = code q -> p = q.
Proof.
  destruct p as [[x y]|], q as [[x' y']|]; cbn [code]; intros A B H; try discriminate; [|reflexivity].
  assert (X : N.to_nat (val x) = N.to_nat (val x') /\ N.odd (val y) = N.odd (val y')).
  { revert H. generalize (N.to_nat (val x)) (N.to_nat (val x')). intros n m H. destruct (N.odd (val y)), (N.odd (val y')); split; try reflexivity; lia. }
  destruct X as (X & Y). apply N2Nat.inj, val_inj in X. subst x'. destruct (Fp_eq_dec y y') as [->|NE]; [reflexivity|exfalso].
  destruct (Curve.same_x _ _ _ _ _ _ _ _ _ _ Fp_field Fp_eq_dec _ _ _ A B) as [E|E]; [exact (NE E)|]. exact (opposite_parity _ _ NE E Y).
Qed.

(** ** The group is cyclic, of prime order *)

Lemma P_not_none : P <> None.
Proof. intros H. apply (f_equal coords) in H. unfold P in H. rewrite G_coords in H. discriminate H. Qed.

Lemma order_big : 2 * field_p + 1 < 3 * order_n.
Proof. reflexivity. Qed.
Lemma order_half : order_n = 2 * (order_n / 2) + 1.
Proof. reflexivity. Qed.
Lemma order_prime : prime (Z.of_N order_n).
Proof. exact prime_n256. Qed.

(** ** The x coordinate *)

Local Notation px := (Curve.px Fp Fzero).

Lemma same_px p q : on p -> on q -> p <> None -> q <> None -> (px p = px q <-> p = q \/ p = neg q).
Proof.
  intros A B NP NQ. split; [|intros [-> | ->]; [reflexivity|apply Curve.px_neg]].
  destruct p as [[x y]|]; [|contradiction]. destruct q as [[x' y']|]; [|contradiction]. cbn [Curve.px]. intros <-.
  destruct (Curve.same_x _ _ _ _ _ _ _ _ _ _ Fp_field Fp_eq_dec _ _ _ A B) as [->|E]; [left; reflexivity|right]. cbn [Curve.neg]. f_equal. f_equal.
  transitivity (Fsub (Fadd y y') y'); [ring|]. rewrite E. ring.
Qed.

(** ** The multiples of a point whose order divides [n] *)

Section Multiples.
Variable Q : pt.
Hypothesis Q_on : on Q.
Hypothesis Q_not_none : Q <> None.
Definition kQ (k : N) : pt := ntimes (N.to_nat k) Q.
Hypothesis Q_order : kQ order_n = None.

Lemma kQ_on k : on (kQ k).
Proof. destruct nonzero_constants as (N2 & N3 & N7). apply (Curve.ntimes_on _ _ _ _ _ _ _ _ _ _ Fp_field); assumption. Qed.
Lemma kQ_add a b : kQ (a + b) = plus (kQ a) (kQ b).
Proof.
  destruct nonzero_constants as (N2 & N3 & N7). unfold kQ. rewrite N2Nat.inj_add. apply (Curve.ntimes_add _ _ _ _ _ _ _ _ _ seven Fp_field); assumption.
Qed.
Lemma kQ_rest a b c : c = a + b -> kQ a = kQ c -> kQ b = None.
Proof.
  intros -> E. rewrite kQ_add in E. apply (curve_cancel (kQ a)); [apply kQ_on|apply kQ_on|exact I|]. rewrite <- E. destruct (kQ a) as [[x y]|]; reflexivity.
Qed.

(** What Cyclic.v wants to know about the order, as a natural number that nothing computes. *)
Lemma order_nat : exists n h : nat, N.of_nat n = order_n /\ n = (2 * h + 1)%nat /\ prime (Z.of_nat n) /\
  Cyclic.times pt None plus n Q = None /\ (2 * N.to_nat field_p + 1 < 3 * n)%nat.
Proof.
  pose proof Q_order as O. pose proof order_big as B. pose proof order_half as H. pose proof order_prime as R. revert O B H R. unfold kQ.
  generalize (order_n / 2). intros h. generalize order_n field_p. intros n f O B H R. exists (N.to_nat n), (N.to_nat h). split; [apply N2Nat.id|]. split; [lia|].
  split; [rewrite N_nat_Z; exact R|]. split; [rewrite ntimes_same; exact O|lia].
Qed.

Lemma ntimes_kQ k : ntimes k Q = kQ (N.of_nat k).
Proof. unfold kQ. rewrite Nat2N.id. reflexivity. Qed.

Theorem kQ_none k : kQ k = None <-> (order_n | k).
Proof.
  destruct order_nat as (n & h & E & _ & R & O & _). unfold kQ. rewrite <- ntimes_same.
  rewrite (Cyclic.times_zero_iff pt None plus on I plus_on (fun _ => eq_refl) plus_comm plus_assoc Q n Q_on Q_not_none R O). rewrite <- E. split; intros (c & C).
  - exists (N.of_nat c). rewrite <- Nat2N.inj_mul, <- C. symmetry. apply N2Nat.id.
  - exists (N.to_nat c). rewrite C, N2Nat.inj_mul, Nat2N.id. reflexivity.
Qed.

Theorem kQ_all p : on p -> exists k, k < order_n /\ p = kQ k.
Proof.
  destruct order_nat as (n & h & E & H & R & O & B). intros A.
  pose proof (Cyclic.all_reached pt None plus neg on pt_eq_dec I plus_on neg_on (fun _ => eq_refl) plus_comm plus_assoc (fun p _ => plus_neg p) Q n Q_on Q_not_none R O
    h H no_own_negative code _ (fun p _ => code_bound p) code_inj B p A) as T.
  apply (Cyclic.reached_below pt None plus on I plus_on (fun _ => eq_refl) plus_assoc Q n Q_on R O) in T. destruct T as (k & K & ->).
  exists (N.of_nat k). rewrite <- E, <- ntimes_kQ, ntimes_same. split; [lia|reflexivity].
Qed.

Lemma kQ_mod k : kQ (k mod order_n) = kQ k.
Proof.
  rewrite (N.div_mod k order_n) at 2 by discriminate. rewrite kQ_add. rewrite (proj2 (kQ_none (order_n * (k / order_n)))); [reflexivity|].
  exists (k / order_n). apply N.mul_comm.
Qed.

Theorem kQ_same j k : kQ j = kQ k <-> j mod order_n = k mod order_n.
Proof.
  split; [|intros H; rewrite <- (kQ_mod j), H; apply kQ_mod]. assert (P0 : order_n <> 0) by discriminate.
  assert (W : forall a b, a <= b -> b < order_n -> kQ a = kQ b -> a = b).
  { intros a b L B H. assert (K : kQ (b - a) = None) by (apply (kQ_rest a (b - a) b); [lia|exact H]). apply kQ_none in K. destruct K as (c & C).
    destruct (N.eq_dec c 0) as [->|C0]; [lia|]. exfalso. clear - C C0 L B. revert C B. generalize order_n. intros n C B. nia. }
  intros H. rewrite <- (kQ_mod j), <- (kQ_mod k) in H. pose proof (N.mod_lt j _ P0) as J. pose proof (N.mod_lt k _ P0) as K.
  revert H J K. generalize (j mod order_n) (k mod order_n). intros a b H A B. destruct (N.le_ge_cases a b) as [L|L]; [apply W; assumption|symmetry; apply W; [assumption..|symmetry; exact H]].
Qed.

Lemma kQ_neg a b : a + b = order_n -> neg (kQ a) = kQ b.
Proof.
  intros E. apply (curve_cancel (kQ a)); [apply kQ_on|apply neg_on, kQ_on|apply kQ_on|]. rewrite plus_neg, <- kQ_add, E. symmetry. exact Q_order.
Qed.

Lemma kQ_not_none k : 0 < k -> k < order_n -> kQ k <> None.
Proof. intros K L H. apply kQ_none in H. destruct H as (c & C). revert L C. generalize order_n. intros n L C. assert (c <> 0) by (intros ->; lia). nia. Qed.

Theorem kQ_px j k : 0 < j -> j < order_n -> 0 < k -> k < order_n -> (px (kQ j) = px (kQ k) <-> j = k \/ j + k = order_n).
Proof.
  intros J1 J2 K1 K2. rewrite same_px by (apply kQ_on || apply kQ_not_none; assumption). rewrite (kQ_neg k (order_n - k)) by lia. rewrite !kQ_same.
  rewrite !N.mod_small by lia. lia.
Qed.

End Multiples.

(** ** They are the multiples of every point *)

Lemma kQ_kQ p j k : on p -> kQ (kQ p k) j = kQ p (j * k).
Proof.
  destruct nonzero_constants as (N2 & N3 & N7). intros A. unfold kQ. rewrite N2Nat.inj_mul. symmetry. apply (Curve.ntimes_mul _ _ _ _ _ _ _ _ _ seven Fp_field); assumption.
Qed.

Lemma kP_kQ k : kP k = kQ P k.
Proof. reflexivity. Qed.
Lemma order_P : kQ P order_n = None.
Proof. rewrite <- kP_kQ. exact order_ok. Qed.

Theorem all_order p : on p -> kQ p order_n = None.
Proof.
  intros A. destruct (kQ_all P P_on P_not_none order_P p A) as (k & _ & ->). rewrite (kQ_kQ _ _ _ P_on).
  apply (kQ_none P P_on P_not_none order_P). exists k. apply N.mul_comm.
Qed.

Lemma point_of q : on_curve q -> exists p, on p /\ coords p = q.
Proof.
  destruct q as [[x y]|]; [|exists None; split; [exact I|reflexivity]]. intros (X & Y & C). exists (Some (elem x, elem y)). split.
  - cbn [Curve.on]. apply (denotes_cong (y * y) (x * x * x + 7)); [exact C| |].
    + apply denotes_mul; rewrite <- (val_elem y) at 1 by exact Y; apply denotes_val.
    + apply denotes_add; [|apply denotes_elem]. repeat apply denotes_mul; rewrite <- (val_elem x) at 1 by exact X; apply denotes_val.
  - cbn [coords]. rewrite !val_elem by assumption. reflexivity.
Qed.

(** Of which point any 64 bytes give the x coordinate. *)
Lemma decoded e : exists p, on p /\ p <> None /\ val (px p) = decode_x e /\
  forall k, x_of (mult_pos k (lift_x (decode_x e))) = val (px (ntimes (Pos.to_nat k) p)).
Proof.
  destruct nonzero_constants as (N2 & N3 & N7). destruct (decode_lift e) as (y & _ & C). apply point_of in C. revert C. generalize (decode_x e). intros x (p & A & C).
  assert (E : val (px p) = x) by (rewrite <- abscissa_coords, C; reflexivity).
  assert (NP : p <> None) by (intros ->; discriminate C).
  destruct (lift_ok _ A) as (j & L & NJ & J). rewrite E in L. exists (affine j).
  assert (O : on (affine j)) by (destruct J as [-> | ->]; [exact A|apply neg_on, A]). split; [exact O|]. split; [destruct J as [-> | ->]; [exact NP|destruct p as [[? ?]|]; [discriminate|contradiction]]|].
  split; [destruct J as [-> | ->]; [exact E|rewrite Curve.px_neg; exact E]|]. intros k. rewrite L, x_of_mult by assumption.
  rewrite (Curve.times_ntimes _ _ _ _ _ _ _ _ _ seven Fp_field) by assumption. reflexivity.
Qed.

(** ** At the level of SpecCurve.v *)

Lemma multiple_any p n : on p -> multiple (coords p) n (coords (ntimes n p)).
Proof.
  destruct nonzero_constants as (N2 & N3 & N7). intros A. induction n as [|n IH]; [apply multiple_0|]. cbn [Curve.ntimes]. refine (multiple_S _ _ _ _ IH _).
  apply coords_plus; [exact A|]. apply (Curve.ntimes_on _ _ _ _ _ _ _ _ _ _ Fp_field); assumption.
Qed.

Lemma multiple_kQ p k : on p -> multiple (coords p) (N.to_nat k) (coords (kQ p k)).
Proof. apply multiple_any. Qed.
Lemma multiple_base k : multiple base_point (N.to_nat k) (coords (kQ P k)).
Proof. apply multiple_exists. Qed.
Lemma multiple_is k q : multiple base_point (N.to_nat k) q -> q = coords (kQ P k).
Proof. apply multiple_unique. Qed.
