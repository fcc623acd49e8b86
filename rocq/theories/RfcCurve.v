(** * RfcCurve: the functions of Rfc.v are a field and a group, and its ECDH agrees *)
From Coq Require Import List NArith ZArith Znumtheory Zpow_facts Bool Lia Eqdep_dec Field.
From Coq.Strings Require Import Byte.
From Verif Require Import Base BaseFacts Env Rfc Primes FieldPrime Curve SpecCurve.
Import ListNotations.
Local Open Scope N_scope.

(** ** The field *)

Lemma field_p_value : field_p = Z.to_N p256.
Proof. reflexivity. Qed.

Lemma field_p_pos : 0 < field_p.
Proof. reflexivity. Qed.

Lemma fold_p_mod x : fold_p x mod field_p = x mod field_p.
Proof.
  unfold fold_p. change (2 ^ 256 - 1) with (N.ones 256). rewrite N.land_ones, N.shiftr_div_pow2.
  pose proof (N.div_mod x (2 ^ 256) ltac:(discriminate)) as D. set (d := x / 2 ^ 256) in *. set (m := x mod 2 ^ 256) in *.
  rewrite D. replace (2 ^ 256 * d + m) with (m + d * 4294968273 + d * field_p).
  - rewrite N.mod_add by discriminate. reflexivity.
  - change (2 ^ 256) with (field_p + 4294968273). lia.
Qed.

Lemma fold_p_bound x b : x < 2 ^ 256 * b -> fold_p x < 2 ^ 256 + b * 4294968273.
Proof.
  intros H. unfold fold_p. change (2 ^ 256 - 1) with (N.ones 256). rewrite N.land_ones, N.shiftr_div_pow2.
  pose proof (N.mod_lt x (2 ^ 256) ltac:(discriminate)) as M. assert (D : x / 2 ^ 256 < b) by (apply N.div_lt_upper_bound; [discriminate|exact H]).
  set (d := x / 2 ^ 256) in *. set (m := x mod 2 ^ 256) in *. lia.
Qed.

Lemma reduce_mod x : x < 2 ^ 512 -> reduce x = x mod field_p.
Proof.
  intros H. unfold reduce. set (y1 := fold_p x). set (y2 := fold_p y1). set (y := fold_p y2).
  assert (M : y mod field_p = x mod field_p) by (unfold y, y2, y1; rewrite !fold_p_mod; reflexivity).
  assert (B1 : y1 < 2 ^ 256 * (2 ^ 34)). { pose proof (fold_p_bound x (2 ^ 256) H). fold y1 in H0. lia. }
  assert (B2 : y2 < 2 ^ 256 * 2). { pose proof (fold_p_bound y1 (2 ^ 34) B1). fold y2 in H0. lia. }
  assert (B3 : y < 2 * field_p).
  { change (2 * field_p) with (2 ^ 257 - 8589936546). unfold y, fold_p. change (2 ^ 256 - 1) with (N.ones 256). rewrite N.land_ones, N.shiftr_div_pow2.
    pose proof (N.mod_lt y2 (2 ^ 256) ltac:(discriminate)) as M2. assert (D : y2 / 2 ^ 256 < 2) by (apply N.div_lt_upper_bound; [discriminate|exact B2]).
    set (d := y2 / 2 ^ 256) in *. set (m := y2 mod 2 ^ 256) in *. lia. }
  rewrite <- M. destruct (N.leb_spec field_p y) as [L|L].
  - apply (N.mod_unique _ _ 1); lia.
  - symmetry. apply N.mod_small, L.
Qed.

Lemma fadd_mod a b : a < field_p -> b < field_p -> fadd a b = (a + b) mod field_p.
Proof.
  intros A B. unfold fadd. cbn zeta. destruct (N.leb_spec field_p (a + b)) as [L|L].
  - apply (N.mod_unique _ _ 1); lia.
  - symmetry. apply N.mod_small, L.
Qed.

Lemma fmul_mod a b : a < field_p -> b < field_p -> fmul a b = (a * b) mod field_p.
Proof.
  intros A B. apply reduce_mod. apply N.lt_trans with (field_p * field_p); [|reflexivity]. apply N.mul_lt_mono; assumption.
Qed.

Lemma fneg_mod a : a < field_p -> fneg a = (field_p - a) mod field_p.
Proof.
  intros A. unfold fneg. destruct (N.eqb_spec a 0) as [->|N0]; [reflexivity|]. symmetry. apply N.mod_small. lia.
Qed.

Lemma mod_p_lt a : a mod field_p < field_p.
Proof. apply N.mod_lt. discriminate. Qed.

Definition Fp : Type := { x : N | (x <? field_p) = true }.
Definition val (x : Fp) : N := proj1_sig x.

Lemma val_lt x : val x < field_p.
Proof. destruct x as [x H]. apply N.ltb_lt, H. Qed.

Lemma val_inj x y : val x = val y -> x = y.
Proof.
  destruct x as [x H], y as [y G]. cbn. intros <-. f_equal. apply eq_proofs_unicity. intros a b. destruct (bool_dec a b); tauto.
Qed.

Definition elem (x : N) : Fp := exist _ (x mod field_p) (proj2 (N.ltb_lt _ _) (mod_p_lt x)).
Lemma val_elem x : x < field_p -> val (elem x) = x.
Proof. intros H. apply N.mod_small, H. Qed.

Definition Fzero := elem 0.
Definition Fone := elem 1.
Definition Fadd x y := elem (fadd (val x) (val y)).
Definition Fmul x y := elem (fmul (val x) (val y)).
Definition Fopp x := elem (fneg (val x)).
Definition Fsub x y := Fadd x (Fopp y).
Definition Finv x := elem (finv (val x)).
Definition Fdiv x y := Fmul x (Finv y).

Lemma val_Fadd x y : val (Fadd x y) = fadd (val x) (val y).
Proof. apply val_elem. rewrite fadd_mod by apply val_lt. apply mod_p_lt. Qed.
Lemma val_Fmul x y : val (Fmul x y) = fmul (val x) (val y).
Proof. apply val_elem. rewrite fmul_mod by apply val_lt. apply mod_p_lt. Qed.
Lemma val_Fopp x : val (Fopp x) = fneg (val x).
Proof. apply val_elem. rewrite fneg_mod by apply val_lt. apply mod_p_lt. Qed.
Lemma val_Fsub x y : val (Fsub x y) = fsub (val x) (val y).
Proof. unfold Fsub, fsub. rewrite val_Fadd, val_Fopp. reflexivity. Qed.

Lemma fpow_pos_lt a e : a < field_p -> fpow_pos a e < field_p.
Proof.
  intros A. induction e as [e IH|e IH|]; cbn [fpow_pos]; [| |exact A].
  - assert (S : fsq (fpow_pos a e) < field_p) by (unfold fsq; rewrite fmul_mod by exact IH; apply mod_p_lt). rewrite fmul_mod by assumption. apply mod_p_lt.
  - unfold fsq. rewrite fmul_mod by exact IH. apply mod_p_lt.
Qed.

Lemma fpow_pos_mod a e : a < field_p -> fpow_pos a e = a ^ N.pos e mod field_p.
Proof.
  intros A. assert (P0 : field_p <> 0) by discriminate. induction e as [e IH|e IH|]; cbn [fpow_pos].
  - assert (L : fpow_pos a e < field_p) by (apply fpow_pos_lt, A). unfold fsq. rewrite fmul_mod; [|exact A|rewrite fmul_mod by exact L; apply mod_p_lt].
    rewrite fmul_mod by exact L. rewrite IH. rewrite <- N.mul_mod by exact P0. rewrite N.mul_mod_idemp_r by exact P0.
    f_equal. replace (N.pos e~1) with (1 + (N.pos e + N.pos e)) by lia. rewrite !N.pow_add_r, N.pow_1_r. reflexivity.
  - assert (L : fpow_pos a e < field_p) by (apply fpow_pos_lt, A). unfold fsq. rewrite fmul_mod by exact L. rewrite IH. rewrite <- N.mul_mod by exact P0.
    f_equal. replace (N.pos e~0) with (N.pos e + N.pos e) by lia. rewrite N.pow_add_r. reflexivity.
  - rewrite N.pow_1_r. symmetry. apply N.mod_small, A.
Qed.

Lemma fpow_mod a e : a < field_p -> fpow a e = a ^ e mod field_p.
Proof. intros A. destruct e as [|e]; [reflexivity|]. apply fpow_pos_mod, A. Qed.

Lemma fpow_lt a e : a < field_p -> fpow a e < field_p.
Proof. intros A. rewrite fpow_mod by exact A. apply mod_p_lt. Qed.

Lemma val_Finv x : val (Finv x) = finv (val x).
Proof. apply val_elem. apply fpow_lt, val_lt. Qed.

Lemma val_Fdiv x y : val (Fdiv x y) = fdiv (val x) (val y).
Proof. unfold Fdiv, fdiv. rewrite val_Fmul, val_Finv. reflexivity. Qed.

Lemma fermat_p a : a mod field_p <> 0 -> a ^ (field_p - 1) mod field_p = 1.
Proof.
  intros H. apply N2Z.inj. rewrite N2Z.inj_mod, N2Z.inj_pow. change (Z.of_N (field_p - 1)) with (p256 - 1)%Z. change (Z.of_N field_p) with p256. change (Z.of_N 1) with 1%Z.
  apply fermat; [exact prime_p256|]. intros D. apply H. apply N2Z.inj. rewrite N2Z.inj_mod. change (Z.of_N field_p) with p256. apply Z.mod_divide; [discriminate|exact D].
Qed.

Lemma Fp_field : field_theory Fzero Fone Fadd Fmul Fsub Fopp Fdiv Finv (@eq Fp).
Proof.
  assert (P0 : field_p <> 0) by discriminate.
  assert (MA : forall x y, val (Fadd x y) = (val x + val y) mod field_p) by (intros; rewrite val_Fadd; apply fadd_mod; apply val_lt).
  assert (MM : forall x y, val (Fmul x y) = (val x * val y) mod field_p) by (intros; rewrite val_Fmul; apply fmul_mod; apply val_lt).
  assert (MO : forall x, val (Fopp x) = (field_p - val x) mod field_p) by (intros; rewrite val_Fopp; apply fneg_mod; apply val_lt).
  assert (SM : forall x, val x mod field_p = val x) by (intros; apply N.mod_small, val_lt).
  constructor; [constructor| | |].
  - intros x. apply val_inj. rewrite MA. change (val Fzero) with 0. rewrite N.add_0_l. apply SM.
  - intros x y. apply val_inj. rewrite !MA. f_equal. lia.
  - intros x y z. apply val_inj. rewrite !MA. rewrite N.add_mod_idemp_l, N.add_mod_idemp_r by exact P0. f_equal. lia.
  - intros x. apply val_inj. rewrite MM. change (val Fone) with 1. rewrite N.mul_1_l. apply SM.
  - intros x y. apply val_inj. rewrite !MM. f_equal. lia.
  - intros x y z. apply val_inj. rewrite !MM. rewrite N.mul_mod_idemp_l, N.mul_mod_idemp_r by exact P0. f_equal. lia.
  - intros x y z. apply val_inj. rewrite MA, !MM, MA. rewrite N.mul_mod_idemp_l, <- N.add_mod by exact P0. f_equal. lia.
  - intros x y. reflexivity.
  - intros x. apply val_inj. rewrite MA, MO. rewrite N.add_mod_idemp_r by exact P0. pose proof (val_lt x). replace (val x + (field_p - val x)) with field_p by lia.
    rewrite N.mod_same by exact P0. reflexivity.
  - intros H. apply (f_equal val) in H. discriminate H.
  - intros x y. reflexivity.
  - intros x X. apply val_inj. rewrite MM, val_Finv. unfold finv. rewrite fpow_mod by apply val_lt. rewrite N.mul_mod_idemp_l by exact P0.
    change (val Fone) with 1. assert (NZ : val x mod field_p <> 0). { rewrite SM. intros E. apply X, val_inj. exact E. }
    transitivity (val x ^ (field_p - 1) mod field_p); [|apply fermat_p, NZ]. f_equal. replace (field_p - 1) with (N.succ (field_p - 2)) by reflexivity. rewrite N.pow_succ_r'. lia.
Qed.

Definition Fp_eq_dec (x y : Fp) : {x = y} + {x <> y}.
Proof. destruct (N.eq_dec (val x) (val y)) as [E|E]; [left; apply val_inj, E|right; intros ->; contradiction]. Defined.

(** ** The curve *)

Definition seven : Fp := elem 7.
Local Notation pt := (Curve.pt Fp).
Local Notation on := (Curve.on Fp Fadd Fmul seven).
Local Notation neg := (Curve.neg Fp Fopp).
Local Notation times := (Curve.times Fp Fzero Fone Fadd Fmul Fsub Fopp Fdiv Fp_eq_dec).
Local Notation affine := (Curve.affine Fp Fzero Fmul Fdiv Fp_eq_dec).
Local Notation jdouble := (Curve.jdouble Fp Fzero Fone Fadd Fmul Fsub Fp_eq_dec).
Local Notation jadd := (Curve.jadd Fp Fzero Fone Fadd Fmul Fsub Fp_eq_dec).
Local Notation jtimes := (Curve.jtimes Fp Fzero Fone Fadd Fmul Fsub Fp_eq_dec).
Local Notation jx := (Curve.jx Fp Fmul Finv).
Local Notation px := (Curve.px Fp Fzero).
Local Notation normal := (Curve.normal Fp Fzero Fone).

Definition vals (j : Fp * Fp * Fp) : point := let '(x, y, z) := j in (val x, val y, val z).

Lemma val_eqb x n : n < field_p -> (val x =? n) = if Fp_eq_dec x (elem n) then true else false.
Proof.
  intros H. destruct (Fp_eq_dec x (elem n)) as [->|N]; [rewrite val_elem by exact H; apply N.eqb_refl|].
  apply N.eqb_neq. intros E. apply N, val_inj. rewrite val_elem by exact H. exact E.
Qed.

Lemma double_vals j : double (vals j) = vals (jdouble j).
Proof.
  destruct j as [[x y] z]. unfold double, vals, Curve.jdouble. rewrite !val_eqb by reflexivity. fold Fzero.
  destruct (Fp_eq_dec z Fzero); cbn [orb]; [reflexivity|]. destruct (Fp_eq_dec y Fzero); [reflexivity|]. cbn zeta. unfold fsq.
  change 4 with (val (Fmul (Fadd Fone Fone) (Fadd Fone Fone))). change 3 with (val (Fadd (Fadd Fone Fone) Fone)).
  change 8 with (val (Fmul (Fmul (Fadd Fone Fone) (Fadd Fone Fone)) (Fadd Fone Fone))). change 2 with (val (Fadd Fone Fone)).
  rewrite <- ?val_Fmul, <- ?val_Fadd, <- ?val_Fsub. rewrite <- ?val_Fmul, <- ?val_Fadd, <- ?val_Fsub. rewrite <- ?val_Fmul, <- ?val_Fadd, <- ?val_Fsub. reflexivity.
Qed.

Lemma add_vals j1 j2 : add (vals j1) (vals j2) = vals (jadd j1 j2).
Proof.
  destruct j1 as [[x1 y1] z1], j2 as [[x2 y2] z2].
  assert (D : double (val x1, val y1, val z1) = vals (jdouble (x1, y1, z1))) by (exact (double_vals (x1, y1, z1))).
  assert (EQ : forall a b, (val a =? val b) = if Fp_eq_dec a b then true else false).
  { intros a b. destruct (Fp_eq_dec a b) as [->|N]; [apply N.eqb_refl|]. apply N.eqb_neq. intros E. apply N, val_inj, E. }
  unfold add, vals, Curve.jadd. rewrite !val_eqb by reflexivity. fold Fzero.
  destruct (Fp_eq_dec z1 Fzero); [reflexivity|]. destruct (Fp_eq_dec z2 Fzero); [reflexivity|]. cbn zeta. unfold fsq.
  rewrite <- !val_Fmul, !EQ. destruct (Fp_eq_dec _ _) as [_|_]; [destruct (Fp_eq_dec _ _) as [_|_]; [exact D|reflexivity]|].
  rewrite <- ?val_Fmul, <- ?val_Fadd, <- ?val_Fsub. rewrite <- ?val_Fmul, <- ?val_Fadd, <- ?val_Fsub. rewrite <- ?val_Fmul, <- ?val_Fadd, <- ?val_Fsub.
  rewrite <- ?val_Fmul, <- ?val_Fadd, <- ?val_Fsub. reflexivity.
Qed.

Lemma mult_vals k j : mult_pos k (vals j) = vals (jtimes k j).
Proof. induction k as [k IH|k IH|]; cbn [mult_pos Curve.jtimes]; rewrite ?IH, ?double_vals, ?add_vals; reflexivity. Qed.

Lemma x_of_vals j : x_of (vals j) = val (jx j).
Proof. destruct j as [[x y] z]. unfold x_of, vals, Curve.jx, fsq. rewrite val_Fmul, val_Finv, val_Fmul. reflexivity. Qed.

Lemma nonzero_constants : Fadd Fone Fone <> Fzero /\ Fadd (Fadd Fone Fone) Fone <> Fzero /\ seven <> Fzero.
Proof. repeat split; intros H; apply (f_equal val) in H; discriminate H. Qed.

(** The x coordinate of a multiple. *)
Lemma x_of_mult k j : on (affine j) -> normal j -> x_of (mult_pos k (vals j)) = val (px (times k (affine j))).
Proof.
  intros A N. destruct nonzero_constants as (N2 & N3 & N7). rewrite mult_vals, x_of_vals.
  rewrite (Curve.jx_px _ _ _ _ _ _ _ _ _ Fp_field Fp_eq_dec) by (apply (Curve.jtimes_normal _ _ _ _ _ _ _ _ _ Fp_field); assumption).
  rewrite (Curve.jtimes_ok _ _ _ _ _ _ _ _ _ seven Fp_field) by assumption. reflexivity.
Qed.

Lemma affine_one x y : affine (x, y, Fone) = Some (x, y).
Proof.
  pose proof Fp_field as FT. rewrite (Curve.affine_some Fp Fzero Fmul Fdiv Fp_eq_dec); [|intros H; apply (f_equal val) in H; discriminate H].
  assert (Q : forall a, Fdiv a Fone = a).
  { intros a. destruct FT as [[R0 R1 R2 R3 R4 R5 R6 R7 R8] _ FD FI]. transitivity (Fmul a (Fmul (Finv Fone) Fone)); [rewrite FD, (R4 (Finv Fone)), R3; reflexivity|].
    rewrite FI; [rewrite R4; apply R3|]. intros H. apply (f_equal val) in H. discriminate H. }
  assert (O : Fmul Fone Fone = Fone) by (apply val_inj; reflexivity). rewrite !O, !Q. reflexivity.
Qed.

Lemma on_vals x y : on (Some (x, y)) <-> fsq (val y) = curve (val x).
Proof.
  cbn [Curve.on]. unfold fsq, curve. unfold fsq. change 7 with (val seven). rewrite <- !val_Fmul, <- val_Fadd. split; [intros ->; reflexivity|apply val_inj].
Qed.

Definition G : Fp * Fp * Fp := (elem (fst (fst generator)), elem (snd (fst generator)), Fone).

Lemma G_vals : vals G = generator.
Proof. vm_compute. reflexivity. Qed.

Lemma G_on : on (affine G).
Proof. unfold G. rewrite affine_one. apply on_vals. vm_compute. reflexivity. Qed.

Lemma G_normal : normal G.
Proof. intros H. apply (f_equal val) in H. discriminate H. Qed.

(** ** Square roots *)

Lemma fsq_mul a : fsq a = fmul a a.
Proof. reflexivity. Qed.

Lemma fsqrt_square y : y < field_p -> exists r, fsqrt (fsq y) = Some r /\ r < field_p /\ fsq r = fsq y.
Proof.
  intros Y. assert (P0 : field_p <> 0) by discriminate. unfold fsqrt. set (r := fpow (fsq y) ((field_p + 1) / 4)). cbn zeta.
  assert (L : fsq y < field_p) by (unfold fsq; rewrite fmul_mod by exact Y; apply mod_p_lt).
  assert (R : r < field_p) by (apply fpow_lt, L). assert (E : fsq r = fsq y); [|rewrite E, N.eqb_refl; exists r; repeat split; [exact R|exact E]].
  unfold fsq at 1. rewrite fmul_mod by exact R. unfold r. rewrite fpow_mod by exact L. rewrite <- N.mul_mod by exact P0. rewrite <- N.pow_add_r.
  assert (PM : forall a e, (a mod field_p) ^ e mod field_p = a ^ e mod field_p).
  { intros a e. induction e as [|e IH] using N.peano_ind; [reflexivity|]. rewrite !N.pow_succ_r'. rewrite N.mul_mod_idemp_l by exact P0.
    rewrite N.mul_mod, IH, <- N.mul_mod by exact P0. reflexivity. }
  unfold fsq. rewrite fmul_mod by exact Y. rewrite PM. rewrite N.pow_mul_l, <- N.pow_add_r.
  replace ((field_p + 1) / 4 + (field_p + 1) / 4 + ((field_p + 1) / 4 + (field_p + 1) / 4)) with (2 + (field_p - 1)) by reflexivity.
  rewrite N.pow_add_r. destruct (N.eq_dec y 0) as [->|NZ]; [reflexivity|].
  assert (NZ' : y mod field_p <> 0) by (rewrite N.mod_small by exact Y; exact NZ).
  rewrite <- N.mul_mod_idemp_r, (fermat_p _ NZ') by exact P0. rewrite N.mul_1_r, N.pow_2_r. reflexivity.
Qed.

Lemma seven_no_square r : r < field_p -> fsq r <> 7.
Proof.
  intros R E. assert (P0 : field_p <> 0) by discriminate. rewrite fsq_mul in E. rewrite fmul_mod in E by exact R.
  assert (NZ : r mod field_p <> 0). { rewrite N.mod_small by exact R. intros Z. rewrite Z in E. discriminate E. }
  pose proof (fermat_p _ NZ) as FM. pose proof (power_p _ _ _ _ seven_power) as (c & C).
  set (h := 57896044618658097711785492504343953926634992332820282019728792003954417335831%positive) in *.
  assert (S : 7 ^ N.pos h mod field_p = 1).
  { rewrite <- FM, <- E. replace (field_p - 1) with (N.pos h + N.pos h) by reflexivity. rewrite N.pow_add_r, <- N.pow_mul_l.
    apply N2Z.inj. rewrite !N2Z.inj_mod, !N2Z.inj_pow, N2Z.inj_mod. symmetry. apply Zpower_mod. reflexivity. }
  apply (f_equal Z.of_N) in S. rewrite N2Z.inj_mod, N2Z.inj_pow in S. change (Z.of_N 7) with 7%Z in S. change (Z.of_N (N.pos h)) with (Z.pos h) in S.
  change (Z.of_N field_p) with p256 in S. change (Z.of_N 1) with 1%Z in S.
  revert C S. generalize (7 ^ Z.pos h)%Z. intros w C S. assert (C' : w = ((p256 - 1) + c * p256)%Z) by (clear - C; lia). rewrite C' in S. rewrite Z.mod_add in S by discriminate.
  rewrite Z.mod_small in S by (split; [discriminate|reflexivity]). discriminate S.
Qed.

Lemma no_root_of_seven : fsqrt 7 = None.
Proof.
  unfold fsqrt. assert (L : 7 < field_p) by reflexivity. pose proof (seven_no_square (fpow 7 ((field_p + 1) / 4)) (fpow_lt _ _ L)) as H. revert H. generalize (fpow 7 ((field_p + 1) / 4)). intros r H.
  destruct (N.eqb_spec (fsq r) 7) as [E|]; [contradiction|reflexivity].
Qed.

(** ** Agreement *)

Lemma lift_ok (p : pt) : on p -> exists j, lift_x (val (px p)) = vals j /\ normal j /\ (affine j = p \/ affine j = neg p).
Proof.
  intros A. destruct p as [[x y]|].
  - cbn [Curve.px]. apply on_vals in A. unfold lift_x. rewrite <- A. destruct (fsqrt_square (val y) (val_lt y)) as (r & -> & R & E).
    exists (x, elem r, Fone). split; [cbn [vals]; rewrite val_elem by exact R; reflexivity|]. split; [intros H; apply (f_equal val) in H; discriminate H|].
    rewrite affine_one. destruct (Curve.same_x Fp Fzero Fone Fadd Fmul Fsub Fopp Fdiv Finv seven Fp_field Fp_eq_dec x (elem r) y) as [Q|Q].
    + apply on_vals. rewrite val_elem by exact R. rewrite E. exact A.
    + apply on_vals. exact A.
    + left. rewrite Q. reflexivity.
    + right. cbn. f_equal. f_equal. apply (Curve.eq_of_sub Fp Fzero Fone Fadd Fmul Fsub Fopp Fdiv Finv Fp_field). rewrite <- Q.
      apply (f_equal (fun z => Fadd (elem r) z)). apply val_inj. rewrite !val_Fopp. generalize (val_lt y). generalize (val y). intros n L.
      unfold fneg. destruct (N.eqb_spec n 0) as [->|N0]; [reflexivity|]. destruct (N.eqb_spec (field_p - n) 0); lia.
  - cbn [Curve.px]. change (val Fzero) with 0. unfold lift_x. change (curve 0) with 7. rewrite no_root_of_seven.
    exists (Curve.jinf Fp Fzero Fone). split; [reflexivity|]. split; [intros _; reflexivity|]. left. apply Curve.affine_inf.
Qed.

(** ** Every pair of field elements decodes to the x coordinate of a point *)

Lemma is_square_iff a : is_square (val a) = true <-> exists r, Fmul r r = a.
Proof.
  unfold is_square. split.
  - unfold fsqrt. pose proof (fpow_lt (val a) ((field_p + 1) / 4) (val_lt a)) as L. revert L. generalize (fpow (val a) ((field_p + 1) / 4)). intros r L.
    destruct (N.eqb_spec (fsq r) (val a)) as [E|]; [|discriminate]. intros _. exists (elem r). apply val_inj. rewrite val_Fmul, val_elem by exact L. rewrite <- E. symmetry. apply fsq_mul.
  - intros (r & <-). rewrite val_Fmul. destruct (fsqrt_square (val r) (val_lt r)) as (q & Q & _ & _). rewrite <- fsq_mul, Q. reflexivity.
Qed.

Lemma root_or_negative a : exists r, Fmul r r = a \/ Fmul r r = Fopp a.
Proof.
  assert (P0 : field_p <> 0) by discriminate. set (e := (field_p + 1) / 4). exists (elem (fpow (val a) e)). set (r := elem (fpow (val a) e)).
  assert (R : val r = val a ^ e mod field_p) by (unfold r; rewrite val_elem by (apply fpow_lt, val_lt); apply fpow_mod, val_lt).
  assert (MM : forall x y, val (Fmul x y) = (val x * val y) mod field_p) by (intros; rewrite val_Fmul; apply fmul_mod; apply val_lt).
  assert (Q : Fmul (Fmul r r) (Fmul r r) = Fmul a a).
  { assert (R2 : val (Fmul r r) = val a ^ (e + e) mod field_p) by (rewrite MM, R, <- N.mul_mod, N.pow_add_r by exact P0; reflexivity).
    apply val_inj. rewrite (MM (Fmul r r)), R2, (MM a). rewrite <- N.mul_mod by exact P0. rewrite <- N.pow_add_r. replace (e + e + (e + e)) with (2 + (field_p - 1)) by reflexivity.
    rewrite N.pow_add_r. destruct (N.eq_dec (val a) 0) as [->|NZ]; [reflexivity|].
    assert (NZ' : val a mod field_p <> 0) by (rewrite N.mod_small by apply val_lt; exact NZ).
    rewrite <- N.mul_mod_idemp_r, (fermat_p _ NZ') by exact P0. rewrite N.mul_1_r, N.pow_2_r. reflexivity. }
  clearbody r. destruct nonzero_constants as (N2 & N3 & N7). exact (Curve.roots Fp Fzero Fone Fadd Fmul Fsub Fopp Fdiv Finv Fp_field Fp_eq_dec _ _ Q).
Qed.

Lemma curve_val x : curve (val x) = val (Fadd (Fmul (Fmul x x) x) seven).
Proof. unfold curve, fsq. change 7 with (val seven). rewrite <- !val_Fmul, <- val_Fadd. reflexivity. Qed.

Lemma not_square a : is_square (val a) = false -> a <> Fzero /\ exists r, Fmul r r = Fopp a.
Proof.
  intros H. split.
  - intros ->. enough (is_square (val Fzero) = true) by congruence. apply is_square_iff. exists Fzero. apply val_inj. reflexivity.
  - destruct (root_or_negative a) as (r & [Q|Q]); [|exists r; exact Q]. enough (is_square (val a) = true) by congruence. apply is_square_iff. exists r. exact Q.
Qed.

Definition root3 : Fp := elem minus_3_sqrt.

Lemma root3_ok : Fmul root3 root3 = Fopp (Fadd (Fadd Fone Fone) Fone) /\ root3 <> Fzero /\ val root3 = minus_3_sqrt.
Proof.
  assert (V : val root3 = minus_3_sqrt) by (apply val_elem; apply fpow_lt; reflexivity).
  assert (Q : Fmul root3 root3 = Fopp (Fadd (Fadd Fone Fone) Fone)).
  { apply val_inj. rewrite val_Fmul, V. set (w := 4602937940656409685400179041082242364498080236264115595900560044423621507154). assert (W : w < field_p) by reflexivity.
    assert (E : field_p - 3 = fsq w) by reflexivity. change (val (Fopp (Fadd (Fadd Fone Fone) Fone))) with (field_p - 3). unfold minus_3_sqrt. rewrite E. clear E V.
    destruct (fsqrt_square w W) as (r & R & _). clearbody w. rewrite <- fsq_mul. revert R. unfold fsqrt. generalize (fpow (fsq w) ((field_p + 1) / 4)). intros q.
    destruct (N.eqb_spec (fsq q) (fsq w)) as [E|]; [intros _; exact E|discriminate]. }
  split; [exact Q|]. split; [|exact V]. intros Z. rewrite Z in Q. apply (f_equal val) in Q. rewrite val_Fmul in Q.
  change (val (Fopp (Fadd (Fadd Fone Fone) Fone))) with (field_p - 3) in Q. discriminate Q.
Qed.

Lemma xswiftec_on u t : u < field_p -> t < field_p -> xswiftec u t < field_p /\ is_square (curve (xswiftec u t)) = true.
Proof.
  intros LU LT. unfold xswiftec. cbn zeta. destruct nonzero_constants as (N2 & N3 & N7). destruct root3_ok as (C2 & C0 & <-).
  set (u' := if u =? 0 then 1 else u). set (t' := if t =? 0 then 1 else t). set (t2 := if fadd (curve u') (fsq t') =? 0 then fadd t' t' else t').
  assert (U : exists a, u' = val a /\ a <> Fzero).
  { unfold u'. destruct (N.eqb_spec u 0) as [|E]; [exists Fone; split; [reflexivity|intros H; apply (f_equal val) in H; discriminate H]|].
    exists (elem u). rewrite val_elem by exact LU. split; [reflexivity|]. intros H. apply (f_equal val) in H. rewrite val_elem in H by exact LU. exact (E H). }
  assert (T : exists a, t' = val a /\ a <> Fzero).
  { unfold t'. destruct (N.eqb_spec t 0) as [|E]; [exists Fone; split; [reflexivity|intros H; apply (f_equal val) in H; discriminate H]|].
    exists (elem t). rewrite val_elem by exact LT. split; [reflexivity|]. intros H. apply (f_equal val) in H. rewrite val_elem in H by exact LT. exact (E H). }
  destruct U as (a & -> & A0). destruct T as (d & -> & D0). subst t2.
  assert (T2 : exists c, (if fadd (curve (val a)) (fsq (val d)) =? 0 then fadd (val d) (val d) else val d) = val c /\ c <> Fzero /\
                 Fadd (Fadd (Fmul (Fmul a a) a) seven) (Fmul c c) <> Fzero).
  { rewrite curve_val. unfold fsq. rewrite <- val_Fmul, <- !val_Fadd. change 0 with (val Fzero) at 1.
    destruct (N.eqb_spec (val (Fadd (Fadd (Fmul (Fmul a a) a) seven) (Fmul d d))) (val Fzero)) as [E|E].
    - exists (Fadd d d). split; [reflexivity|]. apply val_inj in E.
      exact (Curve.doubled Fp Fzero Fone Fadd Fmul Fsub Fopp Fdiv Finv Fp_field Fp_eq_dec N2 N3 _ _ D0 E).
    - exists d. repeat split; [exact D0|]. intros H. apply E. rewrite H. reflexivity. }
  destruct T2 as (c & -> & T0 & NZ). clear D0 d. cbv zeta.
  set (X := Fdiv (Fsub (Fadd (Fmul (Fmul a a) a) seven) (Fmul c c)) (Fadd c c)).
  assert (EX : fdiv (fsub (curve (val a)) (fsq (val c))) (fadd (val c) (val c)) = val X).
  { rewrite curve_val. unfold fsq. rewrite <- val_Fmul, <- val_Fadd, <- val_Fsub, <- val_Fdiv. reflexivity. }
  rewrite EX. clear EX. set (Y := Fdiv (Fadd X c) (Fmul root3 a)).
  assert (EY : fdiv (fadd (val X) (val c)) (fmul (val root3) (val a)) = val Y) by (rewrite <- val_Fadd, <- val_Fmul, <- val_Fdiv; reflexivity).
  rewrite EY. clear EY.
  pose proof (Curve.swift_product Fp Fzero Fone Fadd Fmul Fsub Fopp Fdiv Finv seven Fp_field Fp_eq_dec N2 a c root3 X Y C2 C0 A0 T0 NZ eq_refl eq_refl) as (s & S). cbv zeta in S.
  set (x1 := Fadd a (Fmul (Fmul (Fadd Fone Fone) (Fadd Fone Fone)) (Fmul Y Y))) in *.
  set (x2 := Fdiv (Fsub (Fopp (Fdiv X Y)) a) (Fadd Fone Fone)) in *. set (x3 := Fdiv (Fsub (Fdiv X Y) a) (Fadd Fone Fone)) in *.
  assert (E1 : fadd (val a) (fmul 4 (fsq (val Y))) = val x1).
  { unfold fsq. change 4 with (val (Fmul (Fadd Fone Fone) (Fadd Fone Fone))). rewrite <- !val_Fmul, <- val_Fadd. reflexivity. }
  assert (E2 : fdiv (fsub (fneg (fdiv (val X) (val Y))) (val a)) 2 = val x2).
  { change 2 with (val (Fadd Fone Fone)). rewrite <- val_Fdiv, <- val_Fopp, <- val_Fsub, <- val_Fdiv. reflexivity. }
  assert (E3 : fdiv (fsub (fdiv (val X) (val Y)) (val a)) 2 = val x3).
  { change 2 with (val (Fadd Fone Fone)). rewrite <- val_Fdiv, <- val_Fsub, <- val_Fdiv. reflexivity. }
  rewrite E1, E2, E3. clear E1 E2 E3. clearbody x1 x2 x3. rewrite !curve_val.
  destruct (is_square (val (Fadd (Fmul (Fmul x1 x1) x1) seven))) eqn:S1; [split; [apply val_lt|rewrite curve_val; exact S1]|].
  destruct (is_square (val (Fadd (Fmul (Fmul x2 x2) x2) seven))) eqn:S2; [split; [apply val_lt|rewrite curve_val; exact S2]|].
  split; [apply val_lt|]. rewrite curve_val. apply is_square_iff. apply not_square in S1, S2. destruct S1 as (Z1 & r1 & R1), S2 as (Z2 & r2 & R2).
  exact (Curve.third_square Fp Fzero Fone Fadd Fmul Fsub Fopp Fdiv Finv Fp_field _ _ _ _ _ _ Z1 Z2 R1 R2 S).
Qed.

Lemma square_root a : a < field_p -> is_square a = true -> exists y, fsqrt a = Some y /\ y < field_p /\ fsq y = a.
Proof.
  intros A. pose proof (fpow_lt a ((field_p + 1) / 4) A) as L. revert L. unfold is_square, fsqrt. generalize (fpow a ((field_p + 1) / 4)). intros q L. cbn zeta.
  destruct (N.eqb_spec (fsq q) a) as [E|]; [|discriminate]. intros _. exists q. split; [reflexivity|]. split; [exact L|exact E].
Qed.

Lemma decode_swift e : decode_x e = xswiftec (be_val (take 32 e) mod field_p) (be_val (take 32 (drop 32 e)) mod field_p).
Proof. cbv delta [decode_x]. cbv beta. reflexivity. Qed.

Lemma decode_square e : decode_x e < field_p /\ is_square (curve (decode_x e)) = true.
Proof. rewrite decode_swift. pose proof (mod_p_lt (be_val (take 32 e))) as U. pose proof (mod_p_lt (be_val (take 32 (drop 32 e)))) as T. exact (xswiftec_on _ _ U T). Qed.

(** ** The specification's curve *)

Definition coords (p : pt) : xy_point := match p with None => None | Some (x, y) => Some (val x, val y) end.

Lemma cong_eq a b : a = b -> congruent a b.
Proof. intros ->. reflexivity. Qed.
Lemma cong_trans a b c : congruent a b -> congruent b c -> congruent a c.
Proof. unfold congruent. congruence. Qed.
Lemma cong_sym a b : congruent a b -> congruent b a.
Proof. unfold congruent. congruence. Qed.
Lemma cong_add a b c d : congruent a b -> congruent c d -> congruent (a + c) (b + d).
Proof. unfold congruent. intros A C. rewrite N.add_mod, A, C, <- N.add_mod by discriminate. reflexivity. Qed.
Lemma cong_mul a b c d : congruent a b -> congruent c d -> congruent (a * c) (b * d).
Proof. unfold congruent. intros A C. rewrite N.mul_mod, A, C, <- N.mul_mod by discriminate. reflexivity. Qed.

(** [denotes n a]: the number [n] stands for the field element [a]. *)
Definition denotes (n : N) (a : Fp) : Prop := congruent n (val a).

Lemma denotes_val a : denotes (val a) a.
Proof. apply cong_eq. reflexivity. Qed.
Lemma denotes_add n m a b : denotes n a -> denotes m b -> denotes (n + m) (Fadd a b).
Proof.
  intros A B. apply (cong_trans _ (val a + val b)); [apply cong_add; assumption|]. unfold congruent. rewrite val_Fadd, fadd_mod by apply val_lt.
  symmetry. apply N.mod_mod. discriminate.
Qed.
Lemma denotes_mul n m a b : denotes n a -> denotes m b -> denotes (n * m) (Fmul a b).
Proof.
  intros A B. apply (cong_trans _ (val a * val b)); [apply cong_mul; assumption|]. unfold congruent. rewrite val_Fmul, fmul_mod by apply val_lt.
  symmetry. apply N.mod_mod. discriminate.
Qed.
Lemma denotes_same n m a : denotes n a -> denotes m a -> congruent n m.
Proof. intros A B. exact (cong_trans _ _ _ A (cong_sym _ _ B)). Qed.
Lemma denotes_inj n a b : denotes n a -> denotes n b -> a = b.
Proof.
  intros A B. apply val_inj. unfold denotes, congruent in *. rewrite A in B. change secp_p with field_p in B. rewrite !N.mod_small in B by apply val_lt. exact B.
Qed.

Lemma coords_on p : on p -> on_curve (coords p).
Proof.
  destruct p as [[x y]|]; [|trivial]. cbn [Curve.on coords on_curve]. intros H. split; [apply val_lt|]. split; [apply val_lt|].
  apply (denotes_same _ _ (Fmul y y)); [apply denotes_mul; apply denotes_val|]. rewrite H.
  apply denotes_add; [|reflexivity]. repeat apply denotes_mul; apply denotes_val.
Qed.

Lemma coords_third l x1 y1 x2 : exists x3 y3, coords (Curve.third Fp Fadd Fmul Fsub Fopp l x1 y1 x2) = Some (x3, y3) /\ third_point (val l) (val x1) (val y1) (val x2) x3 y3.
Proof.
  unfold Curve.third. set (x3 := Fsub (Fsub (Fmul l l) x1) x2). set (y3 := Fopp (Fadd y1 (Fmul l (Fsub x3 x1)))). cbv zeta. exists (val x3), (val y3). split; [reflexivity|].
  destruct (Curve.third_eqs Fp Fzero Fone Fadd Fmul Fsub Fopp Fdiv Finv Fp_field l x1 y1 x2) as (X & Y). fold x3 in X, Y. fold y3 in Y.
  split; [apply val_lt|]. split; [apply val_lt|]. split.
  - apply (denotes_same _ _ (Fmul l l)); [rewrite <- X; repeat apply denotes_add; apply denotes_val|apply denotes_mul; apply denotes_val].
  - apply (denotes_same _ _ (Fmul l x1)); [rewrite <- Y; repeat apply denotes_add; try apply denotes_mul; apply denotes_val|apply denotes_mul; apply denotes_val].
Qed.

Local Notation plus := (Curve.plus Fp Fzero Fone Fadd Fmul Fsub Fopp Fdiv Fp_eq_dec).

Lemma coords_plus p q : on p -> on q -> sum (coords p) (coords q) (coords (plus p q)).
Proof.
  destruct nonzero_constants as (N2 & N3 & N7). destruct p as [[x1 y1]|]; [|intros; apply sum_left]. destruct q as [[x2 y2]|]; [|intros; apply sum_right].
  intros A B. unfold Curve.plus. destruct (Fp_eq_dec x1 x2) as [E|E].
  - subst x2. destruct (Fp_eq_dec (Fadd y1 y2) Fzero) as [Z|Z].
    + apply sum_opposite. apply (denotes_same _ _ (Fadd y1 y2)); [apply denotes_add; apply denotes_val|rewrite Z; reflexivity].
    + destruct (Curve.same_x Fp Fzero Fone Fadd Fmul Fsub Fopp Fdiv Finv seven Fp_field Fp_eq_dec x1 y1 y2 A B) as [<-|Q]; [|contradiction].
      set (l := Fdiv _ _). destruct (coords_third l x1 y1 x1) as (x3 & y3 & -> & T). apply (sum_tangent (val l)); [| |exact T].
      * intros C. apply Z. apply (denotes_inj (val y1 + val y1)); [apply denotes_add; apply denotes_val|]. exact C.
      * apply (denotes_same _ _ (Fmul l (Fmul (Fadd Fone Fone) y1))); [repeat apply denotes_mul; try apply denotes_val; reflexivity|].
        unfold l. rewrite (Curve.tangent_eq Fp Fzero Fone Fadd Fmul Fsub Fopp Fdiv Finv Fp_field) by assumption.
        repeat apply denotes_mul; try apply denotes_val; reflexivity.
  - set (l := Fdiv _ _). destruct (coords_third l x1 y1 x2) as (x3 & y3 & -> & T). apply (sum_chord (val l)); [|  |exact T].
    + intros Q. apply E, val_inj, Q.
    + apply (denotes_same _ _ (Fadd (Fmul l x2) y1)); [apply denotes_add; [apply denotes_mul|]; apply denotes_val|].
      unfold l. rewrite (Curve.chord_eq Fp Fzero Fone Fadd Fmul Fsub Fopp Fdiv Finv Fp_field) by assumption. fold l.
      apply denotes_add; [apply denotes_mul|]; apply denotes_val.
Qed.

Lemma denotes_cong n m a b : congruent n m -> denotes n a -> denotes m b -> a = b.
Proof. intros C A B. apply (denotes_inj m); [|exact B]. exact (cong_trans _ _ _ (cong_sym _ _ C) A). Qed.

Lemma denotes_elem n : denotes n (elem (n mod secp_p)).
Proof. unfold denotes, congruent. rewrite val_elem by (apply N.mod_lt; discriminate). symmetry. apply N.mod_mod. discriminate. Qed.

(** There is only one sum. *)
Lemma sum_unique p q r : on p -> on q -> sum (coords p) (coords q) r -> r = coords (plus p q).
Proof.
  destruct nonzero_constants as (N2 & N3 & N7).
  assert (THIRD : forall l x1 y1 x2 x3 y3, third_point l (val x1) (val y1) (val x2) x3 y3 ->
            Some (x3, y3) = coords (Curve.third Fp Fadd Fmul Fsub Fopp (elem (l mod secp_p)) x1 y1 x2)).
  { intros l x1 y1 x2 x3 y3 (B3 & B4 & X & Y). pose proof (denotes_elem l) as L. set (e := elem (l mod secp_p)) in *. clearbody e.
    rewrite (Curve.third_unique Fp Fzero Fone Fadd Fmul Fsub Fopp Fdiv Finv Fp_field e x1 y1 x2 (elem x3) (elem y3)).
    - cbn [coords]. rewrite !val_elem by assumption. reflexivity.
    - assert (D3 : denotes x3 (elem x3)) by (apply cong_eq; symmetry; apply val_elem; exact B3).
      apply (denotes_cong _ _ _ _ X); [repeat apply denotes_add; try apply denotes_val; exact D3|apply denotes_mul; exact L].
    - assert (D3 : denotes x3 (elem x3)) by (apply cong_eq; symmetry; apply val_elem; exact B3).
      assert (D4 : denotes y3 (elem y3)) by (apply cong_eq; symmetry; apply val_elem; exact B4).
      apply (denotes_cong _ _ _ _ Y); [apply denotes_add; [apply denotes_add; [exact D4|apply denotes_val]|apply denotes_mul; assumption]|apply denotes_mul; [exact L|apply denotes_val]]. }
  destruct p as [[x1 y1]|]; [destruct q as [[x2 y2]|]|].
  - intros A B H. cbn [coords] in H. unfold Curve.plus. inversion H as [| |x y y' C EX EY E3|l a1 b1 a2 b2 x3 y3 NE C T E1 E2 E3|l x y x3 y3 NZ C T E1 E2 E3]; subst.
    + apply val_inj in EY. subst x2. destruct (Fp_eq_dec x1 x1) as [_|]; [|contradiction].
      destruct (Fp_eq_dec (Fadd y1 y2) Fzero) as [_|Z]; [reflexivity|]. exfalso. apply Z. apply (denotes_cong _ _ _ _ C); [apply denotes_add; apply denotes_val|reflexivity].
    + destruct (Fp_eq_dec x1 x2) as [Q|Q]; [exfalso; apply NE; rewrite Q; reflexivity|]. rewrite (THIRD _ _ _ _ _ _ T). f_equal. f_equal.
      pose proof (denotes_elem l) as L. set (e := elem (l mod secp_p)) in *. clearbody e.
      apply (Curve.chord_unique Fp Fzero Fone Fadd Fmul Fsub Fopp Fdiv Finv Fp_field Fp_eq_dec); [exact Q|].
      apply (denotes_cong _ _ _ _ C); apply denotes_add; try apply denotes_mul; try apply denotes_val; exact L.
    + assert (x2 = x1) by (apply val_inj; congruence). assert (y2 = y1) by (apply val_inj; congruence). subst x2 y2. destruct (Fp_eq_dec x1 x1) as [_|]; [|contradiction].
      assert (Z : Fadd y1 y1 <> Fzero).
      { intros Z. apply NZ. apply (denotes_same _ _ (Fadd y1 y1)); [apply denotes_add; apply denotes_val|rewrite Z; reflexivity]. }
      destruct (Fp_eq_dec (Fadd y1 y1) Fzero) as [|_]; [contradiction|]. rewrite (THIRD _ _ _ _ _ _ T). f_equal. f_equal.
      pose proof (denotes_elem l) as L. set (e := elem (l mod secp_p)) in *. clearbody e.
      apply (Curve.tangent_unique Fp Fzero Fone Fadd Fmul Fsub Fopp Fdiv Finv Fp_field Fp_eq_dec); try assumption.
      apply (denotes_cong _ _ _ _ C); [|repeat apply denotes_mul; try apply denotes_val; reflexivity].
      apply denotes_mul; [exact L|]. apply denotes_mul; [reflexivity|apply denotes_val].
  - intros _ _ H. inversion H. reflexivity.
  - intros _ _ H. destruct q as [[x2 y2]|]; inversion H; reflexivity.
Qed.

Local Notation ntimes := (Curve.ntimes Fp Fzero Fone Fadd Fmul Fsub Fopp Fdiv Fp_eq_dec).

Lemma G_coords : coords (affine G) = base_point.
Proof. unfold G. rewrite affine_one. vm_compute. reflexivity. Qed.

Lemma ntimes_on n : on (ntimes n (affine G)).
Proof. destruct nonzero_constants as (N2 & N3 & N7). apply (Curve.ntimes_on _ _ _ _ _ _ _ _ _ _ Fp_field); try assumption. exact G_on. Qed.

Lemma multiple_exists n : multiple base_point n (coords (ntimes n (affine G))).
Proof.
  rewrite <- G_coords. induction n as [|n IH]; [apply multiple_0|]. cbn [Curve.ntimes]. refine (multiple_S _ _ _ _ IH _). apply coords_plus; [exact G_on|apply ntimes_on].
Qed.

Lemma multiple_unique n q : multiple base_point n q -> q = coords (ntimes n (affine G)).
Proof.
  rewrite <- G_coords. intros H. induction H as [|n q r H IH S]; [reflexivity|]. subst q. cbn [Curve.ntimes]. apply sum_unique; [exact G_on|apply ntimes_on|exact S].
Qed.

Lemma abscissa_coords p : abscissa (coords p) = val (px p).
Proof. destruct p as [[x y]|]; reflexivity. Qed.

(** The public key. *)
Theorem public_key k q : multiple base_point (Pos.to_nat k) q -> x_of (mult_pos k generator) = abscissa q.
Proof.
  destruct nonzero_constants as (N2 & N3 & N7). intros H. apply multiple_unique in H. rewrite H, abscissa_coords.
  rewrite <- G_vals, x_of_mult by (exact G_on || exact G_normal). rewrite (Curve.times_ntimes _ _ _ _ _ _ _ _ _ seven Fp_field) by (exact G_on || assumption). reflexivity.
Qed.

(** The shared point. *)
Theorem shared_point j k q : multiple base_point (Pos.to_nat j * Pos.to_nat k) q ->
  x_of (mult_pos j (lift_x (x_of (mult_pos k generator)))) = abscissa q.
Proof.
  destruct nonzero_constants as (N2 & N3 & N7). intros M. apply multiple_unique in M. rewrite M, abscissa_coords. clear M.
  rewrite <- G_vals, x_of_mult by (exact G_on || exact G_normal). pose proof G_on as ON.
  assert (ON' : on (times k (affine G))) by (apply (Curve.times_on _ _ _ _ _ _ _ _ _ _ Fp_field); assumption).
  rewrite (Curve.ntimes_mul _ _ _ _ _ _ _ _ _ seven Fp_field) by assumption. pose proof (fun i p => Curve.times_ntimes _ _ _ _ _ _ _ _ _ seven Fp_field Fp_eq_dec N2 N3 N7 i p) as TN.
  rewrite <- (TN k) by assumption. rewrite <- (TN j) by assumption. clear TN.
  destruct (lift_ok _ ON') as (p & -> & NQ & Q). rewrite x_of_mult.
  - destruct Q as [-> | ->]; [reflexivity|]. rewrite (Curve.times_neg _ _ _ _ _ _ _ _ _ seven Fp_field) by assumption. rewrite Curve.px_neg. reflexivity.
  - destruct Q as [-> | ->]; [exact ON'|]. apply (Curve.on_neg _ _ _ _ _ _ _ _ _ _ Fp_field). exact ON'.
  - exact NQ.
Qed.

(** What any 64 bytes name. *)
Lemma decode_lift e : exists y, lift_x (decode_x e) = (decode_x e, y, 1) /\ on_curve (Some (decode_x e, y)).
Proof.
  destruct (decode_square e) as (L & H). revert L H. generalize (decode_x e). intros x L H.
  assert (C : curve x < field_p) by (rewrite <- (val_elem x L), curve_val; apply val_lt).
  destruct (square_root _ C H) as (y & Y & B & Q). exists y. split; [unfold lift_x; rewrite Y; reflexivity|].
  rewrite <- (val_elem x L), <- (val_elem y B). apply (coords_on (Some (elem x, elem y))). apply on_vals. rewrite !val_elem by assumption. exact Q.
Qed.
