(** * Curve: the group law of a curve y^2 = x^3 + b

    Over any field where 2, 3 and b are not 0.  Chord and tangent have one description here: the slope [l] of two points that
    are not opposite satisfies both [l (x2 - x1) = y2 - y1] and [l (y1 + y2) = x1^2 + x1 x2 + x2^2]. *)
From Coq Require Import Arith PArith Lia Ring Field.

Section Curve.
Variables (F : Type) (zero one : F) (add mul sub : F -> F -> F) (opp : F -> F) (div : F -> F -> F) (inv : F -> F) (b : F).
Variable law : field_theory zero one add mul sub opp div inv (@eq F).
Variable eq_dec : forall x y : F, {x = y} + {x <> y}.
Add Field the_field : law.

Declare Scope curve_scope.
Local Open Scope curve_scope.
Local Notation "0" := zero : curve_scope.
Local Notation "1" := one : curve_scope.
Local Infix "+" := add : curve_scope.
Local Infix "*" := mul : curve_scope.
Local Infix "-" := sub : curve_scope.
Local Notation "- x" := (opp x) : curve_scope.
Local Infix "/" := div : curve_scope.
Local Notation two := (1 + 1).
Local Notation three := (1 + 1 + 1).

Hypothesis two_not_zero : two <> 0.
Hypothesis three_not_zero : three <> 0.
Hypothesis b_not_zero : b <> 0.

Lemma eq_of_sub x y : x - y = 0 -> x = y.
Proof. intros H. transitivity (x - y + y); [ring|]. rewrite H. ring. Qed.

Lemma sub_of_eq x y : x = y -> x - y = 0.
Proof. intros ->. ring. Qed.

Lemma mul_zero x y : x * y = 0 -> x = 0 \/ y = 0.
Proof.
  intros H. destruct (eq_dec x 0) as [|N]; [left; assumption|right]. transitivity (x * y / x); [field; exact N|]. rewrite H. field. exact N.
Qed.

Lemma mul_not_zero x y : x <> 0 -> y <> 0 -> x * y <> 0.
Proof. intros X Y H. apply mul_zero in H. tauto. Qed.

Lemma cancel_mul c x y : c <> 0 -> c * x = c * y -> x = y.
Proof. intros C H. apply eq_of_sub. assert (Z : c * (x - y) = 0) by (transitivity (c * x - c * y); [ring|rewrite H; ring]). apply mul_zero in Z. tauto. Qed.

Lemma own_negative y : y + y = 0 -> y = 0.
Proof. intros H. assert (Z : two * y = 0) by (rewrite <- H; ring). apply mul_zero in Z. tauto. Qed.

(** Points: [None] is the point at infinity. *)
Definition pt := option (F * F).
Definition on (p : pt) : Prop := match p with None => True | Some (x, y) => y * y = x * x * x + b end.
Definition neg (p : pt) : pt := match p with None => None | Some (x, y) => Some (x, - y) end.

Definition third (l x1 y1 x2 : F) : pt := let x := l * l - x1 - x2 in Some (x, - (y1 + l * (x - x1))).

Definition plus (p q : pt) : pt :=
  match p, q with
  | None, _ => q
  | _, None => p
  | Some (x1, y1), Some (x2, y2) =>
    if eq_dec x1 x2 then
      if eq_dec (y1 + y2) 0 then None else third (three * (x1 * x1) / (two * y1)) x1 y1 x2
    else third ((y2 - y1) / (x2 - x1)) x1 y1 x2
  end.

Definition slope (l x1 y1 x2 y2 : F) : Prop := l * (x2 - x1) = y2 - y1 /\ l * (y1 + y2) = x1 * x1 + x1 * x2 + x2 * x2.
Definition opposite (x1 y1 x2 y2 : F) : Prop := x1 = x2 /\ y1 + y2 = 0.

Lemma same_x x y1 y2 : on (Some (x, y1)) -> on (Some (x, y2)) -> y1 = y2 \/ y1 + y2 = 0.
Proof.
  cbn. intros A B. assert (Z : (y1 - y2) * (y1 + y2) = 0) by (transitivity (y1 * y1 - y2 * y2); [ring|rewrite A, B; ring]).
  apply mul_zero in Z. destruct Z as [Z|Z]; [left; apply eq_of_sub, Z|right; exact Z].
Qed.

Lemma plus_opposite x1 y1 x2 y2 : opposite x1 y1 x2 y2 -> plus (Some (x1, y1)) (Some (x2, y2)) = None.
Proof. intros [-> H]. cbn. destruct (eq_dec x2 x2) as [_|N]; [|contradiction]. destruct (eq_dec (y1 + y2) 0); [reflexivity|contradiction]. Qed.

Lemma opposite_dec x1 y1 x2 y2 : {opposite x1 y1 x2 y2} + {~ opposite x1 y1 x2 y2}.
Proof. unfold opposite. destruct (eq_dec x1 x2); destruct (eq_dec (y1 + y2) 0); [left|right|right|right]; tauto. Qed.

Lemma plus_third x1 y1 x2 y2 : on (Some (x1, y1)) -> on (Some (x2, y2)) -> ~ opposite x1 y1 x2 y2 ->
  exists l, slope l x1 y1 x2 y2 /\ plus (Some (x1, y1)) (Some (x2, y2)) = third l x1 y1 x2.
Proof.
  intros A B N. unfold plus. destruct (eq_dec x1 x2) as [->|X].
  - destruct (eq_dec (y1 + y2) 0) as [Y|Y]; [contradict N; split; [reflexivity|exact Y]|].
    destruct (same_x _ _ _ A B) as [<-|Z]; [|contradiction].
    assert (Y1 : y1 <> 0) by (intros ->; apply Y; ring).
    exists (three * (x2 * x2) / (two * y1)). split; [split|reflexivity]; field; repeat split; assumption.
  - assert (X0 : x2 - x1 <> 0) by (intros Z; apply X; symmetry; apply eq_of_sub, Z).
    exists ((y2 - y1) / (x2 - x1)). split; [split|reflexivity]; [field; exact X0|].
    apply (cancel_mul (x2 - x1)); [exact X0|]. transitivity (y2 * y2 - y1 * y1); [field; exact X0|]. cbn in A, B. rewrite A, B. ring.
Qed.

Lemma slope_unique l l' x1 y1 x2 y2 : on (Some (x1, y1)) -> on (Some (x2, y2)) -> ~ opposite x1 y1 x2 y2 ->
  slope l x1 y1 x2 y2 -> slope l' x1 y1 x2 y2 -> l = l'.
Proof.
  intros A B N [S1 S2] [T1 T2]. destruct (eq_dec x1 x2) as [->|X].
  - apply (cancel_mul (y1 + y2)); [intros Z; apply N; split; [reflexivity|exact Z]|]. transitivity (l * (y1 + y2)); [ring|]. rewrite S2, <- T2. ring.
  - apply (cancel_mul (x2 - x1)); [intros Z; apply X; symmetry; apply eq_of_sub, Z|]. transitivity (l * (x2 - x1)); [ring|]. rewrite S1, <- T1. ring.
Qed.

Lemma slope_swap l x1 y1 x2 y2 : slope l x1 y1 x2 y2 -> slope l x2 y2 x1 y1.
Proof.
  intros [S1 S2]. split.
  - transitivity (- (l * (x2 - x1))); [ring|]. rewrite S1. ring.
  - transitivity (l * (y1 + y2)); [ring|]. rewrite S2. ring.
Qed.

Lemma slope_neg l x1 y1 x2 y2 : slope l x1 y1 x2 y2 -> slope (- l) x1 (- y1) x2 (- y2).
Proof.
  intros [S1 S2]. split.
  - transitivity (- (l * (x2 - x1))); [ring|]. rewrite S1. ring.
  - transitivity (l * (y1 + y2)); [ring|]. rewrite S2. ring.
Qed.

(** What is needed of a slope [l]: the curve minus the line, and its derivative. *)
Lemma line_cubic l x1 y1 x2 y2 : on (Some (x1, y1)) -> slope l x1 y1 x2 y2 -> forall x,
  (y1 + l * (x - x1)) * (y1 + l * (x - x1)) - (x * x * x + b) = - ((x - x1) * (x - x2) * (x - (l * l - x1 - x2))).
Proof.
  intros A [S1 S2] x. cbn in A. apply sub_of_eq in A, S1, S2. apply eq_of_sub.
  transitivity ((y1 * y1 - (x1 * x1 * x1 + b)) + (x - x1) * (l * (l * (x2 - x1) - (y2 - y1)) + (l * (y1 + y2) - (x1 * x1 + x1 * x2 + x2 * x2)))); [ring|].
  rewrite A, S1, S2. ring.
Qed.

Lemma line_derivative l x1 y1 x2 y2 : slope l x1 y1 x2 y2 -> forall x,
  two * l * (y1 + l * (x - x1)) - three * (x * x) =
  - ((x - x2) * (x - (l * l - x1 - x2)) + (x - x1) * (x - (l * l - x1 - x2)) + (x - x1) * (x - x2)).
Proof.
  intros [S1 S2] x. apply sub_of_eq in S1, S2. apply eq_of_sub.
  transitivity (l * (l * (x2 - x1) - (y2 - y1)) + (l * (y1 + y2) - (x1 * x1 + x1 * x2 + x2 * x2))); [ring|].
  rewrite S1, S2. ring.
Qed.

Lemma third_on l x1 y1 x2 y2 : on (Some (x1, y1)) -> slope l x1 y1 x2 y2 -> on (third l x1 y1 x2).
Proof.
  intros A S. unfold third. cbn [on]. pose proof (line_cubic _ _ _ _ _ A S (l * l - x1 - x2)) as L. apply eq_of_sub.
  etransitivity; [|etransitivity; [exact L|ring]]. ring.
Qed.

Lemma third_swap l x1 y1 x2 y2 : slope l x1 y1 x2 y2 -> third l x1 y1 x2 = third l x2 y2 x1.
Proof.
  intros [S1 S2]. apply sub_of_eq in S1. unfold third. assert (X : l * l - x1 - x2 = l * l - x2 - x1) by ring. rewrite X. f_equal. f_equal.
  apply eq_of_sub. transitivity (- (l * (x2 - x1) - (y2 - y1))); [ring|rewrite S1; ring].
Qed.

(** ** The group *)

Lemma on_neg p : on p -> on (neg p).
Proof. destruct p as [[x y]|]; cbn; [intros A|trivial]. rewrite <- A. ring. Qed.

Lemma neg_neg p : neg (neg p) = p.
Proof. destruct p as [[x y]|]; cbn; [|reflexivity]. f_equal. f_equal. ring. Qed.

Lemma plus_on p q : on p -> on q -> on (plus p q).
Proof.
  destruct p as [[x1 y1]|], q as [[x2 y2]|]; intros A B; try assumption.
  destruct (opposite_dec x1 y1 x2 y2) as [O|O]; [rewrite plus_opposite by exact O; exact I|].
  destruct (plus_third _ _ _ _ A B O) as (l & S & ->). exact (third_on _ _ _ _ _ A S).
Qed.

Lemma plus_comm p q : on p -> on q -> plus p q = plus q p.
Proof.
  destruct p as [[x1 y1]|], q as [[x2 y2]|]; intros A B; try reflexivity.
  destruct (opposite_dec x1 y1 x2 y2) as [O|O].
  - rewrite !plus_opposite; [reflexivity| |exact O]. destruct O as [-> Y]. split; [reflexivity|]. rewrite <- Y. ring.
  - assert (O' : ~ opposite x2 y2 x1 y1) by (intros [-> Y]; apply O; split; [reflexivity|rewrite <- Y; ring]).
    destruct (plus_third _ _ _ _ A B O) as (l & S & ->). destruct (plus_third _ _ _ _ B A O') as (l' & S' & ->).
    rewrite (slope_unique _ _ _ _ _ _ B A O' S' (slope_swap _ _ _ _ _ S)). exact (third_swap _ _ _ _ _ S).
Qed.

Lemma plus_neg_neg p q : on p -> on q -> neg (plus p q) = plus (neg p) (neg q).
Proof.
  destruct p as [[x1 y1]|], q as [[x2 y2]|]; intros A B; try reflexivity.
  destruct (opposite_dec x1 y1 x2 y2) as [O|O].
  - cbn [neg]. rewrite !plus_opposite; [reflexivity| |exact O]. destruct O as [-> Y]. split; [reflexivity|]. transitivity (- (y1 + y2)); [ring|rewrite Y; ring].
  - assert (O' : ~ opposite x1 (- y1) x2 (- y2)) by (intros [-> Y]; apply O; split; [reflexivity|]; transitivity (- (- y1 + - y2)); [ring|rewrite Y; ring]).
    destruct (plus_third _ _ _ _ A B O) as (l & S & ->).
    destruct (plus_third _ _ _ _ (on_neg (Some (x1, y1)) A) (on_neg (Some (x2, y2)) B) O') as (l' & S' & E).
    cbn [neg] in E |- *. rewrite E. rewrite (slope_unique _ _ _ _ _ _ (on_neg (Some (x1, y1)) A) (on_neg (Some (x2, y2)) B) O' S' (slope_neg _ _ _ _ _ S)).
    unfold third. cbn [neg]. f_equal. assert (X : l * l - x1 - x2 = (- l) * (- l) - x1 - x2) by ring. rewrite <- X. f_equal. ring.
Qed.

Lemma plus_neg p : plus p (neg p) = None.
Proof. destruct p as [[x y]|]; [|reflexivity]. apply plus_opposite. split; [reflexivity|ring]. Qed.

Lemma plus_none p : plus p None = p.
Proof. destruct p as [[x y]|]; reflexivity. Qed.

(** Taking away what was added. *)
Lemma plus_back p q : on p -> on q -> plus (neg p) (plus p q) = q.
Proof.
  destruct p as [[x1 y1]|]; [|intros; reflexivity]. destruct q as [[x2 y2]|].
  2:{ intros _ _. rewrite plus_none. cbn [neg]. apply plus_opposite. split; [reflexivity|ring]. }
  intros A B. destruct (opposite_dec x1 y1 x2 y2) as [O|O].
  { rewrite plus_opposite by exact O. rewrite plus_none. destruct O as [<- Y]. cbn [neg]. f_equal. f_equal. apply eq_of_sub. transitivity (- (y1 + y2)); [ring|rewrite Y; ring]. }
  destruct (plus_third _ _ _ _ A B O) as (l & S & ->). pose proof (third_on _ _ _ _ _ A S) as C. unfold third in *. set (xs := l * l - x1 - x2) in *. set (ys := - (y1 + l * (xs - x1))) in *.
  pose proof (line_derivative _ _ _ _ _ S) as D. fold xs in D. pose proof (on_neg (Some (x1, y1)) A) as A'. cbn [neg] in A' |- *.
  assert (T : ~ opposite x1 (- y1) xs ys -> slope (- l) x1 (- y1) xs ys).
  { intros N. split; [unfold ys; ring|]. destruct (eq_dec xs x1) as [X|X].
    - specialize (D x1). rewrite X in D. apply eq_of_sub. unfold ys. rewrite X. transitivity (two * l * (y1 + l * (x1 - x1)) - three * (x1 * x1)); [ring|]. rewrite D. ring.
    - apply (cancel_mul (xs - x1)); [intros Z; apply X, eq_of_sub, Z|]. cbn in C, A.
      transitivity (ys * ys - y1 * y1); [unfold ys; ring|]. rewrite C, A. ring. }
  destruct (opposite_dec x1 (- y1) xs ys) as [[X Y]|N].
  - exfalso. assert (Y0 : y1 = 0). { apply own_negative. unfold ys in Y. rewrite <- X in Y. transitivity (- (- y1 + - (y1 + l * (x1 - x1)))); [ring|]. rewrite Y. ring. }
    specialize (D x1). rewrite <- X, Y0 in D. assert (Z : three * (x1 * x1) = 0).
    { transitivity (- (two * l * (0 + l * (x1 - x1)) - three * (x1 * x1))); [ring|]. rewrite D. ring. }
    apply mul_zero in Z. destruct Z as [Z|Z]; [contradiction|]. assert (X0 : x1 = 0) by (apply mul_zero in Z; tauto).
    cbn in A. rewrite X0, Y0 in A. apply b_not_zero. transitivity (0 * 0 * 0 + b); [ring|]. rewrite <- A. ring.
  - destruct (plus_third _ _ _ _ A' C N) as (l' & S' & ->). rewrite (slope_unique _ _ _ _ _ _ A' C N S' (T N)). unfold third.
    destruct S as [S1 S2]. apply sub_of_eq in S1.
    assert (X : - l * - l - x1 - xs = x2) by (unfold xs; ring). rewrite X. f_equal. f_equal. apply eq_of_sub. transitivity (l * (x2 - x1) - (y2 - y1)); [ring|exact S1].
Qed.

(** Three points none of whose sums on the way is the point at infinity. *)
Lemma assoc_key l m x1 y1 x2 y2 x3 y3 l' : on (Some (x1, y1)) -> on (Some (x2, y2)) -> on (Some (x3, y3)) ->
  let xs := l * l - x1 - x2 in let ys := - (y1 + l * (xs - x1)) in
  slope l x1 y1 x2 y2 -> slope l' x2 y2 x3 y3 -> ~ opposite x2 y2 x3 y3 -> ~ opposite xs ys x3 y3 -> slope m xs ys x3 y3 ->
  x1 <> x2 \/ x3 <> x2 -> (m + l) * (l' - l) = x3 - x1.
Proof.
  intros A B C xs ys S T N23 NS3 M NE.
  pose proof (line_cubic _ _ _ _ _ A S) as K. pose proof (line_derivative _ _ _ _ _ S) as D. fold xs in K, D.
  destruct M as [M1 M2]. destruct S as [S1 S2]. destruct T as [T1 T2]. cbn in A, B, C.
  assert (L2 : y1 + l * (x2 - x1) = y2) by (rewrite S1; ring).
  assert (K1 : (m + l) * (x3 - xs) = y3 + (y1 + l * (x3 - x1))).
  { transitivity (m * (x3 - xs) + l * (x3 - xs)); [ring|]. rewrite M1. unfold ys. ring. }
  assert (L3 : y3 - (y1 + l * (x3 - x1)) = (l' - l) * (x3 - x2)).
  { transitivity ((y3 - y2) - l * (x3 - x2) + (y2 - (y1 + l * (x2 - x1)))); [ring|]. rewrite L2, <- T1. ring. }
  assert (EK : (y3 - (y1 + l * (x3 - x1))) * (m + l) = (x3 - x1) * (x3 - x2)).
  { destruct (eq_dec x3 xs) as [X|X].
    - (* the sum of the first two is the third *)
      assert (Y : ys = y3).
      { destruct (same_x x3 ys y3) as [Y|Y]; [|exact C|exact Y|].
        - cbn. unfold ys. rewrite <- X. apply eq_of_sub. specialize (K x3). rewrite <- X in K. etransitivity; [|etransitivity; [exact K|ring]]. ring.
        - exfalso. apply NS3. split; [symmetry; exact X|exact Y]. }
      specialize (D x3). rewrite <- X in *. rewrite Y in M2. unfold ys in Y. rewrite <- X in Y.
      assert (Z : y1 + l * (x3 - x1) = - y3) by (rewrite <- Y; ring). rewrite Z in D |- *.
      transitivity (m * (y3 + y3) - two * l * - y3); [ring|]. rewrite M2.
      apply eq_of_sub. transitivity (- (two * l * - y3 - three * (x3 * x3)) - (x3 - x1) * (x3 - x2)); [ring|]. rewrite D. ring.
    - apply (cancel_mul (x3 - xs)); [intros Z; apply X, eq_of_sub, Z|].
      transitivity ((y3 - (y1 + l * (x3 - x1))) * ((m + l) * (x3 - xs))); [ring|]. rewrite K1.
      transitivity (y3 * y3 - (y1 + l * (x3 - x1)) * (y1 + l * (x3 - x1))); [ring|]. specialize (K x3). rewrite C.
      transitivity (- ((y1 + l * (x3 - x1)) * (y1 + l * (x3 - x1)) - (x3 * x3 * x3 + b))); [ring|]. rewrite K. ring. }
  rewrite L3 in EK. destruct (eq_dec x3 x2) as [X|X].
  - (* the second and the third are the same point *)
    assert (X12 : x1 <> x2) by (destruct NE as [NE|NE]; [exact NE|contradiction]).
    assert (Y : y2 = y3). { subst x3. destruct (same_x x2 y2 y3 B C) as [Y|Y]; [exact Y|]. exfalso. apply N23. split; [reflexivity|exact Y]. }
    subst x3 y3. clear EK L3. specialize (D x2). rewrite L2 in *.
    destruct (eq_dec x2 xs) as [XS|XS].
    + exfalso. apply N23. split; [reflexivity|]. rewrite <- K1, <- XS. ring.
    + apply (cancel_mul (x2 - xs)); [intros Z; apply XS, eq_of_sub, Z|].
      transitivity ((m + l) * (x2 - xs) * (l' - l)); [ring|]. rewrite K1. transitivity (l' * (y2 + y2) - two * l * y2); [ring|]. rewrite T2.
      apply eq_of_sub. transitivity (- (two * l * y2 - three * (x2 * x2)) - (x2 - xs) * (x2 - x1)); [ring|]. rewrite D. ring.
  - apply (cancel_mul (x3 - x2)); [intros Z; apply X, eq_of_sub, Z|]. transitivity ((l' - l) * (x3 - x2) * (m + l)); [ring|]. rewrite EK. ring.
Qed.

Lemma third_sides l l' m n x1 y1 x2 y2 x3 y3 :
  slope l x1 y1 x2 y2 -> slope l' x2 y2 x3 y3 -> m + l = n + l' -> (m + l) * (l' - l) = x3 - x1 ->
  let xs := l * l - x1 - x2 in let xt := l' * l' - x2 - x3 in
  Some (m * m - xs - x3, - (y3 + m * (m * m - xs - x3 - x3))) = Some (n * n - x1 - xt, - (y1 + n * (n * n - x1 - xt - x1))).
Proof.
  intros [S1 _] [T1 _] R1 R2 xs xt.
  assert (EM : m = n + l' - l) by (rewrite <- R1; ring). subst m.
  assert (E3 : x3 = x1 + (n + l') * (l' - l)). { apply eq_of_sub. transitivity ((x3 - x1) - (n + l' - l + l) * (l' - l)); [ring|]. rewrite R2. ring. }
  assert (X : (n + l' - l) * (n + l' - l) - xs - x3 = n * n - x1 - xt) by (unfold xs, xt; rewrite E3; ring).
  rewrite X. f_equal. f_equal. apply sub_of_eq in S1, T1.
  assert (E1 : y1 = y2 - l * (x2 - x1)). { apply eq_of_sub. transitivity (l * (x2 - x1) - (y2 - y1)); [ring|exact S1]. }
  assert (EY : y3 = y2 + l' * (x3 - x2)). { apply eq_of_sub. transitivity (- (l' * (x3 - x2) - (y3 - y2))); [ring|rewrite T1; ring]. }
  rewrite EY, E1. unfold xt. rewrite E3. ring.
Qed.

Lemma opposite_neg x1 y1 x2 y2 : opposite x1 y1 x2 y2 -> Some (x2, y2) = neg (Some (x1, y1)).
Proof. intros [<- Y]. cbn. f_equal. f_equal. apply eq_of_sub. rewrite <- Y. ring. Qed.

Lemma plus_assoc p q r : on p -> on q -> on r -> plus (plus p q) r = plus p (plus q r).
Proof.
  intros A B C. destruct p as [[x1 y1]|]; [|reflexivity]. destruct q as [[x2 y2]|]; [|reflexivity]. destruct r as [[x3 y3]|]; [|rewrite !plus_none; reflexivity].
  destruct (opposite_dec x1 y1 x2 y2) as [O12|O12].
  { rewrite (plus_opposite _ _ _ _ O12). apply opposite_neg in O12. rewrite O12 in *.
    pose proof (plus_back (neg (Some (x1, y1))) (Some (x3, y3)) B C) as P. rewrite neg_neg in P. rewrite P. reflexivity. }
  destruct (opposite_dec x2 y2 x3 y3) as [O23|O23].
  { rewrite (plus_opposite _ _ _ _ O23). rewrite plus_none. apply opposite_neg in O23. rewrite O23.
    rewrite plus_comm by (try apply on_neg; try apply plus_on; assumption). rewrite (plus_comm (Some (x1, y1))) by assumption. apply plus_back; assumption. }
  destruct (plus_third _ _ _ _ A B O12) as (l & S & ES). destruct (plus_third _ _ _ _ B C O23) as (l' & T & ET).
  pose proof (third_on _ _ _ _ _ A S) as OS. pose proof (third_on _ _ _ _ _ B T) as OT. unfold third in ES, ET, OS, OT.
  set (xs := l * l - x1 - x2) in *. set (ys := - (y1 + l * (xs - x1))) in *. set (xt := l' * l' - x2 - x3) in *. set (yt := - (y2 + l' * (xt - x2))) in *.
  destruct (opposite_dec xs ys x3 y3) as [OS3|OS3].
  { rewrite ES, (plus_opposite _ _ _ _ OS3). symmetry. apply opposite_neg in OS3. rewrite OS3, <- ES, plus_neg_neg by assumption.
    rewrite (plus_comm (neg (Some (x1, y1)))) by (apply on_neg; assumption).
    pose proof (plus_back (neg (Some (x2, y2))) (neg (Some (x1, y1))) (on_neg _ B) (on_neg _ A)) as P. rewrite neg_neg in P. rewrite P. apply plus_neg. }
  destruct (opposite_dec x1 y1 xt yt) as [O1T|O1T].
  { rewrite ET, (plus_opposite _ _ _ _ O1T). assert (E1 : Some (x1, y1) = neg (Some (xt, yt))) by (rewrite (opposite_neg _ _ _ _ O1T), neg_neg; reflexivity).
    rewrite E1, <- ET, plus_neg_neg by assumption. rewrite (plus_comm _ (Some (x2, y2))) by (try apply plus_on; try apply on_neg; assumption).
    pose proof (plus_back (neg (Some (x2, y2))) (neg (Some (x3, y3))) (on_neg _ B) (on_neg _ C)) as P. rewrite neg_neg in P. rewrite P.
    rewrite plus_comm by (try apply on_neg; assumption). apply plus_neg. }
  destruct (eq_dec x1 x3) as [X13|X13]; [destruct (eq_dec y1 y3) as [Y13|Y13]|].
  { (* the first is the third *) subst x3 y3. rewrite (plus_comm (plus _ _)) by (try apply plus_on; assumption). f_equal. apply plus_comm; assumption. }
  all: destruct (plus_third _ _ _ _ OS C OS3) as (m & M & EM); destruct (plus_third _ _ _ _ A OT O1T) as (n & Nn & EN).
  all: assert (NE : x1 <> x2 /\ x3 <> x2 \/ x1 = x3 \/ x1 <> x3 /\ (x1 <> x2 \/ x3 <> x2)) by
    (destruct (eq_dec x1 x3); destruct (eq_dec x1 x2); destruct (eq_dec x3 x2); subst; tauto).
  all: assert (NE2 : x1 <> x2 \/ x3 <> x2).
  1:{ subst x3. left. intros ->. apply Y13. destruct (same_x _ _ _ A B) as [E|E]; [|contradict O12; split; [reflexivity|exact E]]. destruct (same_x _ _ _ B C) as [E'|E']; [congruence|contradict O23; split; [reflexivity|exact E']]. }
  2:{ destruct (eq_dec x1 x2) as [E|E]; [right; congruence|left; exact E]. }
  all: pose proof (assoc_key l m x1 y1 x2 y2 x3 y3 l' A B C S T O23 OS3 M NE2) as R.
  all: assert (R' : (n + l') * (l - l') = x1 - x3).
  1,3: assert (YT : yt = - (y3 + l' * (l' * l' - x3 - x2 - x3))) by
    (destruct T as [T1 _]; apply sub_of_eq in T1; apply eq_of_sub; unfold yt, xt; transitivity (- (l' * (x3 - x2) - (y3 - y2))); [ring|rewrite T1; ring]);
    assert (XT : xt = l' * l' - x3 - x2) by (unfold xt; ring);
    refine (assoc_key l' n x3 y3 x2 y2 x1 y1 l C B A (slope_swap _ _ _ _ _ T) (slope_swap _ _ _ _ _ S) _ _ _ (match NE2 with or_introl H => or_intror H | or_intror H => or_introl H end));
    [intros [-> Y]; apply O12; split; [reflexivity|rewrite <- Y; ring]
    |rewrite <- XT; rewrite <- XT in YT; rewrite <- YT; intros [Y1 Y2]; apply O1T; split; [symmetry; exact Y1|rewrite <- Y2; ring]
    |rewrite <- XT; rewrite <- XT in YT; rewrite <- YT; apply slope_swap; exact Nn].
  all: assert (LL : l' - l <> 0).
  1,3: intros Z; rewrite Z in R; assert (X : x3 = x1) by (apply eq_of_sub; rewrite <- R; ring); first [congruence|
    apply Y13; assert (l' = l) as -> by (apply eq_of_sub; exact Z); destruct S as [S1 _]; destruct T as [T1 _]; rewrite X in T1;
    apply sub_of_eq in S1, T1; apply eq_of_sub; transitivity ((l * (x2 - x1) - (y2 - y1)) + (l * (x1 - x2) - (y3 - y2))); [ring|rewrite S1, T1; ring]].
  all: assert (R1 : m + l = n + l') by (apply (cancel_mul (l' - l)); [exact LL|]; transitivity ((m + l) * (l' - l)); [ring|]; rewrite R; transitivity (- (x1 - x3)); [ring|]; rewrite <- R'; ring).
  all: pose proof (third_sides l l' m n x1 y1 x2 y2 x3 y3 S T R1 R) as E; fold xs xt in E; cbn zeta in E.
  all: rewrite ES, ET, EM, EN; rewrite (third_swap _ _ _ _ _ M); unfold third.
  all: assert (X : m * m - x3 - xs = m * m - xs - x3) by ring; rewrite X; exact E.
Qed.

(** ** Multiples *)

Fixpoint ntimes (n : nat) (p : pt) : pt := match n with O => None | S n => plus p (ntimes n p) end.

(** Double and add. *)
Fixpoint times (k : positive) (p : pt) : pt :=
  match k with
  | xH => p
  | xO k => let q := times k p in plus q q
  | xI k => let q := times k p in plus p (plus q q)
  end.

Lemma ntimes_on n p : on p -> on (ntimes n p).
Proof. intros A. induction n as [|n IH]; cbn [ntimes]; [exact I|]. apply plus_on; assumption. Qed.

Lemma ntimes_add m n p : on p -> ntimes (m + n) p = plus (ntimes m p) (ntimes n p).
Proof.
  intros A. induction m as [|m IH]; [reflexivity|]. cbn [Nat.add ntimes]. rewrite IH. symmetry. apply plus_assoc; auto using ntimes_on.
Qed.

Lemma ntimes_mul m n p : on p -> ntimes (m * n) p = ntimes m (ntimes n p).
Proof. intros A. induction m as [|m IH]; [reflexivity|]. cbn [Nat.mul ntimes]. rewrite ntimes_add, IH by exact A. reflexivity. Qed.

Lemma ntimes_neg n p : on p -> ntimes n (neg p) = neg (ntimes n p).
Proof. intros A. induction n as [|n IH]; [reflexivity|]. cbn [ntimes]. rewrite IH, plus_neg_neg by auto using ntimes_on. reflexivity. Qed.

Lemma times_ntimes k p : on p -> times k p = ntimes (Pos.to_nat k) p.
Proof.
  intros A. induction k as [k IH|k IH|]; cbn [times]; cbn zeta; rewrite ?IH.
  - rewrite Pos2Nat.inj_xI. cbn [ntimes]. f_equal. rewrite <- ntimes_add by exact A. f_equal. lia.
  - rewrite Pos2Nat.inj_xO. rewrite <- ntimes_add by exact A. f_equal. lia.
  - rewrite Pos2Nat.inj_1. cbn [ntimes]. rewrite plus_none. reflexivity.
Qed.

Lemma times_on k p : on p -> on (times k p).
Proof. intros A. rewrite times_ntimes by exact A. apply ntimes_on, A. Qed.

Theorem times_comm j k p : on p -> times j (times k p) = times k (times j p).
Proof.
  intros A. rewrite (times_ntimes j), (times_ntimes k (times j p)) by (apply times_on; exact A). rewrite !times_ntimes by exact A.
  rewrite <- !ntimes_mul by exact A. f_equal. lia.
Qed.

Lemma times_neg k p : on p -> times k (neg p) = neg (times k p).
Proof. intros A. rewrite !times_ntimes by (try apply on_neg; exact A). apply ntimes_neg, A. Qed.

Lemma times_none k : times k None = None.
Proof. induction k as [k IH|k IH|]; cbn [times]; cbn zeta; rewrite ?IH; reflexivity. Qed.

(** ** Jacobian coordinates *)

Definition jac := (F * F * F)%type.
Definition jinf : jac := (0, 1, 0).
Definition affine (j : jac) : pt := let '(x, y, z) := j in if eq_dec z 0 then None else Some (x / (z * z), y / (z * z * z)).

Definition jdouble (j : jac) : jac :=
  let '(x, y, z) := j in
  if eq_dec z 0 then jinf else if eq_dec y 0 then jinf else
  let yy := y * y in
  let s := two * two * (x * yy) in
  let m := three * (x * x) in
  let x' := m * m - (s + s) in
  (x', m * (s - x') - two * two * two * (yy * yy), two * (y * z)).

Definition jadd (p1 p2 : jac) : jac :=
  let '(x1, y1, z1) := p1 in
  let '(x2, y2, z2) := p2 in
  if eq_dec z1 0 then p2 else if eq_dec z2 0 then p1 else
  let zz1 := z1 * z1 in let zz2 := z2 * z2 in
  let u1 := x1 * zz2 in let u2 := x2 * zz1 in
  let s1 := y1 * (zz2 * z2) in let s2 := y2 * (zz1 * z1) in
  if eq_dec u1 u2 then (if eq_dec s1 s2 then jdouble p1 else jinf) else
  let h := u2 - u1 in let r := s2 - s1 in
  let hh := h * h in let hhh := h * hh in let v := u1 * hh in
  let x3 := r * r - hhh - (v + v) in
  (x3, r * (v - x3) - s1 * hhh, h * (z1 * z2)).

Lemma affine_some x y z : z <> 0 -> affine (x, y, z) = Some (x / (z * z), y / (z * z * z)).
Proof. intros N. cbn. destruct (eq_dec z 0); [contradiction|reflexivity]. Qed.

Lemma affine_inf : affine jinf = None.
Proof. cbn. destruct (eq_dec 0 0); [reflexivity|contradiction]. Qed.

Lemma affine_zero x y : affine (x, y, 0) = None.
Proof. cbn. destruct (eq_dec 0 0); [reflexivity|contradiction]. Qed.

Lemma jdouble_ok j : affine (jdouble j) = plus (affine j) (affine j).
Proof.
  destruct j as [[x y] z]. unfold jdouble. destruct (eq_dec z 0) as [->|Z]; [rewrite affine_inf, affine_zero; reflexivity|].
  rewrite (affine_some _ _ _ Z). destruct (eq_dec y 0) as [->|Y].
  - rewrite affine_inf. symmetry. apply plus_opposite. split; [reflexivity|]. field. exact Z.
  - cbn zeta. assert (Z2 : two * (y * z) <> 0) by (repeat apply mul_not_zero; assumption). rewrite (affine_some _ _ _ Z2).
    unfold plus. destruct (eq_dec (x / (z * z)) (x / (z * z))) as [_|N]; [|contradiction].
    destruct (eq_dec (y / (z * z * z) + y / (z * z * z)) 0) as [E|_].
    { exfalso. apply own_negative in E. apply Y. transitivity (y / (z * z * z) * (z * z * z)); [field; exact Z|]. rewrite E. ring. }
    unfold third. f_equal. f_equal; field; repeat split; assumption.
Qed.

Lemma jadd_ok j1 j2 : on (affine j1) -> on (affine j2) -> affine (jadd j1 j2) = plus (affine j1) (affine j2).
Proof.
  destruct j1 as [[x1 y1] z1], j2 as [[x2 y2] z2]. intros A B. unfold jadd. destruct (eq_dec z1 0) as [->|Z1]; [rewrite affine_zero; reflexivity|].
  destruct (eq_dec z2 0) as [->|Z2]; [rewrite affine_zero, plus_none; reflexivity|]. cbn zeta.
  assert (U : x1 * (z2 * z2) = x2 * (z1 * z1) <-> x1 / (z1 * z1) = x2 / (z2 * z2)).
  { split; intros H.
    - transitivity (x1 * (z2 * z2) / (z1 * z1 * (z2 * z2))); [field; repeat split; assumption|]. rewrite H. field. repeat split; assumption.
    - transitivity (x1 / (z1 * z1) * (z1 * z1 * (z2 * z2))); [field; repeat split; assumption|]. rewrite H. field. repeat split; assumption. }
  assert (V : y1 * (z2 * z2 * z2) = y2 * (z1 * z1 * z1) <-> y1 / (z1 * z1 * z1) = y2 / (z2 * z2 * z2)).
  { split; intros H.
    - transitivity (y1 * (z2 * z2 * z2) / (z1 * z1 * z1 * (z2 * z2 * z2))); [field; repeat split; assumption|]. rewrite H. field. repeat split; assumption.
    - transitivity (y1 / (z1 * z1 * z1) * (z1 * z1 * z1 * (z2 * z2 * z2))); [field; repeat split; assumption|]. rewrite H. field. repeat split; assumption. }
  destruct (eq_dec (x1 * (z2 * z2)) (x2 * (z1 * z1))) as [E|E].
  - destruct (eq_dec (y1 * (z2 * z2 * z2)) (y2 * (z1 * z1 * z1))) as [E2|E2].
    + rewrite jdouble_ok. f_equal. apply U in E. apply V in E2. rewrite (affine_some _ _ _ Z1), (affine_some _ _ _ Z2), E, E2. reflexivity.
    + rewrite affine_inf. rewrite (affine_some _ _ _ Z1), (affine_some _ _ _ Z2) in *. symmetry. apply plus_opposite. apply U in E. split; [exact E|].
      rewrite E in A. destruct (same_x _ _ _ A B) as [Y|Y]; [|exact Y]. apply V in Y. contradiction.
  - assert (H0 : x2 * (z1 * z1) - x1 * (z2 * z2) <> 0) by (intros H; apply E; symmetry; apply eq_of_sub, H).
    assert (Z3 : (x2 * (z1 * z1) - x1 * (z2 * z2)) * (z1 * z2) <> 0) by (repeat apply mul_not_zero; assumption).
    rewrite (affine_some _ _ _ Z3), (affine_some _ _ _ Z1), (affine_some _ _ _ Z2). unfold plus.
    destruct (eq_dec (x1 / (z1 * z1)) (x2 / (z2 * z2))) as [X|X]; [apply U in X; contradiction|].
    unfold third. f_equal. f_equal; field; repeat split; assumption.
Qed.

Fixpoint jtimes (k : positive) (j : jac) : jac :=
  match k with
  | xH => j
  | xO k => jdouble (jtimes k j)
  | xI k => jadd j (jdouble (jtimes k j))
  end.

Theorem jtimes_ok k j : on (affine j) -> affine (jtimes k j) = times k (affine j).
Proof.
  intros A. induction k as [k IH|k IH|]; cbn [jtimes times]; cbn zeta.
  - assert (D : on (affine (jdouble (jtimes k j)))) by (rewrite jdouble_ok, IH; apply plus_on; apply times_on, A).
    rewrite jadd_ok by assumption. rewrite jdouble_ok, IH. reflexivity.
  - rewrite jdouble_ok, IH. reflexivity.
  - reflexivity.
Qed.

(** The x coordinate, 0 for the point at infinity. *)
Definition px (p : pt) : F := match p with Some (x, _) => x | None => 0 end.
Definition jx (j : jac) : F := let '(x, _, z) := j in x * inv (z * z).

Definition normal (j : jac) : Prop := let '(_, _, z) := j in z = 0 -> j = jinf.

Lemma jdouble_normal j : normal (jdouble j).
Proof.
  destruct j as [[x y] z]. unfold jdouble. destruct (eq_dec z 0) as [_|Z]; [intros _; reflexivity|]. destruct (eq_dec y 0) as [_|Y]; [intros _; reflexivity|].
  cbn zeta. intros H. exfalso. revert H. repeat apply mul_not_zero; assumption.
Qed.

Lemma jadd_normal j1 j2 : normal j1 -> normal j2 -> normal (jadd j1 j2).
Proof.
  destruct j1 as [[x1 y1] z1], j2 as [[x2 y2] z2]. intros A B. unfold jadd. destruct (eq_dec z1 0) as [_|Z1]; [exact B|]. destruct (eq_dec z2 0) as [_|Z2]; [exact A|].
  cbn zeta. destruct (eq_dec (x1 * (z2 * z2)) (x2 * (z1 * z1))) as [E|E].
  - destruct (eq_dec _ _) as [_|_]; [apply jdouble_normal|intros _; reflexivity].
  - intros H. exfalso. revert H. repeat apply mul_not_zero; try assumption. intros H. apply E. symmetry. apply eq_of_sub, H.
Qed.

Lemma jtimes_normal k j : normal j -> normal (jtimes k j).
Proof.
  intros A. induction k as [k IH|k IH|]; cbn [jtimes]; [apply jadd_normal; [exact A|apply jdouble_normal]|apply jdouble_normal|exact A].
Qed.

Lemma jx_px j : normal j -> jx j = px (affine j).
Proof.
  destruct j as [[x y] z]. intros A. destruct (eq_dec z 0) as [->|Z].
  - rewrite affine_zero. specialize (A eq_refl). injection A as -> _. cbn. ring.
  - rewrite (affine_some _ _ _ Z). cbn. field. exact Z.
Qed.

Lemma px_neg p : px (neg p) = px p.
Proof. destruct p as [[x y]|]; reflexivity. Qed.

(** ** The map behind ElligatorSwift

    Of the three candidate x coordinates the product of the right sides of the curve equation is a square. *)

Lemma swift_product u t c X Y :
  c * c = - three -> c <> 0 -> u <> 0 -> t <> 0 -> u * u * u + b + t * t <> 0 ->
  X = (u * u * u + b - t * t) / (t + t) -> Y = (X + t) / (c * u) ->
  let x1 := u + two * two * (Y * Y) in let x2 := (- (X / Y) - u) / two in let x3 := (X / Y - u) / two in
  exists s, (x1 * x1 * x1 + b) * (x2 * x2 * x2 + b) * (x3 * x3 * x3 + b) = s * s.
Proof.
  intros C C0 U0 T0 NZ EX EY x1 x2 x3. assert (TT : t + t <> 0). { intros H. apply T0, own_negative, H. }
  assert (X2 : (t + t) * X = u * u * u + b - t * t) by (rewrite EX; field; exact TT).
  assert (XT : X + t <> 0).
  { intros H. apply NZ. transitivity ((t + t) * X + t * t + t * t); [rewrite X2; ring|]. transitivity ((t + t) * (X + t)); [ring|]. rewrite H. ring. }
  assert (YC : c * u * Y = X + t) by (rewrite EY; field; split; assumption).
  assert (Y0 : Y <> 0). { intros H. apply XT. rewrite <- YC, H. ring. }
  set (q := X / Y) in *. assert (Q : q * Y = X) by (unfold q; field; exact Y0). clearbody q. clear EX EY.
  assert (V : x3 + x3 = q - u) by (unfold x3; field; exact two_not_zero).
  assert (W : x2 = - u - x3) by (unfold x2, x3; field; exact two_not_zero).
  set (w := two * two * (Y * Y)) in *. set (m := u * u + u * x3 + x3 * x3).
  assert (M4 : two * two * m = q * q + three * (u * u)).
  { transitivity (two * two * (u * u) + two * u * (x3 + x3) + (x3 + x3) * (x3 + x3)); [unfold m; ring|]. rewrite V. ring. }
  assert (WM : w * m = - (u * u * u + b)).
  { transitivity (Y * Y * (two * two * m)); [unfold w; ring|]. rewrite M4. transitivity ((q * Y) * (q * Y) - (- three) * (u * u) * (Y * Y)); [ring|]. rewrite Q, <- C.
    transitivity (X * X - (c * u * Y) * (c * u * Y)); [ring|]. rewrite YC. transitivity (- ((t + t) * X) - t * t); [ring|]. rewrite X2. ring. }
  assert (B : b = - (w * m) - u * u * u) by (rewrite WM; ring).
  exists (two * Y * m * (u + w - x3) * (two * u + x3 + w)). unfold x1. rewrite W. rewrite B.
  transitivity (w * (u + w - x3) * (two * u + w + x3) * (- m * (two * u + x3 + w)) * (m * (x3 - u - w))); [unfold m; ring|]. unfold w. ring.
Qed.

Lemma roots x a : x * x = a * a -> x = a \/ x = - a.
Proof.
  intros H. assert (Z : (x - a) * (x + a) = 0) by (transitivity (x * x - a * a); [ring|rewrite H; ring]). apply mul_zero in Z.
  destruct Z as [Z|Z]; [left; apply eq_of_sub, Z|right]. apply eq_of_sub. rewrite <- Z. ring.
Qed.

Lemma doubled g t : t <> 0 -> g + t * t = 0 -> t + t <> 0 /\ g + (t + t) * (t + t) <> 0.
Proof.
  intros T H. split; [intros Z; apply T, own_negative, Z|]. intros Z.
  assert (Q : three * (t * t) = 0) by (transitivity (g + (t + t) * (t + t) - (g + t * t)); [ring|rewrite Z, H; ring]).
  revert Q. repeat apply mul_not_zero; assumption.
Qed.

Lemma third_square f g h r1 r2 s : f <> 0 -> g <> 0 -> r1 * r1 = - f -> r2 * r2 = - g -> f * g * h = s * s -> exists r, r * r = h.
Proof.
  intros F0 G0 R1 R2 H. exists (s / (r1 * r2)).
  assert (Z1 : r1 <> 0). { intros Z. apply F0. transitivity (- (r1 * r1)); [rewrite R1; ring|rewrite Z; ring]. }
  assert (Z2 : r2 <> 0). { intros Z. apply G0. transitivity (- (r2 * r2)); [rewrite R2; ring|rewrite Z; ring]. }
  transitivity (s * s / ((r1 * r1) * (r2 * r2))); [field; split; assumption|]. rewrite R1, R2, <- H.
  replace (- f * - g) with (f * g) by ring. field. split; assumption.
Qed.

(** The equations of the sum. *)

Lemma third_eqs l x1 y1 x2 : let x3 := l * l - x1 - x2 in x1 + x2 + x3 = l * l /\ - (y1 + l * (x3 - x1)) + y1 + l * x3 = l * x1.
Proof. split; ring. Qed.

Lemma chord_eq x1 y1 x2 y2 : x1 <> x2 -> (y2 - y1) / (x2 - x1) * x2 + y1 = (y2 - y1) / (x2 - x1) * x1 + y2.
Proof. intros E. field. intros H. apply E. symmetry. apply eq_of_sub, H. Qed.

Lemma tangent_eq x y : y + y <> 0 -> three * (x * x) / (two * y) * (two * y) = three * (x * x).
Proof. intros Z. assert (Y : y <> 0). { intros H. apply Z. rewrite H. ring. } field. split; assumption. Qed.

Lemma third_unique l x1 y1 x2 x3 y3 : x1 + x2 + x3 = l * l -> y3 + y1 + l * x3 = l * x1 -> third l x1 y1 x2 = Some (x3, y3).
Proof.
  intros X Y. unfold third. assert (E : l * l - x1 - x2 = x3) by (rewrite <- X; ring). rewrite E. cbv zeta. f_equal. f_equal.
  transitivity (y3 + y1 + l * x3 - y1 - l * x3); [|ring]. rewrite Y. ring.
Qed.

Lemma chord_unique l x1 y1 x2 y2 : x1 <> x2 -> l * x2 + y1 = l * x1 + y2 -> l = (y2 - y1) / (x2 - x1).
Proof.
  intros E H. assert (D : x2 - x1 <> 0). { intros Z. apply E. symmetry. apply eq_of_sub, Z. }
  apply (cancel_mul (x2 - x1)); [exact D|]. transitivity (y2 - y1); [|field; exact D].
  transitivity (l * x2 + y1 - l * x1 - y1); [ring|]. rewrite H. ring.
Qed.

Lemma tangent_unique l x y : y + y <> 0 -> l * (two * y) = three * (x * x) -> l = three * (x * x) / (two * y).
Proof.
  intros Z H. assert (Y : y <> 0). { intros Q. apply Z. rewrite Q. ring. }
  apply (cancel_mul (two * y)); [apply mul_not_zero; assumption|]. transitivity (l * (two * y)); [ring|]. rewrite H. field. split; assumption.
Qed.

End Curve.
