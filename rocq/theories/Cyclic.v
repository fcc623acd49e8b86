(** * Cyclic: multiples of an element of prime order, and when they are the whole group

    A commutative group on the elements that satisfy [on], an element [g] of odd prime order [n].  If no other element than zero is
    its own negative, and there are fewer than [3 n] elements, every element is a multiple of [g]: otherwise the multiples of [g], the
    same moved by an element [p] that is none, and moved by [p + p], would be [3 n] different elements. *)
From Coq Require Import List Arith ZArith Znumtheory Lia.
Import ListNotations.
Local Open Scope nat_scope.

Section Cyclic.
Variables (A : Type) (zero : A) (plus : A -> A -> A) (neg : A -> A) (on : A -> Prop).
Hypothesis eq_dec : forall p q : A, {p = q} + {p <> q}.
Hypothesis zero_on : on zero.
Hypothesis plus_on : forall p q, on p -> on q -> on (plus p q).
Hypothesis neg_on : forall p, on p -> on (neg p).
Hypothesis zero_plus : forall p, plus zero p = p.
Hypothesis plus_comm : forall p q, on p -> on q -> plus p q = plus q p.
Hypothesis plus_assoc : forall p q r, on p -> on q -> on r -> plus (plus p q) r = plus p (plus q r).
Hypothesis plus_neg : forall p, on p -> plus p (neg p) = zero.

Fixpoint times (k : nat) (p : A) : A := match k with O => zero | S k => plus p (times k p) end.

Lemma times_on k p : on p -> on (times k p).
Proof. intros P. induction k; cbn [times]; [exact zero_on|]. apply plus_on; assumption. Qed.

Lemma times_add j k p : on p -> times (j + k) p = plus (times j p) (times k p).
Proof.
  intros P. induction j as [|j IH]; cbn [times Nat.add]; [symmetry; apply zero_plus|]. rewrite IH. symmetry. apply plus_assoc; [exact P|apply times_on, P..].
Qed.

Lemma times_zero k : times k zero = zero.
Proof. induction k as [|k IH]; cbn [times]; [reflexivity|]. rewrite IH. apply zero_plus. Qed.

Lemma times_mul j k p : on p -> times (j * k) p = times j (times k p).
Proof. intros P. induction j as [|j IH]; cbn [times Nat.mul]; [reflexivity|]. rewrite times_add by exact P. rewrite IH. reflexivity. Qed.

Lemma cancel p q r : on p -> on q -> on r -> plus p q = plus p r -> q = r.
Proof.
  intros P Q R H. rewrite <- (zero_plus q), <- (zero_plus r), <- (plus_neg p P), (plus_comm p (neg p)) by auto.
  rewrite !plus_assoc by auto. rewrite H. reflexivity.
Qed.

Variables (g : A) (n : nat).
Hypothesis g_on : on g.
Hypothesis g_not_zero : g <> zero.
Hypothesis n_prime : prime (Z.of_nat n).
Hypothesis order : times n g = zero.

Lemma n_pos : 1 < n.
Proof. pose proof (prime_ge_2 _ n_prime). lia. Qed.

Lemma times_n k : times (k * n) g = zero.
Proof. rewrite times_mul by exact g_on. rewrite order. apply times_zero. Qed.

Lemma times_mod k : times k g = times (k mod n) g.
Proof.
  pose proof n_pos as N. rewrite (Nat.div_mod k n) at 1 by lia. rewrite times_add by exact g_on. rewrite Nat.mul_comm, times_n. apply zero_plus.
Qed.

(** The multiple is zero only for multiples of the order. *)
Lemma times_zero_iff k : times k g = zero <-> Nat.divide n k.
Proof.
  split; [|intros (c & ->); apply times_n]. intros H. pose proof n_pos as N.
  destruct (Zdivide_dec (Z.of_nat n) (Z.of_nat k)) as [(c & C)|D].
  { exists (Z.to_nat c). assert (0 <= c)%Z by nia. apply Nat2Z.inj. rewrite Nat2Z.inj_mul, Z2Nat.id by assumption. exact C. }
  exfalso. apply g_not_zero. assert (RP : rel_prime (Z.of_nat n) (Z.of_nat k)) by (apply prime_rel_prime; assumption).
  destruct (rel_prime_bezout _ _ RP) as [u v UV].
  assert (W : exists a c : nat, a * k = 1 + c * n).
  { exists (Z.to_nat (v + (Z.abs v + Z.abs u) * Z.of_nat n)), (Z.to_nat ((Z.abs v + Z.abs u) * Z.of_nat k - u)).
    assert (V0 : (0 <= v + (Z.abs v + Z.abs u) * Z.of_nat n)%Z) by nia.
    assert (K : (0 < Z.of_nat k)%Z). { destruct k; [|lia]. exfalso. apply D. exists 0%Z. reflexivity. }
    assert (U0 : (0 <= (Z.abs v + Z.abs u) * Z.of_nat k - u)%Z) by nia.
    apply Nat2Z.inj. rewrite Nat2Z.inj_mul, Nat2Z.inj_add, Nat2Z.inj_mul, !Z2Nat.id by assumption. lia. }
  destruct W as (a & c & W). assert (Q : times (a * k) g = zero) by (rewrite times_mul by exact g_on; rewrite H; apply times_zero).
  rewrite W in Q. cbn [times Nat.add] in Q. rewrite times_n in Q. rewrite plus_comm, zero_plus in Q by assumption. exact Q.
Qed.

Lemma neg_times k : neg (times k g) = times (k * (n - 1)) g.
Proof.
  pose proof n_pos as N. apply (cancel (times k g)); [apply times_on, g_on|apply neg_on, times_on, g_on|apply times_on, g_on|].
  rewrite plus_neg by (apply times_on, g_on). rewrite <- times_add by exact g_on. replace (k + k * (n - 1)) with (k * n) by nia. symmetry. apply times_n.
Qed.

Lemma times_same j k : times j g = times k g <-> j mod n = k mod n.
Proof.
  pose proof n_pos as N. split; intros H; [|rewrite (times_mod j), (times_mod k), H; reflexivity].
  assert (Q : times (j + k * (n - 1)) g = zero).
  { rewrite times_add by exact g_on. rewrite <- neg_times, H. apply plus_neg, times_on, g_on. }
  apply times_zero_iff in Q. destruct Q as (c & C).
  assert (E : j + k * n = k + c * n) by nia. rewrite <- (Nat.mod_add j k n), <- (Nat.mod_add k c n), E by lia. reflexivity.
Qed.

Definition reached (p : A) : Prop := exists k, p = times k g.

Lemma reached_below p : reached p <-> exists k, k < n /\ p = times k g.
Proof.
  split; [|intros (k & _ & H); exists k; exact H]. intros (k & ->). exists (k mod n). pose proof n_pos. split; [apply Nat.mod_upper_bound; lia|apply times_mod].
Qed.

Lemma reached_dec p : {reached p} + {~ reached p}.
Proof.
  assert (D : forall m, {exists k, k < m /\ p = times k g} + {~ exists k, k < m /\ p = times k g}).
  { induction m as [|m IH]; [right; intros (k & K & _); lia|]. destruct IH as [Y|NO]; [left; destruct Y as (k & K & E); exists k; split; [lia|exact E]|].
    destruct (eq_dec p (times m g)) as [E|NE]; [left; exists m; split; [lia|exact E]|]. right. intros (k & K & E).
    destruct (Nat.eq_dec k m) as [->|]; [contradiction|]. apply NO. exists k. split; [lia|exact E]. }
  destruct (D n) as [Y|NO]; [left|right]; rewrite reached_below; assumption.
Qed.

Lemma reached_plus p q : reached p -> reached q -> reached (plus p q).
Proof. intros (j & ->) (k & ->). exists (j + k). symmetry. apply times_add, g_on. Qed.

Lemma reached_sub p j k : on p -> times j g = plus p (times k g) -> reached p.
Proof.
  intros P H. exists (j + k * (n - 1)). rewrite times_add by exact g_on. rewrite <- neg_times, H.
  rewrite plus_assoc by (try assumption; try apply neg_on; apply times_on, g_on). rewrite plus_neg by (apply times_on, g_on). rewrite plus_comm, zero_plus by assumption. reflexivity.
Qed.

Variable h : nat.
Hypothesis n_odd : n = 2 * h + 1.
Hypothesis no_own_negative : forall p, on p -> plus p p = zero -> p = zero.

Lemma halve p : on p -> reached (plus p p) -> reached p.
Proof.
  intros P (k & K). set (q := times (k * h) g). assert (Q : on q) by apply times_on, g_on.
  assert (Z : plus p q = zero).
  { apply no_own_negative; [apply plus_on; assumption|]. rewrite plus_assoc by (try apply plus_on; assumption). rewrite <- (plus_assoc q p q) by assumption.
    rewrite (plus_comm q p) by assumption. rewrite plus_assoc by assumption. rewrite <- plus_assoc by (try apply plus_on; assumption). rewrite K. unfold q. rewrite <- !times_add by exact g_on.
    replace (k + (k * h + k * h)) with (k * n) by (rewrite n_odd; nia). apply times_n. }
  apply (reached_sub p 0 (k * h) P). symmetry. exact Z.
Qed.

Variables (code : A -> nat) (bound : nat).
Hypothesis code_bound : forall p, on p -> code p < bound.
Hypothesis code_inj : forall p q, on p -> on q -> code p = code q -> p = q.
Hypothesis few : bound < 3 * n.

Lemma nodup_moved p : on p -> NoDup (map (fun k => plus p (times k g)) (seq 0 n)).
Proof.
  intros P. assert (S : forall l, NoDup l -> (forall k, In k l -> k < n) -> NoDup (map (fun k => plus p (times k g)) l)).
  { induction 1 as [|k l NI ND IH]; intros B; cbn [map]; constructor; [|apply IH; intros j J; apply B; right; exact J].
    intros I. apply in_map_iff in I. destruct I as (j & E & J). apply cancel in E; [|exact P|apply times_on, g_on..]. apply times_same in E.
    rewrite !Nat.mod_small in E by (apply B; cbn [In]; auto). subst j. contradiction. }
  apply S; [apply seq_NoDup|]. intros k K. apply in_seq in K. lia.
Qed.

Lemma nodup_app {B} (l m : list B) : NoDup l -> NoDup m -> (forall x, In x l -> In x m -> False) -> NoDup (l ++ m).
Proof.
  induction 1 as [|x l NI ND IH]; intros M D; cbn [app]; [exact M|]. constructor.
  - intros I. apply in_app_or in I. destruct I as [I|I]; [contradiction|]. exact (D x (or_introl eq_refl) I).
  - apply IH; [exact M|]. intros y Y. apply D. right. exact Y.
Qed.

Lemma nodup_code (l : list A) : NoDup l -> (forall p, In p l -> on p) -> NoDup (map code l).
Proof.
  induction 1 as [|p l NI ND IH]; intros O; cbn [map]; constructor; [|apply IH; intros q Q; apply O; right; exact Q].
  intros I. apply in_map_iff in I. destruct I as (q & E & Q). apply code_inj in E; [|apply O; right; exact Q|apply O; left; reflexivity]. subst q. contradiction.
Qed.

Theorem all_reached p : on p -> reached p.
Proof.
  intros P. destruct (reached_dec p) as [Y|NO]; [exact Y|exfalso]. pose proof n_pos as N.
  assert (PP : on (plus p p)) by (apply plus_on; assumption).
  set (moved q := map (fun k => plus q (times k g)) (seq 0 n)).
  assert (IN : forall q r, In r (moved q) -> exists k, r = plus q (times k g)).
  { intros q r I. apply in_map_iff in I. destruct I as (k & <- & _). exists k. reflexivity. }
  assert (T : forall k, on (times k g)) by (intros; apply times_on, g_on).
  set (l := moved zero ++ moved p ++ moved (plus p p)).
  assert (ND : NoDup l).
  { apply nodup_app; [apply nodup_moved, zero_on| |].
    - apply nodup_app; [apply nodup_moved, P|apply nodup_moved, PP|]. intros r I J. apply IN in I, J. destruct I as (i & ->), J as (j & E).
      rewrite plus_assoc in E by auto. apply cancel in E; [|auto..]. apply NO. exact (reached_sub p i j P E).
    - intros r I J. apply IN in I. destruct I as (i & ->). rewrite zero_plus in J. apply in_app_or in J. destruct J as [J|J]; apply IN in J; destruct J as (j & E).
      + apply NO. exact (reached_sub p i j P E).
      + apply NO, halve; [exact P|]. exact (reached_sub _ i j PP E). }
  assert (ON : forall q, In q l -> on q).
  { intros q I. unfold l in I. rewrite !in_app_iff in I. destruct I as [I|[I|I]]; apply IN in I; destruct I as (k & ->); apply plus_on; auto. }
  assert (LE : length (map code l) <= length (seq 0 bound)).
  { apply NoDup_incl_length; [apply nodup_code; assumption|]. intros c C. apply in_map_iff in C. destruct C as (q & <- & Q). apply in_seq. pose proof (code_bound q (ON q Q)). lia. }
  rewrite map_length, seq_length in LE. unfold l, moved in LE. rewrite !app_length, !map_length, !seq_length in LE. lia.
Qed.

End Cyclic.
