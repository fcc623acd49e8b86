(** * PolyProofs: Poly1305 as a polynomial, and how many keys two tags leave *)
From Coq.Strings Require Import Byte.
From Coq Require Import List NArith ZArith Znumtheory Bool Lia.
From Coq Require Import ZifyBool ZifyNat ZifyN.
From Verif Require Import Base BaseFacts Env Rfc Primes PolyPrime.
Import ListNotations.
Local Open Scope Z_scope.

(** ** Roots of a polynomial modulo a prime *)

Section Roots.
Variable p : Z.
Hypothesis P : prime p.

(** The coefficient of the lowest power first. *)
Fixpoint value (cs : list Z) (x : Z) : Z := match cs with [] => 0 | c :: cs => c + x * value cs x end.

Fixpoint quotient (a : Z) (cs : list Z) : list Z :=
  match cs with [] => [] | [_] => [] | _ :: cs => value cs a :: quotient a cs end.

Lemma quotient_length a cs : length (quotient a cs) = pred (length cs).
Proof. induction cs as [|c [|c' cs] IH]; [reflexivity..|]. cbn [quotient length pred] in *. now rewrite IH. Qed.

Lemma quotient_ok a x cs : value cs x = value cs a + (x - a) * value (quotient a cs) x.
Proof.
  induction cs as [|c [|c' cs] IH]; [cbn; ring..|].
  change (value (c :: c' :: cs) x) with (c + x * value (c' :: cs) x). change (value (c :: c' :: cs) a) with (c + a * value (c' :: cs) a).
  change (quotient a (c :: c' :: cs)) with (value (c' :: cs) a :: quotient a (c' :: cs)).
  cbn [value] in *. fold value in *. rewrite IH. ring.
Qed.

Definition vanishes (cs : list Z) : Prop := Forall (fun c => (p | c)) cs.

Lemma quotient_vanishes a cs : (p | value cs a) -> vanishes (quotient a cs) -> vanishes cs.
Proof.
  unfold vanishes. induction cs as [|c [|c' cs] IH]; intros D V; [constructor| |].
  - constructor; [|constructor]. cbn in D. now rewrite Z.mul_0_r, Z.add_0_r in D.
  - change (quotient a (c :: c' :: cs)) with (value (c' :: cs) a :: quotient a (c' :: cs)) in V.
    inversion V as [|y l V1 V2]; subst. constructor; [|now apply IH].
    change (value (c :: c' :: cs) a) with (c + a * value (c' :: cs) a) in D.
    replace c with (c + a * value (c' :: cs) a - a * value (c' :: cs) a) by ring. apply Z.divide_sub_r; [exact D|]. now apply Z.divide_mul_r.
Qed.

Lemma few_roots : forall n cs l, length cs = n -> ~ vanishes cs -> NoDup l ->
  (forall x, In x l -> 0 <= x < p /\ (p | value cs x)) -> (length l <= pred (length cs))%nat.
Proof.
  induction n as [|n IH]; intros cs l L V ND R.
  - destruct cs; [|discriminate]. exfalso. apply V. constructor.
  - destruct l as [|a l]; [cbn; lia|]. inversion ND as [|y m Na NDl]; subst.
    destruct (R a (or_introl eq_refl)) as (Ra & Da).
    assert (~ vanishes (quotient a cs)) as V'. { intros X. apply V. exact (quotient_vanishes a cs Da X). }
    assert (length (quotient a cs) = n) as L' by (rewrite quotient_length; lia).
    pose proof (IH (quotient a cs) l L' V' NDl) as H. rewrite L' in H.
    assert (0 < n)%nat. { destruct n; [|lia]. destruct (quotient a cs) eqn:Q; [|discriminate]. exfalso. apply V'. constructor. }
    enough (length l <= pred n)%nat by (cbn [length]; lia). apply H.
    intros x I. destruct (R x (or_intror I)) as (Rx & Dx). split; [exact Rx|].
    rewrite (quotient_ok a x) in Dx. assert (p | (x - a) * value (quotient a cs) x) as D.
    { replace ((x - a) * value (quotient a cs) x) with (value cs a + (x - a) * value (quotient a cs) x - value cs a) by ring. now apply Z.divide_sub_r. }
    apply prime_mult in D; [|exact P]. destruct D as [D|D]; [|exact D].
    exfalso. assert (x = a) as ->; [|contradiction]. destruct D as (k & D). assert (k = 0) by nia. subst k. lia.
Qed.

(** All the roots. *)
Definition roots (cs : list Z) : list Z :=
  filter (fun x => value cs x mod p =? 0) (map Z.of_nat (seq 0 (Z.to_nat p))).

Lemma in_roots cs x : In x (roots cs) <-> 0 <= x < p /\ (p | value cs x).
Proof.
  pose proof (prime_ge_2 _ P) as P2. unfold roots. rewrite filter_In, in_map_iff, Z.eqb_eq, Z.mod_divide by lia. split.
  - intros ((n & <- & H) & D). apply in_seq in H. split; [lia|exact D].
  - intros (H & D). split; [|exact D]. exists (Z.to_nat x). split; [lia|]. apply in_seq. lia.
Qed.

Lemma roots_few cs : ~ vanishes cs -> (length (roots cs) <= pred (length cs))%nat.
Proof.
  intros V. apply (few_roots (length cs) cs); [reflexivity|exact V| |].
  - apply NoDup_filter. apply FinFun.Injective_map_NoDup; [intros a b; apply Nat2Z.inj|apply seq_NoDup].
  - intros x I. now apply in_roots.
Qed.

End Roots.

(** ** The numbers that a message is made of *)

(** The blocks of a message as numbers, the first block first. *)
Fixpoint numbers (fuel : nat) (msg : bytes) : list Z :=
  match fuel, msg with
  | S fuel, _ :: _ => Z.of_N (le_val (take 16 msg) + 2 ^ (8 * len (take 16 msg))) :: numbers fuel (drop 16 msg)
  | _, _ => []
  end.

Definition horner (r : Z) (acc : Z) (cs : list Z) : Z := fold_left (fun a c => (a + c) * r) cs acc.

Lemma poly_p_130 : Z.of_N poly_p = p130. Proof. reflexivity. Qed.

Lemma poly_blocks_horner fuel : forall r acc msg,
  Z.of_N (poly_blocks fuel r acc msg) mod p130 = horner (Z.of_N r) (Z.of_N acc) (numbers fuel msg) mod p130.
Proof.
  assert (S : forall r cs a b, a mod p130 = b mod p130 -> horner r a cs mod p130 = horner r b cs mod p130).
  { induction cs as [|c cs IH]; intros a b H; [exact H|]. cbn [horner fold_left]. apply IH.
    rewrite (Z.mul_mod (a + c)), (Z.mul_mod (b + c)), (Z.add_mod a), (Z.add_mod b), H by discriminate. reflexivity. }
  induction fuel as [|fuel IH]; intros r acc msg; [reflexivity|]. destruct msg as [|x msg]; [reflexivity|].
  set (msg' := x :: msg).
  change (poly_blocks (Datatypes.S fuel) r acc msg') with
    (poly_blocks fuel r (((acc + le_val (take 16 msg') + 2 ^ (8 * len (take 16 msg'))) * r) mod poly_p)%N (drop 16 msg')).
  change (numbers (Datatypes.S fuel) msg') with (Z.of_N (le_val (take 16 msg') + 2 ^ (8 * len (take 16 msg'))) :: numbers fuel (drop 16 msg')).
  rewrite IH. cbn [horner fold_left]. apply S. rewrite N2Z.inj_mod, poly_p_130, Z.mod_mod by discriminate. f_equal. lia.
Qed.

Lemma poly_blocks_bound fuel : forall r acc msg, (acc < poly_p)%N -> (poly_blocks fuel r acc msg < poly_p)%N.
Proof.
  induction fuel as [|fuel IH]; intros r acc msg H; [exact H|]. destruct msg as [|x msg]; [exact H|].
  cbn [poly_blocks]. apply IH. apply N.mod_lt. discriminate.
Qed.

Lemma horner_value r cs : forall acc, horner r acc cs = r * value (rev cs) r + acc * r ^ Z.of_nat (length cs).
Proof.
  assert (A : forall l c, value (l ++ [c]) r = value l r + c * r ^ Z.of_nat (length l)).
  { induction l as [|y l IH]; intros c; cbn [value app length]; [cbn; ring|]. rewrite IH, Nat2Z.inj_succ, Z.pow_succ_r by lia. ring. }
  induction cs as [|c cs IH]; intros acc; [cbn; ring|]. cbn [horner fold_left]. fold (horner r ((acc + c) * r) cs). rewrite IH.
  cbn [rev length]. rewrite A, rev_length, Nat2Z.inj_succ, Z.pow_succ_r by lia. ring.
Qed.

Lemma number_inj b b' : (le_val b + 2 ^ (8 * len b) = le_val b' + 2 ^ (8 * len b'))%N -> b = b'.
Proof.
  assert (Pw : forall n, (2 ^ (8 * n) = 256 ^ n)%N) by (intros; now rewrite N.pow_mul_r).
  intros H. rewrite !Pw in H.
  pose proof (le_val_bound b) as B. pose proof (le_val_bound b') as B'.
  assert (Lt : forall m n, (m < n -> 256 * 256 ^ m <= 256 ^ n)%N).
  { intros m n L. rewrite <- N.pow_succ_r'. apply N.pow_le_mono_r; lia. }
  assert (len b = len b') as L.
  { destruct (N.lt_trichotomy (len b) (len b')) as [X|[X|X]]; [|exact X|]; apply Lt in X; lia. }
  rewrite L in H. assert (le_val b = le_val b') as V by lia.
  rewrite <- (le_bytes_le_val b), <- (le_bytes_le_val b'), V. f_equal. unfold len in L. lia.
Qed.

Lemma cons_inj {A} (x y : A) l l' : x :: l = y :: l' -> x = y /\ l = l'.
Proof. intros H. injection H. auto. Qed.

Lemma numbers_inj n : forall n' m m', (length m <= n)%nat -> (length m' <= n')%nat -> numbers n m = numbers n' m' -> m = m'.
Proof.
  induction n as [|n IH]; intros n' m m' L L' H.
  - destruct m; [|cbn in L; lia]. destruct n', m'; try reflexivity; [cbn in L'; lia|discriminate H].
  - destruct m as [|x m]; [destruct n', m'; try reflexivity; [cbn in L'; lia|discriminate H]|].
    destruct n' as [|n']; [discriminate H|]. destruct m' as [|x' m']; [discriminate H|].
    set (a := x :: m) in *. set (a' := x' :: m') in *.
    change (Z.of_N (le_val (take 16 a) + 2 ^ (8 * len (take 16 a))) :: numbers n (drop 16 a) =
            Z.of_N (le_val (take 16 a') + 2 ^ (8 * len (take 16 a'))) :: numbers n' (drop 16 a')) in H.
    apply cons_inj in H. destruct H as [H1 H2]. apply N2Z.inj, number_inj in H1.
    apply IH in H2; [rewrite <- (take_drop 16 a), <- (take_drop 16 a'); congruence| |].
    + subst a. cbn [length] in L. pose proof (len_drop 16 (x :: m)) as D. unfold len in D. cbn [length] in D. lia.
    + subst a'. cbn [length] in L'. pose proof (len_drop 16 (x' :: m')) as D. unfold len in D. cbn [length] in D. lia.
Qed.

Lemma numbers_range n : forall m, Forall (fun c => 0 < c < p130) (numbers n m).
Proof.
  induction n as [|n IH]; intros m; [constructor|]. destruct m as [|x m]; [constructor|]. set (a := x :: m).
  change (numbers (S n) a) with (Z.of_N (le_val (take 16 a) + 2 ^ (8 * len (take 16 a))) :: numbers n (drop 16 a)).
  constructor; [|apply IH]. pose proof (le_val_bound (take 16 a)) as B.
  assert (len (take 16 a) <= 16)%N as L by (rewrite len_take; lia).
  assert (256 ^ len (take 16 a) <= 2 ^ 128)%N as B2. { change (2 ^ 128)%N with (256 ^ 16)%N. apply N.pow_le_mono_r; lia. }
  rewrite N.pow_mul_r. change (2 ^ 8)%N with 256%N. assert (0 < 256 ^ len (take 16 a))%N by (apply N.neq_0_lt_0, N.pow_nonzero; lia).
  change p130 with (Z.of_N 1361129467683753853853498429727072845819). change (2 ^ 128)%N with 340282366920938463463374607431768211456%N in B2. lia.
Qed.

Lemma numbers_length n : forall m, (length m <= n)%nat -> N.of_nat (length (numbers n m)) = ((len m + 15) / 16)%N.
Proof.
  induction n as [|n IH]; intros m L; [destruct m; [reflexivity|cbn in L; lia]|]. destruct m as [|x m]; [reflexivity|]. set (a := x :: m) in *.
  change (numbers (S n) a) with (Z.of_N (le_val (take 16 a) + 2 ^ (8 * len (take 16 a))) :: numbers n (drop 16 a)).
  cbn [length]. rewrite Nat2N.inj_succ, IH.
  - rewrite len_drop. assert (0 < len a)%N by (unfold a; rewrite len_cons; lia).
    destruct (N.le_gt_cases 16 (len a)).
    + replace (len a + 15)%N with (len a - 16 + 15 + 1 * 16)%N by lia. rewrite N.div_add by discriminate. lia.
    + replace (len a - 16)%N with 0%N by lia. change ((0 + 15) / 16)%N with 0%N.
      apply (N.div_unique _ _ _ (len a - 1)); lia.
  - subst a. cbn [length] in L. pose proof (len_drop 16 (x :: m)) as D. unfold len in D. cbn [length] in D. lia.
Qed.

(** ** The difference of two polynomials *)

Fixpoint minus (l l' : list Z) : list Z :=
  match l, l' with
  | [], _ => map Z.opp l'
  | _, [] => l
  | c :: l, c' :: l' => (c - c') :: minus l l'
  end.

Lemma minus_value l : forall l' x, value (minus l l') x = value l x - value l' x.
Proof.
  induction l as [|c l IH]; intros l' x.
  - cbn [minus value]. induction l' as [|c' l' IH']; cbn [map value]; [ring|]. rewrite IH'. ring.
  - destruct l' as [|c' l']; cbn [minus value]; [ring|]. rewrite IH. ring.
Qed.

Lemma minus_length l : forall l', length (minus l l') = Nat.max (length l) (length l').
Proof.
  induction l as [|c l IH]; intros l'; cbn [minus]; [now rewrite map_length|]. destruct l' as [|c' l']; [reflexivity|]. cbn [length]. rewrite IH. reflexivity.
Qed.

Lemma minus_vanishes l : forall l', Forall (fun c => 0 < c < p130) l -> Forall (fun c => 0 < c < p130) l' ->
  vanishes p130 (minus l l') -> l = l'.
Proof.
  assert (N0 : forall c, 0 < c < p130 -> (p130 | c) -> False) by (intros c B D; apply Z.divide_pos_le in D; lia).
  induction l as [|c l IH]; intros l' F F' V.
  - destruct l' as [|c' l']; [reflexivity|]. exfalso. inversion V as [|y z V1 V2]; subst. inversion F' as [|y z B1 B2]; subst.
    apply (Z.divide_opp_r p130 c') in V1. exact (N0 _ B1 V1).
  - destruct l' as [|c' l'].
    + exfalso. inversion V as [|y z V1 V2]; subst. inversion F as [|y z B1 B2]; subst. exact (N0 _ B1 V1).
    + cbn [minus] in V. inversion V as [|y z V1 V2]; subst. inversion F as [|y z B1 B2]; subst. inversion F' as [|y z B1' B2']; subst.
      rewrite (IH l' B2 B2' V2). f_equal. destruct V1 as (k & V1). assert (k = 0) by nia. subst k. lia.
Qed.

(** ** Two tags *)

Definition hash (r : N) (msg : bytes) : N := poly_blocks (length msg) r 0 msg.
Definition block_count (msg : bytes) : N := ((len msg + 15) / 16)%N.

Definition difference (delta : Z) (m m' : bytes) : list Z :=
  (- delta) :: minus (rev (numbers (length m) m)) (rev (numbers (length m') m')).

Definition two_tags (m m' : bytes) (t t' : N) : list N :=
  map Z.to_N (List.concat (map (fun k => roots p130 (difference ((Z.of_N t - Z.of_N t') mod 2 ^ 128 + 2 ^ 128 * k) m m')) [-4; -3; -2; -1; 0; 1; 2; 3])).

Lemma hash_root r m m' : (p130 | value (difference (Z.of_N (hash r m) - Z.of_N (hash r m')) m m') (Z.of_N r)).
Proof.
  unfold difference. cbn [value]. rewrite minus_value.
  pose proof (poly_blocks_horner (length m) r 0 m) as H. pose proof (poly_blocks_horner (length m') r 0 m') as H'.
  rewrite horner_value, Z.mul_0_l, Z.add_0_r in H, H'. fold (hash r m) in H. fold (hash r m') in H'.
  apply mod_eq_divide in H; [|reflexivity]. apply mod_eq_divide in H'; [|reflexivity].
  set (v := value (rev (numbers (length m) m)) (Z.of_N r)) in *. set (v' := value (rev (numbers (length m') m')) (Z.of_N r)) in *.
  match goal with |- (_ | ?e) => replace e with ((Z.of_N (hash r m') - Z.of_N r * v') - (Z.of_N (hash r m) - Z.of_N r * v)) by ring end.
  now apply Z.divide_sub_r.
Qed.

Lemma in_two_tags m m' r s : (r < poly_p)%N ->
  In r (two_tags m m' ((hash r m + s) mod 2 ^ 128) ((hash r m' + s) mod 2 ^ 128)).
Proof.
  intros R. unfold two_tags. apply in_map_iff. exists (Z.of_N r). split; [apply N2Z.id|]. apply in_concat.
  assert (hash r m < poly_p)%N as B by (apply poly_blocks_bound; reflexivity).
  assert (hash r m' < poly_p)%N as B' by (apply poly_blocks_bound; reflexivity).
  set (h := hash r m) in *. set (h' := hash r m') in *.
  set (d := Z.of_N h - Z.of_N h').
  assert (((Z.of_N ((h + s) mod 2 ^ 128) - Z.of_N ((h' + s) mod 2 ^ 128)) mod 2 ^ 128) = d mod 2 ^ 128) as Q.
  { rewrite !N2Z.inj_mod, !N2Z.inj_add. change (Z.of_N (2 ^ 128)) with (2 ^ 128). rewrite <- Zminus_mod. f_equal. unfold d. ring. }
  rewrite Q. exists (roots p130 (difference (d mod 2 ^ 128 + 2 ^ 128 * (d / 2 ^ 128)) m m')). split.
  - apply in_map_iff. exists (d / 2 ^ 128). split; [reflexivity|].
    assert (-4 <= d / 2 ^ 128 <= 3) as X.
    { assert (Z.of_N poly_p < 4 * 2 ^ 128) by reflexivity.
      split; [apply Z.div_le_lower_bound; [reflexivity|lia]|]. apply Z.lt_succ_r. apply Z.div_lt_upper_bound; [reflexivity|lia]. }
    set (k := d / 2 ^ 128) in *. clearbody k.
    assert (k = -4 \/ k = -3 \/ k = -2 \/ k = -1 \/ k = 0 \/ k = 1 \/ k = 2 \/ k = 3) as Y by lia. clear - Y. cbn. intuition auto.
  - rewrite Z.add_comm, <- Z.div_mod by discriminate. apply in_roots; [exact prime_p130|]. split; [split; [lia|]|apply hash_root].
    rewrite <- poly_p_130. lia.
Qed.

Lemma two_tags_few m m' t t' : m <> m' -> (len (two_tags m m' t t') <= 8 * N.max (block_count m) (block_count m'))%N.
Proof.
  intros Ne. unfold two_tags, len. rewrite map_length.
  assert (F : forall delta, (length (roots p130 (difference delta m m')) <= Nat.max (length (numbers (length m) m)) (length (numbers (length m') m')))%nat).
  { intros delta. etransitivity; [apply (roots_few p130 prime_p130)|].
    - intros V. unfold vanishes, difference in V. inversion V as [|y z _ V2]; subst. apply Ne.
      apply (numbers_inj (length m) (length m')); [lia|lia|]. rewrite <- (rev_involutive (numbers _ m)), <- (rev_involutive (numbers _ m')). f_equal.
      apply minus_vanishes; [apply Forall_rev, numbers_range..|exact V2].
    - unfold difference. cbn [length pred]. rewrite minus_length, !rev_length. lia. }
  assert (G : forall ks, (length (List.concat (map (fun k => roots p130 (difference ((Z.of_N t - Z.of_N t') mod 2 ^ 128 + 2 ^ 128 * k) m m')) ks)) <=
    length ks * Nat.max (length (numbers (length m) m)) (length (numbers (length m') m')))%nat).
  { induction ks as [|k ks IH]; [cbn; lia|]. cbn [map List.concat length Nat.mul]. rewrite app_length.
    specialize (F ((Z.of_N t - Z.of_N t') mod 2 ^ 128 + 2 ^ 128 * k)). lia. }
  specialize (G [-4; -3; -2; -1; 0; 1; 2; 3]). cbn [length] in G.
  unfold block_count. rewrite <- (numbers_length (length m) m), <- (numbers_length (length m') m') by lia. 
  match type of G with (length ?l <= _)%nat => set (n := length l) in * end. clearbody n. lia.
Qed.
