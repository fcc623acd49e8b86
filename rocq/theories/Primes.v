(** * Primes: Fermat's little theorem, and how to check that a large number is prime

    Pocklington's criterion, with the modular powers in it given step by step so that checking needs no division. *)
From Coq Require Import List ZArith Znumtheory Zpow_facts Lia Permutation.
Import ListNotations.
Local Open Scope Z_scope.

(** ** Fermat *)

Definition product (l : list Z) : Z := fold_right Z.mul 1 l.
Definition residues (p : Z) : list Z := map Z.of_nat (seq 1 (Z.to_nat (p - 1))).

Lemma in_residues p x : 1 < p -> (In x (residues p) <-> 0 < x < p).
Proof.
  intros P. unfold residues. rewrite in_map_iff. split.
  - intros (n & <- & H). apply in_seq in H. lia.
  - intros H. exists (Z.to_nat x). split; [lia|]. apply in_seq. lia.
Qed.

Lemma nodup_residues p : NoDup (residues p).
Proof. unfold residues. apply FinFun.Injective_map_NoDup; [intros a b; apply Nat2Z.inj|apply seq_NoDup]. Qed.

Lemma product_perm l l' : Permutation l l' -> product l = product l'.
Proof. induction 1; cbn [product fold_right] in *; [reflexivity|fold (product l); fold (product l'); congruence|ring|congruence]. Qed.

Lemma product_mod p a l : p <> 0 -> (product (map (fun x => a * x mod p) l)) mod p = (a ^ Z.of_nat (length l) * product l) mod p.
Proof.
  intros P. induction l as [|x l IH]; [reflexivity|]. cbn [map product fold_right length]. fold (product l). fold (product (map (fun x => a * x mod p) l)).
  rewrite Z.mul_mod, Z.mod_mod, IH, <- Z.mul_mod by assumption. f_equal. rewrite Nat2Z.inj_succ, Z.pow_succ_r by lia. ring.
Qed.

Lemma prime_nonzero p x : prime p -> 0 < x < p -> ~ (p | x).
Proof. intros P X D. apply Z.divide_pos_le in D; lia. Qed.

Lemma product_nonzero p l : prime p -> (forall x, In x l -> ~ (p | x)) -> ~ (p | product l).
Proof.
  intros P. induction l as [|x l IH]; intros H D.
  - cbn in D. apply Z.divide_1_r in D. pose proof (prime_ge_2 _ P). lia.
  - cbn [product fold_right] in D. apply prime_mult in D; [|exact P]. destruct D as [D|D]; [exact (H x (or_introl eq_refl) D)|].
    apply IH; [|exact D]. intros y Y. apply H. right. exact Y.
Qed.

Lemma mod_eq_divide p a c : 0 < p -> (a mod p = c mod p <-> (p | a - c)).
Proof.
  intros P. split; intros H.
  - apply Z.mod_divide; [lia|]. rewrite Zminus_mod, H, Z.sub_diag. apply Z.mod_0_l. lia.
  - apply Z.mod_divide in H; [|lia]. replace a with ((a - c) + c) by ring. rewrite Z.add_mod, H by lia. rewrite Z.add_0_l. apply Z.mod_mod. lia.
Qed.

Theorem fermat p a : prime p -> ~ (p | a) -> a ^ (p - 1) mod p = 1.
Proof.
  intros P A. pose proof (prime_ge_2 _ P) as P2.
  assert (PM : Permutation (map (fun x => a * x mod p) (residues p)) (residues p)).
  { apply NoDup_Permutation_bis.
    - assert (G : forall l, NoDup l -> (forall x, In x l -> 0 < x < p) -> NoDup (map (fun x => a * x mod p) l)).
      { induction 1 as [|x l N ND IH]; intros R; cbn [map]; constructor; [|apply IH; intros y Y; apply R; right; exact Y].
        intros I. apply in_map_iff in I. destruct I as (y & E & I). apply mod_eq_divide in E; [|lia]. rewrite <- Z.mul_sub_distr_l in E.
        apply prime_mult in E; [|exact P]. destruct E as [E|E]; [contradiction|].
        pose proof (R x (or_introl eq_refl)) as RX. pose proof (R y (or_intror I)) as RY.
        assert (y = x) as ->; [|contradiction]. destruct E as (k & E). assert (k = 0) by nia. subst k. lia. }
      apply G; [apply nodup_residues|]. intros x X. apply in_residues in X; lia.
    - rewrite map_length. lia.
    - intros y Y. apply in_map_iff in Y. destruct Y as (x & <- & X). apply in_residues in X; [|lia]. apply in_residues; [lia|].
      pose proof (Z.mod_pos_bound (a * x) p ltac:(lia)) as B. assert (NZ : a * x mod p <> 0); [|lia].
      intros Z0. apply Z.mod_divide in Z0; [|lia]. apply prime_mult in Z0; [|exact P]. destruct Z0 as [Z0|Z0]; [contradiction|]. exact (prime_nonzero _ _ P X Z0). }
  apply product_perm in PM. pose proof (product_mod p a (residues p) ltac:(lia)) as E. rewrite PM in E. symmetry in E. apply mod_eq_divide in E; [|lia].
  assert (L : Z.of_nat (length (residues p)) = p - 1) by (unfold residues; rewrite map_length, seq_length; lia). rewrite L in E.
  replace (a ^ (p - 1) * product (residues p) - product (residues p)) with ((a ^ (p - 1) - 1) * product (residues p)) in E by ring.
  apply prime_mult in E; [|exact P]. destruct E as [E|E].
  - apply mod_eq_divide in E; [|lia]. rewrite E. apply Z.mod_1_l. lia.
  - exfalso. revert E. apply product_nonzero; [exact P|]. intros x X. apply prime_nonzero; [exact P|]. apply in_residues in X; lia.
Qed.

(** ** Pocklington *)

Lemma prime_divisor n : 1 < n -> exists r, prime r /\ (r | n).
Proof.
  intros H. assert (G : forall k m, 1 < m -> m <= Z.of_nat k -> exists r, prime r /\ (r | m)).
  { induction k as [|k IH]; intros m M L; [lia|]. destruct (prime_dec m) as [P|P]; [exists m; split; [exact P|apply Z.divide_refl]|].
    apply not_prime_divide in P; [|exact M]. destruct P as (d & D & DM). destruct (IH d ltac:(lia) ltac:(lia)) as (r & R & RD). exists r. split; [exact R|]. eapply Z.divide_trans; eassumption. }
  apply (G (Z.to_nat n)); lia.
Qed.

Lemma small_prime_divisor n : 1 < n -> ~ prime n -> exists r, prime r /\ (r | n) /\ r * r <= n.
Proof.
  intros H NP. apply not_prime_divide in NP; [|exact H]. destruct NP as (d & D & (e & DE)).
  assert (S : exists s, 1 < s /\ (s | n) /\ s * s <= n).
  { destruct (Z_le_gt_dec d e) as [L|L]; [exists d|exists e].
    - split; [lia|]. split; [exists e; exact DE|]. rewrite DE. apply Z.mul_le_mono_nonneg_r; lia.
    - split; [nia|]. split; [exists d; rewrite DE; ring|]. rewrite DE. apply Z.mul_le_mono_nonneg_l; nia. }
  destruct S as (s & S1 & S2 & S3). destruct (prime_divisor s S1) as (r & R & RS). exists r. split; [exact R|]. split; [eapply Z.divide_trans; eassumption|].
  pose proof (prime_ge_2 _ R). apply Z.divide_pos_le in RS; [|lia]. nia.
Qed.

Lemma pow_one_mult p b e k : 1 < p -> 0 <= e -> 0 <= k -> b ^ e mod p = 1 -> b ^ (e * k) mod p = 1.
Proof. intros P E K H. rewrite Z.pow_mul_r by assumption. rewrite Zpower_mod by lia. rewrite H. rewrite Z.pow_1_l by lia. apply Z.mod_1_l. lia. Qed.

(** If b^q = 1 and b <> 1 modulo a prime r, for a prime q, then q divides r - 1. *)
Lemma order_divides q r b : prime q -> prime r -> b ^ q mod r = 1 -> ~ (r | b - 1) -> (q | r - 1).
Proof.
  intros Q R B1 NB. pose proof (prime_ge_2 _ Q) as Q2. pose proof (prime_ge_2 _ R) as R2.
  destruct (Zdivide_dec q (r - 1)) as [D|D]; [exact D|]. exfalso.
  assert (NR : ~ (r | b)).
  { intros H. apply Z.mod_divide in H; [|lia]. rewrite Zpower_mod, H, Z.pow_0_l, Z.mod_0_l in B1 by lia. discriminate B1. }
  pose proof (fermat r b R NR) as FM.
  assert (RP : rel_prime q (r - 1)) by (apply prime_rel_prime; assumption).
  destruct (rel_prime_bezout _ _ RP) as [u v UV].
  assert (UV' : exists u' w, 0 <= u' /\ 0 <= w /\ q * u' = 1 + (r - 1) * w).
  { exists (u + (Z.abs u + 1) * (r - 1)), ((Z.abs u + 1) * q - v).
    assert (E : q * (u + (Z.abs u + 1) * (r - 1)) = 1 + (r - 1) * ((Z.abs u + 1) * q - v)) by lia.
    assert (U1 : 1 <= u + (Z.abs u + 1) * (r - 1)) by nia. split; [lia|]. split; [|exact E].
    destruct (Z_le_gt_dec 0 ((Z.abs u + 1) * q - v)) as [W|W]; [exact W|exfalso]. nia. }
  destruct UV' as (u' & w & U0 & W0 & UV').
  pose proof (pow_one_mult r b q u' ltac:(lia) ltac:(lia) U0 B1) as C. rewrite UV' in C.
  assert (RW : 0 <= (r - 1) * w) by (apply Z.mul_nonneg_nonneg; lia).
  assert (FW : b ^ ((r - 1) * w) mod r = 1) by (apply pow_one_mult; [lia|lia|exact W0|exact FM]).
  rewrite Z.pow_add_r in C by lia. rewrite Z.mul_mod, FW in C by lia.
  rewrite Z.mul_1_r, Z.mod_mod, Z.pow_1_r in C by lia. apply NB. apply mod_eq_divide; [lia|]. rewrite C. symmetry. apply Z.mod_1_l. lia.
Qed.

Lemma product_divides l x : NoDup l -> (forall q, In q l -> prime q /\ (q | x)) -> (product l | x).
Proof.
  intros ND. revert x. induction ND as [|q l N ND IH]; intros x H; [exists x; cbn; ring|].
  destruct (H q (or_introl eq_refl)) as (Q & (y & ->)). destruct (IH y) as (z & Z).
  - intros q' I. destruct (H q' (or_intror I)) as (Q' & D). split; [exact Q'|]. apply prime_mult in D; [|exact Q']. destruct D as [D|D]; [exact D|].
    apply prime_div_prime in D; [|assumption..]. subst q'. contradiction.
  - exists z. cbn [product fold_right]. fold (product l). rewrite Z. ring.
Qed.

Theorem pocklington n (qs : list Z) : 1 < n -> NoDup qs -> n < (product qs + 1) * (product qs + 1) -> 0 < product qs ->
  (forall q, In q qs -> prime q /\ exists m a g h, 0 <= m /\ n - 1 = q * m /\ (n | a ^ (n - 1) - 1) /\ g * (a ^ m - 1) + h * n = 1) ->
  prime n.
Proof.
  intros N1 ND BIG POS H. destruct (prime_dec n) as [P|P]; [exact P|exfalso].
  destruct (small_prime_divisor n N1 P) as (r & R & RN & RR). pose proof (prime_ge_2 _ R) as R2.
  assert (D : (product qs | r - 1)).
  { apply product_divides; [exact ND|]. intros q I. destruct (H q I) as (Q & m & a & g & h & M0 & M & A & G). split; [exact Q|]. pose proof (prime_ge_2 _ Q) as Q2.
    apply (order_divides q r (a ^ m)); [exact Q|exact R| |].
    - rewrite <- Z.pow_mul_r by lia. rewrite Z.mul_comm, <- M. assert (E : (r | a ^ (n - 1) - 1)) by (eapply Z.divide_trans; eassumption).
      apply mod_eq_divide in E; [|lia]. rewrite E. apply Z.mod_1_l. lia.
    - intros E. assert (O : (r | 1)). { rewrite <- G. apply Z.divide_add_r; apply Z.divide_mul_r; assumption. } apply Z.divide_1_r in O. lia. }
  apply Z.divide_pos_le in D; [|lia]. nia.
Qed.

(** ** Modular powers with their quotients *)

(** [k] times [2 ^ bits - gap], for a small [gap]. *)
Definition left_out (bits gap k : Z) : Z := Z.shiftl k bits - gap * k.

Lemma left_out_ok bits gap k : 0 <= bits -> left_out bits gap k = k * (2 ^ bits - gap).
Proof. intros B. unfold left_out. rewrite Z.shiftl_mul_pow2 by exact B. ring. Qed.

(** [a ^ e] modulo [2 ^ bits - gap]: one quotient and remainder for every bit of [e] behind the first, the last one first. *)
Fixpoint power (bits gap a : Z) (e : positive) (steps : list (Z * Z)) : option Z :=
  match e, steps with
  | xH, [] => Some a
  | xO e, (k, r) :: steps =>
    match power bits gap a e steps with Some x => if Z.square x =? left_out bits gap k + r then Some r else None | None => None end
  | xI e, (k, r) :: steps =>
    match power bits gap a e steps with Some x => if a * Z.square x =? left_out bits gap k + r then Some r else None | None => None end
  | _, _ => None
  end.

Lemma power_ok n bits gap a e : 0 <= bits -> n = 2 ^ bits - gap -> forall steps r, power bits gap a e steps = Some r -> (n | a ^ Z.pos e - r).
Proof.
  intros B N. assert (SQ : forall x y, (n | x - y) -> (n | x * x - y * y)).
  { intros x y (k & K). exists (k * (x + y)). transitivity ((x - y) * (x + y)); [ring|]. rewrite K. ring. }
  induction e as [e IH|e IH|]; intros [|[k s] steps] r; cbn [power]; try discriminate.
  - destruct (power bits gap a e steps) as [x|] eqn:P; [|discriminate]. rewrite Z.square_spec, (left_out_ok _ _ _ B), <- N.
    destruct (Z.eqb_spec (a * (x * x)) (k * n + s)) as [E|]; [|discriminate]. intros Q. injection Q as <-.
    specialize (IH _ _ P). apply SQ in IH. destruct IH as (c & C). exists (c * a + k). rewrite Pos2Z.inj_xI.
    replace (2 * Z.pos e + 1) with (Z.pos e + Z.pos e + 1) by lia. rewrite !Z.pow_add_r, Z.pow_1_r by lia.
    transitivity ((a ^ Z.pos e * a ^ Z.pos e - x * x) * a + (a * (x * x) - s)); [ring|]. rewrite C, E. ring.
  - destruct (power bits gap a e steps) as [x|] eqn:P; [|discriminate]. rewrite Z.square_spec, (left_out_ok _ _ _ B), <- N.
    destruct (Z.eqb_spec (x * x) (k * n + s)) as [E|]; [|discriminate]. intros Q. injection Q as <-.
    specialize (IH _ _ P). apply SQ in IH. destruct IH as (c & C). exists (c + k). rewrite Pos2Z.inj_xO.
    replace (2 * Z.pos e) with (Z.pos e + Z.pos e) by lia. rewrite Z.pow_add_r by lia.
    transitivity ((a ^ Z.pos e * a ^ Z.pos e - x * x) + (x * x - s)); [ring|]. rewrite C, E. ring.
  - intros Q. injection Q as <-. exists 0. rewrite Z.pow_1_r. ring.
Qed.

(** Everything [pocklington] asks for one prime factor: the base to the power of the cofactor, and that to the power of the factor. *)
Record evidence := Evidence { ev_factor : positive; ev_cofactor : positive; ev_base : Z; ev_steps : list (Z * Z); ev_rest : list (Z * Z); ev_g : Z; ev_h : Z }.

Definition ev_ok (n bits gap : Z) (e : evidence) : bool :=
  (Z.pos (ev_factor e) * Z.pos (ev_cofactor e) =? n - 1) &&
  match power bits gap (ev_base e) (ev_cofactor e) (ev_steps e) with
  | Some s =>
    match power bits gap s (ev_factor e) (ev_rest e) with
    | Some r => (r =? 1) && (ev_g e * (s - 1) + ev_h e * n =? 1)
    | None => false
    end
  | None => false
  end%bool.

Definition factor (e : evidence) : Z := Z.pos (ev_factor e).

Lemma ev_ok_elim n bits gap e : 1 < n -> 0 <= bits -> n = 2 ^ bits - gap -> ev_ok n bits gap e = true ->
  exists m a g h, 0 <= m /\ n - 1 = factor e * m /\ (n | a ^ (n - 1) - 1) /\ g * (a ^ m - 1) + h * n = 1.
Proof.
  intros N1 B N. unfold ev_ok, factor. intros H. apply andb_prop in H. destruct H as (H1 & H). apply Z.eqb_eq in H1.
  destruct (power bits gap (ev_base e) _ _) as [s|] eqn:P1; [|discriminate]. destruct (power bits gap s _ _) as [r|] eqn:P2; [|discriminate].
  apply andb_prop in H. destruct H as (H2 & H3). apply Z.eqb_eq in H2, H3. subst r. apply (power_ok n bits gap _ _ B N) in P1, P2.
  exists (Z.pos (ev_cofactor e)), (ev_base e), (ev_g e). assert (D := P1). destruct P1 as (c & C). exists (ev_h e - ev_g e * c). split; [lia|]. split; [symmetry; exact H1|]. split.
  - rewrite <- H1, Z.mul_comm, Z.pow_mul_r by lia. apply mod_eq_divide; [lia|]. apply mod_eq_divide in D, P2; [|lia..]. rewrite Zpower_mod, D, <- Zpower_mod by lia. exact P2.
  - transitivity (ev_g e * (s - 1) + ev_h e * n); [|exact H3]. replace (ev_base e ^ Z.pos (ev_cofactor e) - 1) with (c * n + (s - 1)) by lia. ring.
Qed.

Theorem prime_by n bits gap (es : list evidence) : 1 < n -> 0 <= bits -> n = 2 ^ bits - gap -> NoDup (map factor es) ->
  n < (product (map factor es) + 1) * (product (map factor es) + 1) -> 0 < product (map factor es) ->
  (forall e, In e es -> prime (factor e)) -> forallb (ev_ok n bits gap) es = true -> prime n.
Proof.
  intros N1 B N ND BIG POS PR OK. apply (pocklington n (map factor es) N1 ND BIG POS). intros q I. apply in_map_iff in I. destruct I as (e & <- & I).
  split; [apply PR, I|]. rewrite forallb_forall in OK. exact (ev_ok_elim n bits gap e N1 B N (OK e I)).
Qed.

(** Small primes by trial division. *)
Fixpoint no_divisor (n d : Z) (fuel : nat) : bool :=
  match fuel with
  | O => false
  | S fuel => if n <? d * d then true else if n mod d =? 0 then false else no_divisor n (d + 1) fuel
  end.

Lemma no_divisor_prime n fuel : 1 < n -> no_divisor n 2 fuel = true -> prime n.
Proof.
  intros N1 H. destruct (prime_dec n) as [P|P]; [exact P|exfalso]. destruct (small_prime_divisor n N1 P) as (r & R & RN & RR). pose proof (prime_ge_2 _ R) as R2.
  assert (G : forall fuel d, 2 <= d <= r -> no_divisor n d fuel = true -> False).
  { induction fuel0 as [|f IH]; intros d D Q; cbn [no_divisor] in Q; [discriminate Q|]. destruct (Z.ltb_spec n (d * d)) as [L|L]; [nia|].
    destruct (Z.eqb_spec (n mod d) 0) as [E|E]; [discriminate Q|]. destruct (Z.eq_dec d r) as [->|NE]; [apply E, Z.mod_divide; [lia|exact RN]|].
    apply (IH (d + 1)); [lia|exact Q]. }
  apply (G fuel 2); [lia|exact H].
Qed.
