(** * BaseFacts: lemmas about Base.v *)
From Coq Require Import List NArith Bool Lia ZArith Arith.
From Coq.Strings Require Import Byte.
From Coq Require Import ZifyBool ZifyNat ZifyN.
From Verif Require Import Base.
Import ListNotations.
Local Open Scope N_scope.
Ltac Zify.zify_post_hook ::= Z.div_mod_to_equations.

(** ** len / take / drop *)

Lemma len_nil {A} : len (@nil A) = 0. Proof. reflexivity. Qed.
Lemma len_cons {A} (a : A) l : len (a :: l) = len l + 1.
Proof. unfold len; cbn [length]; lia. Qed.
Lemma len_app {A} (a b : list A) : len (a ++ b) = len a + len b.
Proof. unfold len; rewrite app_length; lia. Qed.
Lemma len_take {A} n (l : list A) : len (take n l) = N.min n (len l).
Proof. unfold len, take; rewrite firstn_length; lia. Qed.
Lemma len_drop {A} n (l : list A) : len (drop n l) = len l - n.
Proof. unfold len, drop; rewrite skipn_length; lia. Qed.
Lemma len_zeros n : len (zeros n) = n.
Proof. unfold len, zeros; rewrite repeat_length; lia. Qed.
Lemma len_le_bytes w n : len (le_bytes w n) = N.of_nat w.
Proof.
  revert n; induction w; intros; cbn [le_bytes]; [reflexivity|].
  rewrite len_cons, IHw; lia.
Qed.
Lemma len_repeat {A} (a : A) n : len (repeat a n) = N.of_nat n.
Proof. unfold len; now rewrite repeat_length. Qed.

#[export] Hint Rewrite @len_nil @len_cons @len_app @len_take @len_drop len_zeros len_le_bytes @len_repeat : len.

Lemma len_0_nil {A} (l : list A) : len l = 0 -> l = [].
Proof. destruct l; [reflexivity|rewrite len_cons; lia]. Qed.

Lemma take_app_exact {A} n (a b : list A) : n = len a -> take n (a ++ b) = a.
Proof.
  intros ->; unfold take, len. rewrite Nnat.Nat2N.id, firstn_app, Nat.sub_diag, firstn_all.
  cbn; apply app_nil_r.
Qed.
Lemma drop_app_exact {A} n (a b : list A) : n = len a -> drop n (a ++ b) = b.
Proof.
  intros ->; unfold drop, len. rewrite Nnat.Nat2N.id, skipn_app, Nat.sub_diag, skipn_all.
  reflexivity.
Qed.
Lemma take_app_le {A} n (a b : list A) : n <= len a -> take n (a ++ b) = take n a.
Proof.
  intros H; unfold take, len in *. rewrite firstn_app.
  replace (N.to_nat n - length a)%nat with 0%nat by lia. cbn; apply app_nil_r.
Qed.
Lemma drop_app_le {A} n (a b : list A) : n <= len a -> drop n (a ++ b) = drop n a ++ b.
Proof.
  intros H; unfold drop, len in *. rewrite skipn_app.
  replace (N.to_nat n - length a)%nat with 0%nat by lia. reflexivity.
Qed.
Lemma take_app_ge {A} n (a b : list A) : len a <= n -> take n (a ++ b) = a ++ take (n - len a) b.
Proof.
  intros H; unfold take, len in *. rewrite firstn_app.
  rewrite firstn_all2 by lia. do 2 f_equal. lia.
Qed.
Lemma drop_app_ge {A} n (a b : list A) : len a <= n -> drop n (a ++ b) = drop (n - len a) b.
Proof.
  intros H; unfold drop, len in *. rewrite skipn_app.
  rewrite skipn_all2 by lia. cbn. f_equal. lia.
Qed.
Lemma take_all {A} n (l : list A) : len l <= n -> take n l = l.
Proof. intros; unfold take, len in *; apply firstn_all2; lia. Qed.
Lemma drop_all {A} n (l : list A) : len l <= n -> drop n l = [].
Proof. intros; unfold drop, len in *; apply skipn_all2; lia. Qed.
Lemma take_0 {A} (l : list A) : take 0 l = []. Proof. reflexivity. Qed.
Lemma drop_0 {A} (l : list A) : drop 0 l = l. Proof. reflexivity. Qed.
Lemma take_drop {A} n (l : list A) : take n l ++ drop n l = l.
Proof. apply firstn_skipn. Qed.
Lemma drop_drop {A} n m (l : list A) : drop n (drop m l) = drop (m + n) l.
Proof.
  unfold drop. rewrite Nnat.N2Nat.inj_add.
  generalize (N.to_nat n) (N.to_nat m). clear. intros n m. revert l.
  induction m; intros l; [reflexivity|]. destruct l; cbn; [now rewrite skipn_nil|apply IHm].
Qed.
Lemma take_take {A} n m (l : list A) : take n (take m l) = take (N.min n m) l.
Proof. unfold take. rewrite firstn_firstn. f_equal. lia. Qed.
Lemma take_drop_comm {A} n m (l : list A) : take n (drop m l) = drop m (take (m + n) l).
Proof.
  unfold take, drop. rewrite skipn_firstn_comm. f_equal. lia.
Qed.
Lemma take_add {A} n m (l : list A) : take (n + m) l = take n l ++ take m (drop n l).
Proof.
  rewrite <- (take_drop n l) at 1.
  destruct (N.le_gt_cases n (len l)).
  - rewrite take_app_ge by (rewrite len_take; lia).
    f_equal. f_equal. rewrite len_take; lia.
  - rewrite (drop_all n l) by lia. rewrite app_nil_r.
    rewrite take_all by (rewrite len_take; lia). unfold take at 3. rewrite firstn_nil.
    now rewrite app_nil_r.
Qed.
Lemma take_nil {A} n : take n (@nil A) = []. Proof. apply firstn_nil. Qed.
Lemma drop_nil {A} n : drop n (@nil A) = []. Proof. apply skipn_nil. Qed.

Lemma app_inj_len {A} (a b c d : list A) : a ++ b = c ++ d -> len a = len c -> a = c /\ b = d.
Proof.
  intros H L; split.
  - rewrite <- (take_app_exact (len a) a b eq_refl), H. now apply take_app_exact.
  - rewrite <- (drop_app_exact (len a) a b eq_refl), H. now apply drop_app_exact.
Qed.

(** ** byte equality *)

Lemma to_N_inj a b : Byte.to_N a = Byte.to_N b -> a = b.
Proof.
  intros H. assert (Some a = Some b) as K; [|congruence].
  rewrite <- (Byte.of_to_N a), <- (Byte.of_to_N b). now rewrite H.
Qed.
Lemma byte_eqb_spec a b : byte_eqb a b = true <-> a = b.
Proof.
  unfold byte_eqb. rewrite N.eqb_eq. split; [apply to_N_inj|congruence].
Qed.
Lemma byte_eqb_refl a : byte_eqb a a = true.
Proof. now apply byte_eqb_spec. Qed.
Lemma bytes_eqb_spec a b : bytes_eqb a b = true <-> a = b.
Proof.
  revert b; induction a as [|x a IH]; destruct b as [|y b]; cbn; try (split; congruence).
  rewrite andb_true_iff, byte_eqb_spec, IH. split; [intros []; congruence|].
  intros H; injection H; auto.
Qed.
Lemma bytes_eqb_refl a : bytes_eqb a a = true.
Proof. now apply bytes_eqb_spec. Qed.
Lemma bytes_eqb_neq a b : bytes_eqb a b = false <-> a <> b.
Proof.
  rewrite <- (not_true_iff_false (bytes_eqb a b)), bytes_eqb_spec. tauto.
Qed.
Lemma bytes_eq_dec (a b : bytes) : {a = b} + {a <> b}.
Proof.
  destruct (bytes_eqb a b) eqn:H; [left; now apply bytes_eqb_spec|].
  right; now apply bytes_eqb_neq.
Qed.

(** ** numbers and bytes *)

Lemma to_N_lt b : Byte.to_N b < 256.
Proof. pose proof (Byte.to_N_bounded b). lia. Qed.
Lemma to_N_byte_of_N n : Byte.to_N (byte_of_N n) = n mod 256.
Proof.
  unfold byte_of_N. destruct (Byte.of_N (n mod 256)) eqn:H.
  - now apply Byte.to_of_N.
  - exfalso. apply Byte.of_N_None_iff in H. pose proof (N.mod_lt n 256). lia.
Qed.
Lemma byte_of_N_to_N b : byte_of_N (Byte.to_N b) = b.
Proof.
  apply to_N_inj. rewrite to_N_byte_of_N. apply N.mod_small, to_N_lt.
Qed.

Lemma pow256_S w : 256 ^ N.of_nat (S w) = 256 * 256 ^ N.of_nat w.
Proof. rewrite Nnat.Nat2N.inj_succ, N.pow_succ_r'. reflexivity. Qed.

Lemma le_val_bound l : le_val l < 256 ^ len l.
Proof.
  induction l as [|b l IH]; [reflexivity|].
  rewrite len_cons. cbn [le_val]. pose proof (to_N_lt b).
  replace (256 ^ (len l + 1)) with (256 * 256 ^ len l)
    by (rewrite N.add_1_r, N.pow_succ_r'; lia).
  lia.
Qed.
Lemma le_val_le_bytes w n : le_val (le_bytes w n) = n mod 256 ^ N.of_nat w.
Proof.
  revert n; induction w as [|w IH]; intros n.
  - cbn. now rewrite N.mod_1_r.
  - rewrite pow256_S. cbn [le_bytes le_val]. rewrite IH, to_N_byte_of_N.
    assert (256 ^ N.of_nat w <> 0) by (apply N.pow_nonzero; lia).
    rewrite N.mod_mul_r by lia. lia.
Qed.
Lemma le_bytes_le_val l : le_bytes (length l) (le_val l) = l.
Proof.
  induction l as [|b l IH]; [reflexivity|]. cbn [length le_bytes le_val].
  pose proof (to_N_lt b).
  replace ((Byte.to_N b + 256 * le_val l) / 256) with (le_val l) by lia.
  rewrite IH. f_equal. apply to_N_inj. rewrite to_N_byte_of_N. lia.
Qed.
Lemma le_bytes_inj w a b :
  a < 256 ^ N.of_nat w -> b < 256 ^ N.of_nat w -> le_bytes w a = le_bytes w b -> a = b.
Proof.
  intros Ha Hb H. apply (f_equal le_val) in H.
  rewrite !le_val_le_bytes, !N.mod_small in H by assumption. exact H.
Qed.
Lemma le_bytes_mod w a : le_bytes w (a mod 256 ^ N.of_nat w) = le_bytes w a.
Proof.
  revert a; induction w as [|w IH]; intros a; [reflexivity|].
  assert (256 ^ N.of_nat w <> 0) by (apply N.pow_nonzero; lia).
  rewrite pow256_S. cbn [le_bytes]. rewrite N.mod_mul_r by lia. f_equal.
  - apply to_N_inj. rewrite !to_N_byte_of_N.
    rewrite N.mul_comm, N.mod_add by lia. apply N.mod_mod. lia.
  - rewrite <- (IH (a / 256)). f_equal.
    generalize ((a / 256) mod 256 ^ N.of_nat w). intros. lia.
Qed.
Lemma take_le_bytes a b n : take (N.of_nat a) (le_bytes (a + b) n) = le_bytes a n.
Proof.
  revert n; induction a as [|a IH]; intros n; [reflexivity|].
  unfold take in *. rewrite Nnat.Nat2N.id in *. cbn [Nat.add le_bytes firstn].
  now rewrite IH.
Qed.
Lemma le_bytes_app a b n :
  le_bytes (a + b) n = le_bytes a n ++ le_bytes b (n / 256 ^ N.of_nat a).
Proof.
  revert n; induction a as [|a IH]; intros n.
  - cbn. now rewrite N.div_1_r.
  - rewrite pow256_S. cbn [Nat.add le_bytes app]. f_equal. rewrite IH. do 2 f_equal.
    assert (256 ^ N.of_nat a <> 0) by (apply N.pow_nonzero; lia).
    now rewrite N.div_div by lia.
Qed.
Lemma le_bytes_0 w : le_bytes w 0 = repeat x00 w.
Proof.
  induction w as [|w IH]; [reflexivity|]. cbn [le_bytes repeat].
  replace (0 / 256) with 0 by reflexivity. rewrite IH. reflexivity.
Qed.
Lemma le_val_app a b : le_val (a ++ b) = le_val a + 256 ^ len a * le_val b.
Proof.
  induction a as [|x a IH]; [change (le_val b = 0 + 1 * le_val b); lia|].
  rewrite len_cons. cbn [app le_val]. rewrite IH.
  rewrite N.add_1_r, N.pow_succ_r'. lia.
Qed.

(** ** xor *)

Lemma bxor_invol k d : bxor k (bxor k d) = d.
Proof.
  unfold bxor.
  destruct (Byte.to_bits k) as (a0,(a1,(a2,(a3,(a4,(a5,(a6,a7))))))) eqn:Hk.
  destruct (Byte.to_bits d) as (b0,(b1,(b2,(b3,(b4,(b5,(b6,b7))))))) eqn:Hd.
  rewrite Byte.to_bits_of_bits.
  rewrite <- (Byte.of_bits_to_bits d), Hd.
  repeat f_equal; match goal with |- xorb ?a (xorb ?a ?b) = ?b => now destruct a, b end.
Qed.
Lemma bxor_comm a b : bxor a b = bxor b a.
Proof.
  unfold bxor.
  destruct (Byte.to_bits a) as (a0,(a1,(a2,(a3,(a4,(a5,(a6,a7))))))).
  destruct (Byte.to_bits b) as (b0,(b1,(b2,(b3,(b4,(b5,(b6,b7))))))).
  now rewrite (xorb_comm a0), (xorb_comm a1), (xorb_comm a2), (xorb_comm a3),
    (xorb_comm a4), (xorb_comm a5), (xorb_comm a6), (xorb_comm a7).
Qed.
Lemma bxor_0_r a : bxor a x00 = a.
Proof.
  unfold bxor.
  destruct (Byte.to_bits a) as (a0,(a1,(a2,(a3,(a4,(a5,(a6,a7))))))) eqn:H.
  cbn [Byte.to_bits]. rewrite !xorb_false_r, <- H. apply Byte.of_bits_to_bits.
Qed.
Lemma bxor_inj k a b : bxor k a = bxor k b -> a = b.
Proof. intros H. rewrite <- (bxor_invol k a), H. apply bxor_invol. Qed.

Lemma len_xor_with ks d : len (xor_with ks d) = len d.
Proof.
  revert d; induction ks as [|k ks IH]; intros [|x d]; try reflexivity.
  cbn [xor_with]. now rewrite !len_cons, IH.
Qed.
#[export] Hint Rewrite len_xor_with : len.
Lemma xor_with_invol ks d : xor_with ks (xor_with ks d) = d.
Proof.
  revert d; induction ks as [|k ks IH]; intros [|x d]; try reflexivity.
  cbn [xor_with]. now rewrite bxor_invol, IH.
Qed.
Lemma xor_with_inj ks a b : xor_with ks a = xor_with ks b -> a = b.
Proof. intros H. rewrite <- (xor_with_invol ks a), H. apply xor_with_invol. Qed.
Lemma xor_with_zeros ks n : len ks = n -> xor_with ks (zeros n) = ks.
Proof.
  intros <-. unfold zeros, len. rewrite Nnat.Nat2N.id.
  induction ks as [|k ks IH]; [reflexivity|]. cbn [length repeat xor_with].
  now rewrite bxor_0_r, IH.
Qed.
Lemma xor_with_comm a b : len a = len b -> xor_with a b = xor_with b a.
Proof.
  revert b; induction a as [|x a IH]; intros [|y b] H; try reflexivity;
    rewrite ?len_cons, ?len_nil in H; try lia.
  cbn [xor_with]. rewrite bxor_comm, IH by lia. reflexivity.
Qed.

(** ** slices *)

Lemma splice_ok s a b src :
  a <= b -> b <= len s -> len src = b - a ->
  splice s a b src = Ret (take a s ++ src ++ drop b s).
Proof.
  intros. unfold splice.
  now rewrite (proj2 (N.leb_le _ _)), (proj2 (N.leb_le _ _)), (proj2 (N.eqb_eq _ _)) by assumption.
Qed.
Lemma slice_ok s a b : a <= b -> b <= len s -> slice s a b = Ret (take (b - a) (drop a s)).
Proof.
  intros. unfold slice.
  now rewrite (proj2 (N.leb_le _ _)), (proj2 (N.leb_le _ _)) by assumption.
Qed.
Lemma split_at_ok s n : n <= len s -> split_at s n = Ret (take n s, drop n s).
Proof. intros. unfold split_at. now rewrite (proj2 (N.leb_le _ _)). Qed.
Lemma set_index_ok s i v : i < len s -> set_index s i v = Ret (take i s ++ v :: drop (i + 1) s).
Proof. intros. unfold set_index. now rewrite (proj2 (N.ltb_lt _ _)). Qed.
Lemma index_ok s i : i < len s -> exists b, index s i = Ret b /\ nth_error s (N.to_nat i) = Some b.
Proof.
  intros H. unfold index, len in *. destruct (nth_error s (N.to_nat i)) eqn:K; [eauto|].
  apply nth_error_None in K. lia.
Qed.
Lemma index_cons_0 b s : index (b :: s) 0 = Ret b.
Proof. reflexivity. Qed.

(** ** arithmetic *)

Lemma add_w_ok chk w a b : a + b < 2 ^ w -> add_w chk w a b = Ret (a + b).
Proof. intros. unfold add_w. now rewrite (proj2 (N.ltb_lt _ _)). Qed.
Lemma sub_w_ok chk w a b : b <= a -> sub_w chk w a b = Ret (a - b).
Proof. intros. unfold sub_w. now rewrite (proj2 (N.leb_le _ _)). Qed.
Lemma add_w_wrap w a b : 2 ^ w <= a + b -> add_w false w a b = Ret ((a + b) mod 2 ^ w).
Proof. intros. unfold add_w. now rewrite (proj2 (N.ltb_ge _ _)). Qed.
Lemma add_w_panic w a b : 2 ^ w <= a + b -> add_w true w a b = Panic.
Proof. intros. unfold add_w. now rewrite (proj2 (N.ltb_ge _ _)). Qed.

(** ** run *)

Lemma bind_ret_inv {A B} (m : run A) (f : A -> run B) b :
  bind m f = Ret b -> exists a, m = Ret a /\ f a = Ret b.
Proof. destruct m; cbn; intros H; try discriminate. eauto. Qed.

Lemma split_len {A} n (l : list A) : n <= len l -> exists a b, l = a ++ b /\ len a = n.
Proof.
  intros H. exists (take n l), (drop n l). split; [symmetry; apply take_drop|].
  rewrite len_take; lia.
Qed.
Lemma splice_mid a b c i j src :
  i = len a -> j = len a + len b -> len src = len b ->
  splice (a ++ b ++ c) i j src = Ret (a ++ src ++ c).
Proof.
  intros -> -> H. rewrite splice_ok by (autorewrite with len; lia).
  rewrite take_app_exact by reflexivity.
  rewrite (app_assoc a b c), drop_app_exact by (autorewrite with len; lia). reflexivity.
Qed.
Lemma slice_mid a b c i j :
  i = len a -> j = len a + len b -> slice (a ++ b ++ c) i j = Ret b.
Proof.
  intros -> ->. rewrite slice_ok by (autorewrite with len; lia).
  rewrite drop_app_exact by reflexivity. rewrite take_app_exact by lia. reflexivity.
Qed.
Lemma set_index_mid a b c i v : i = len a -> set_index (a ++ b :: c) i v = Ret (a ++ v :: c).
Proof.
  intros ->. rewrite set_index_ok by (autorewrite with len; lia).
  rewrite take_app_exact by reflexivity.
  change (b :: c) with ([b] ++ c).
  rewrite (app_assoc a [b] c), drop_app_exact by (autorewrite with len; lia). reflexivity.
Qed.
Lemma splice_all b src i j :
  i = 0 -> j = len b -> len src = len b -> splice b i j src = Ret src.
Proof.
  intros -> -> H. rewrite <- (app_nil_r b) at 1. rewrite <- (app_nil_r src) at 2.
  apply (splice_mid [] b []); [reflexivity| |assumption]. reflexivity.
Qed.
