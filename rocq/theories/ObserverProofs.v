(** * ObserverProofs: how well sizes hidden by a uniform draw can be told apart *)
From Coq Require Import List NArith Bool Lia.
From Verif Require Import Base BaseFacts SpecObserver.
Import ListNotations.
Local Open Scope N_scope.

Lemma len_from n : forall a, len (from a n) = N.of_nat n.
Proof. induction n as [|n IH]; intros a; [reflexivity|]. cbn [from]. rewrite len_cons, IH. lia. Qed.

Lemma in_from n : forall a x, In x (from a n) <-> a <= x < a + N.of_nat n.
Proof.
  induction n as [|n IH]; intros a x; cbn [from In]; [lia|]. rewrite IH. lia.
Qed.

Lemma len_map' {A B} (f : A -> B) l : len (map f l) = len l.
Proof. unfold len. now rewrite map_length. Qed.

Lemma filter_map {A B} (f : A -> B) p l : filter p (map f l) = map f (filter (fun x => p (f x)) l).
Proof. induction l as [|x l IH]; [reflexivity|]. cbn. destruct (p (f x)); cbn; now rewrite IH. Qed.

(** Sums over a window. *)
Fixpoint window (f : N -> N) (a : N) (n : nat) : N :=
  match n with
  | O => 0
  | S n => f a + window f (a + 1) n
  end.

Lemma window_last f : forall n a, window f a (S n) = window f a n + f (a + N.of_nat n).
Proof.
  induction n as [|n IH]; intros a; [cbn [window]; change (N.of_nat 0) with 0; rewrite !N.add_0_r; reflexivity|].
  change (window f a (S (S n))) with (f a + window f (a + 1) (S n)). rewrite IH. cbn [window].
  replace (a + 1 + N.of_nat n) with (a + N.of_nat (S n)) by lia. lia.
Qed.

Lemma window_shift f n a : window f a n + f (a + N.of_nat n) = f a + window f (a + 1) n.
Proof. rewrite <- window_last. reflexivity. Qed.

Lemma window_up f M n : (forall t, f t <= M) -> forall d a,
  window f a n <= window f (a + N.of_nat d) n + N.of_nat d * M /\ window f (a + N.of_nat d) n <= window f a n + N.of_nat d * M.
Proof.
  intros H. induction d as [|d IH]; intros a; [change (N.of_nat 0) with 0; rewrite N.mul_0_l, !N.add_0_r; lia|].
  specialize (IH (a + 1)). replace (a + N.of_nat (S d)) with (a + 1 + N.of_nat d) by lia.
  pose proof (window_shift f n a). pose proof (H a). pose proof (H (a + N.of_nat n)). rewrite !Nat2N.inj_succ, !N.mul_succ_l. split; lia.
Qed.

Lemma window_moves f M n a b : (forall t, f t <= M) -> window f a n <= window f b n + ((a - b) + (b - a)) * M.
Proof.
  intros H. destruct (N.le_ge_cases a b) as [L|L].
  - pose proof (window_up f M n H (N.to_nat (b - a)) a) as [Q _]. rewrite N2Nat.id in Q.
    replace (a + (b - a)) with b in Q by lia. replace (a - b + (b - a)) with (b - a) by lia. exact Q.
  - pose proof (window_up f M n H (N.to_nat (a - b)) b) as [_ Q]. rewrite N2Nat.id in Q.
    replace (b + (a - b)) with a in Q by lia. replace (a - b + (b - a)) with (a - b) by lia. exact Q.
Qed.

Lemma window_le f g c : forall n a q, (forall t, q * f t <= q * g t + c) -> q * window f a n <= q * window g a n + N.of_nat n * c.
Proof.
  induction n as [|n IH]; intros a q H; cbn [window]; [lia|]. specialize (IH (a + 1) q H). specialize (H a).
  rewrite Nat2N.inj_succ, N.mul_succ_l. lia.
Qed.

(** *** Outcomes *)

Lemma len_each (os : list (list N)) l : len (flat_map (fun x => map (cons x) os) l) = len l * len os.
Proof. induction l as [|x l IH]; [reflexivity|]. cbn [flat_map]. rewrite len_app, len_map', IH, len_cons. lia. Qed.

Lemma len_outcomes n : forall k, len (outcomes n k) = N.of_nat n ^ N.of_nat k.
Proof.
  induction k as [|k IH]; [reflexivity|]. cbn [outcomes]. now rewrite Nat2N.inj_succ, N.pow_succ_r', <- IH, len_each, len_from.
Qed.

Lemma in_outcomes n : forall k o, In o (outcomes n k) <-> length o = k /\ Forall (fun x => x < N.of_nat n) o.
Proof.
  induction k as [|k IH]; intros o; cbn [outcomes].
  - split; [intros [<-|[]]; split; [reflexivity|constructor]|]. intros [L _]. left. destruct o; [reflexivity|discriminate].
  - rewrite in_flat_map. split.
    + intros (x & X & I). apply in_map_iff in I. destruct I as (o' & <- & I). apply IH in I. destruct I as [L F].
      apply in_from in X. split; [cbn; now f_equal|]. constructor; [lia|assumption].
    + intros [L F]. destruct o as [|x o]; [discriminate|]. injection L as L. apply Forall_cons_iff in F. destruct F as [X F].
      exists x. split; [apply in_from; lia|]. apply in_map. apply IH. now split.
Qed.

(** What is seen of payloads of some sizes: each with its draw and [c] more. *)
Fixpoint masked (c : N) (sizes o : list N) : list N :=
  match sizes, o with
  | s :: sizes, x :: o => (s + c + x) :: masked c sizes o
  | _, _ => []
  end.

Lemma yes_le test view os : yes test view os <= len os.
Proof.
  unfold yes. induction os as [|o os IH]; [reflexivity|]. cbn [filter]. destruct (test (view o)); rewrite !len_cons; lia.
Qed.

Lemma yes_each c test s sizes os m : forall a,
  yes test (masked c (s :: sizes)) (flat_map (fun x => map (cons x) os) (from a m)) =
  window (fun t => yes (fun l => test (t :: l)) (masked c sizes) os) (s + c + a) m.
Proof.
  induction m as [|m IH]; intros a; [reflexivity|]. cbn [from flat_map window]. unfold yes at 1.
  rewrite filter_app, len_app, filter_map, len_map'. f_equal. specialize (IH (a + 1)). unfold yes at 1 in IH. rewrite IH. f_equal. lia.
Qed.

Lemma yes_step c test s sizes n k :
  yes test (masked c (s :: sizes)) (outcomes n (S k)) =
  window (fun t => yes (fun l => test (t :: l)) (masked c sizes) (outcomes n k)) (s + c) n.
Proof. cbn [outcomes]. now rewrite yes_each, N.add_0_r. Qed.

(** No test tells two lists of sizes apart better than their distance, of [n] for each. *)
Theorem advantage c n : forall sizes sizes' test, length sizes = length sizes' -> (n <> 0)%nat ->
  N.of_nat n * yes test (masked c sizes) (outcomes n (length sizes)) <=
  N.of_nat n * yes test (masked c sizes') (outcomes n (length sizes)) + N.of_nat n ^ len sizes * apart sizes sizes'.
Proof.
  induction sizes as [|s sizes IH]; intros [|s' sizes'] test L Z; try discriminate.
  - cbn [length outcomes]. apply N.le_add_r.
  - injection L as L. cbn [length]. rewrite !yes_step. cbn [apart].
    set (f := fun t => yes (fun l => test (t :: l)) (masked c sizes) (outcomes n (length sizes))).
    set (g := fun t => yes (fun l => test (t :: l)) (masked c sizes') (outcomes n (length sizes))).
    assert (forall t, g t <= N.of_nat n ^ len sizes) as B.
    { intros t. unfold g. eapply N.le_trans; [apply yes_le|]. rewrite len_outcomes. reflexivity. }
    pose proof (window_le f g (N.of_nat n ^ len sizes * apart sizes sizes') n (s + c) (N.of_nat n) (fun t => IH sizes' _ L Z)) as W.
    pose proof (window_moves g _ n (s + c) (s' + c) B) as M.
    replace (s + c - (s' + c) + (s' + c - (s + c))) with (s - s' + (s' - s)) in M by lia.
    rewrite len_cons, N.add_1_r, N.pow_succ_r'. nia.
Qed.

(** A test that asks the same of every draw. *)
Lemma yes_all c n (p : N -> bool) s k :
  yes (forallb p) (masked c (repeat s k)) (outcomes n k) = len (filter (fun x => p (s + c + x)) (from 0 n)) ^ N.of_nat k.
Proof.
  induction k as [|k IH]; [reflexivity|]. cbn [repeat]. cbn [outcomes]. rewrite Nat2N.inj_succ, N.pow_succ_r', <- IH. clear IH.
  induction (from 0 n) as [|x l IHl]; [reflexivity|]. cbn [flat_map]. unfold yes in IHl |- *.
  rewrite filter_app, len_app, filter_map, len_map', IHl. cbn [masked forallb filter].
  destruct (p (s + c + x)); cbn [andb].
  - rewrite len_cons. lia.
  - assert (forall (os : list (list N)), filter (fun _ => false) os = []) as F by (induction os; auto). rewrite F. reflexivity.
Qed.

Lemma yes_not test view os : yes (fun l => negb (test l)) view os = len os - yes test view os.
Proof.
  pose proof (yes_le test view os) as B. unfold yes in *. induction os as [|o os IH]; [reflexivity|].
  cbn [filter] in *. pose proof (yes_le test view os) as B'. unfold yes in B'. specialize (IH B').
  destruct (test (view o)); cbn [negb]; rewrite !len_cons, ?IH; lia.
Qed.

Lemma many_from (d : N) n : forall a, a <= d -> d <= a + N.of_nat n -> len (filter (fun x => d <=? x) (from a n)) = a + N.of_nat n - d.
Proof.
  induction n as [|n IH]; intros a A B; cbn [from filter]; [cbn; lia|].
  destruct (d <=? a) eqn:Q; [apply N.leb_le in Q|apply N.leb_gt in Q].
  - assert (forall m b, d <= b -> filter (fun x => d <=? x) (from b m) = from b m) as F.
    { induction m as [|m IHm]; intros b Hb; [reflexivity|]. cbn [from filter]. apply N.leb_le in Hb as Hb'. rewrite Hb'. f_equal. apply IHm. lia. }
    rewrite F, len_cons, len_from by lia. lia.
  - rewrite IH by lia. lia.
Qed.
