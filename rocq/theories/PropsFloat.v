(** * PropsFloat: the floating-point ratio of the statistics (C79) *)
From Coq Require Import ZArith NArith Lia SpecFloat QArith Qabs Qpower.
From Verif Require Import Base Traffic Float64 Float64Proofs.
Local Open Scope Q_scope.

(** The number a float stands for, if it stands for one. *)
Definition value (x : spec_float) : option Q :=
  match x with
  | S754_zero _ => Some 0
  | S754_finite s m e => Some ((if s then -1 else 1) * inject_Z (Zpos m) * 2 ^ e)
  | S754_infinity _ | S754_nan => None
  end.

Definition of_N (n : N) : Q := inject_Z (Z.of_N n).

Lemma scaled m e : (-200 <= e)%Z ->
  (1 * inject_Z (Zpos m) * 2 ^ e) * inject_Z (2 ^ 200) == inject_Z (Zpos m * 2 ^ (e + 200)).
Proof.
  intros He. rewrite inject_Z_mult, !Zpower_Qpower by lia. change (inject_Z 2) with (2 # 1).
  rewrite (Qpower_plus 2 e 200) by discriminate. ring.
Qed.

Lemma big : 0 < inject_Z (2 ^ 200).
Proof. reflexivity. Qed.

Lemma near (v : Q) (V w r : Z) (k : positive) :
  v * inject_Z (2 ^ 200) == inject_Z V -> (Zpos k * Z.abs (V * r - w * 2 ^ 200) <= w * 2 ^ 200)%Z ->
  Qabs (v * inject_Z r - inject_Z w) <= inject_Z w * (1 # k).
Proof.
  intros HV H.
  assert (E : (v * inject_Z r - inject_Z w) * inject_Z (2 ^ 200) == inject_Z (V * r - w * 2 ^ 200)).
  { unfold Z.sub. rewrite inject_Z_plus, inject_Z_opp, !inject_Z_mult, <- HV. ring. }
  apply (Qmult_lt_0_le_reg_r _ _ (inject_Z (2 ^ 200)) big).
  assert (A : Qabs (v * inject_Z r - inject_Z w) * inject_Z (2 ^ 200) == inject_Z (Z.abs (V * r - w * 2 ^ 200))).
  { transitivity (Qabs ((v * inject_Z r - inject_Z w) * inject_Z (2 ^ 200))).
    - rewrite Qabs_Qmult. reflexivity.
    - rewrite E. reflexivity. }
  rewrite A. replace (inject_Z w * (1 # k) * inject_Z (2 ^ 200)) with (w * 1 * 2 ^ 200 # k).
  2:{ unfold inject_Z, Qmult. cbn [Qnum Qden]. f_equal. lia. }
  unfold Qle. cbn [Qnum Qden inject_Z]. lia.
Qed.

(** ** C79 *)

(** The ratio is a number, absent exactly if nothing was read, and within four units of rounding
    ([4 * 2^-53]) of the quotient of the counters. *)
Theorem C79_ratio : forall s, (bytes_read s < 2 ^ 64)%N -> (bytes_written s < 2 ^ 64)%N ->
  match ratio_f64 s with
  | None => bytes_read s = 0%N
  | Some x => bytes_read s <> 0%N /\ exists v, value x = Some v /\
      Qabs (v * of_N (bytes_read s) - of_N (bytes_written s)) <= of_N (bytes_written s) * (1 # 2 ^ 51) /\
      (v == 0 <-> bytes_written s = 0%N)
  end.
Proof.
  intros s Hr Hw. unfold ratio_f64, write_read_ratio.
  destruct (N.eqb_spec (bytes_read s) 0) as [E|N]; [assumption|]. split; [assumption|].
  set (r := bytes_read s) in *. set (w := bytes_written s) in *. clearbody r w. clear s.
  assert (R0 : (0 < r < 2 ^ 64)%N) by lia.
  destruct (N.eq_dec w 0) as [->|W].
  - exists 0. destruct (convert r R0) as (m & e & C & _). unfold f64_quotient. rewrite C. split; [reflexivity|].
    split; [|split; reflexivity]. cbn [Z.of_N of_N]. rewrite Qmult_0_l. discriminate.
  - destruct (quotient w r ltac:(lia) R0) as (m & e & -> & B & X & A & _). cbn [value]. eexists. split; [reflexivity|].
    pose proof (scaled m e ltac:(lia)) as Sc.
    split; [exact (near _ _ _ _ (2 ^ 51) Sc A)|]. split; [|intros; contradiction].
    intros H. exfalso. rewrite H, Qmult_0_l in Sc.
    assert (P : (0 < Zpos m * 2 ^ (e + 200))%Z) by (apply Z.mul_pos_pos; [lia|apply Z.pow_pos_nonneg; lia]).
    unfold Qeq in Sc. cbn [Qnum Qden inject_Z] in Sc. lia.
Qed.
Print Assumptions C79_ratio.

(** While both counters are below [2^53] (eight pebibytes), only the division rounds, and comparing the ratio with
    one compares the counters. *)
Theorem C79_below_2_53 : forall s, (0 < bytes_read s < 2 ^ 53)%N -> (bytes_written s < 2 ^ 53)%N ->
  exists x v, ratio_f64 s = Some x /\ value x = Some v /\
    Qabs (v * of_N (bytes_read s) - of_N (bytes_written s)) <= of_N (bytes_written s) * (1 # 2 ^ 53) /\
    (v < 1 <-> (bytes_written s < bytes_read s)%N) /\ (1 < v <-> (bytes_read s < bytes_written s)%N).
Proof.
  intros s Hr Hw. unfold ratio_f64, write_read_ratio.
  destruct (N.eqb_spec (bytes_read s) 0) as [E|N]; [lia|].
  set (r := bytes_read s) in *. set (w := bytes_written s) in *. clearbody r w. clear s.
  assert (R0 : (0 < r < 2 ^ 64)%N) by lia.
  destruct (N.eq_dec w 0) as [->|W].
  - exists (f64_quotient 0 r), 0. destruct (convert r R0) as (m & e & C & _). unfold f64_quotient. rewrite C.
    split; [reflexivity|]. split; [reflexivity|].
    split; [cbn [Z.of_N of_N]; rewrite Qmult_0_l; discriminate|].
    split; split; try lia; intros H; [reflexivity|discriminate H].
  - destruct (quotient w r ltac:(lia) R0) as (m & e & -> & B & X & _ & A & Q). eexists _, _.
    split; [reflexivity|]. cbn [value]. split; [reflexivity|].
    specialize (A ltac:(lia) ltac:(lia)).
    pose proof (scaled m e ltac:(lia)) as Sc.
    split; [exact (near _ _ _ _ (2 ^ 53) Sc A)|].
    set (v := 1 * inject_Z (Z.pos m) * 2 ^ e) in *. set (V := (Zpos m * 2 ^ (e + 200))%Z) in *.
    assert (L : v < 1 <-> (V < 2 ^ 200)%Z).
    { rewrite <- (Qmult_lt_r v 1 _ big), Sc, Qmult_1_l. unfold Qlt. cbn [Qnum Qden inject_Z]. lia. }
    assert (G : 1 < v <-> (2 ^ 200 < V)%Z).
    { rewrite <- (Qmult_lt_r 1 v _ big), Sc, Qmult_1_l. unfold Qlt. cbn [Qnum Qden inject_Z]. lia. }
    rewrite L, G. clear L G Sc B X. clearbody V. clear v.
    destruct (N.lt_trichotomy w r) as [L|[E|L]].
    + assert (V < 2 ^ 200)%Z; [|lia].
      apply (Z.mul_lt_mono_pos_r (Z.of_N r)); [lia|]. lia.
    + rewrite (Q E). lia.
    + assert (2 ^ 200 < V)%Z; [|lia].
      apply (Z.mul_lt_mono_pos_r (Z.of_N r)); [lia|]. lia.
Qed.
Print Assumptions C79_below_2_53.

(** As much written as read gives exactly one. *)
Theorem C79_equal : forall s, (0 < bytes_read s < 2 ^ 64)%N -> bytes_written s = bytes_read s ->
  exists x v, ratio_f64 s = Some x /\ value x = Some v /\ v == 1.
Proof.
  intros s Hr E. unfold ratio_f64, write_read_ratio. rewrite E.
  destruct (N.eqb_spec (bytes_read s) 0) as [Z|N]; [lia|].
  destruct (quotient (bytes_read s) (bytes_read s) Hr Hr) as (m & e & -> & B & X & _ & _ & Q). eexists _, _.
  split; [reflexivity|]. cbn [value]. split; [reflexivity|].
  pose proof (scaled m e ltac:(lia)) as Sc. rewrite (Q eq_refl) in Sc.
  apply (Qmult_inj_r _ _ (inject_Z (2 ^ 200))); [discriminate|]. now rewrite Sc, Qmult_1_l.
Qed.
Print Assumptions C79_equal.

(** Above, the comparison no longer tells. *)
Theorem C79_comparison_refuted :
  ~ forall s, (0 < bytes_read s < 2 ^ 64)%N -> (bytes_written s < bytes_read s)%N ->
      exists x v, ratio_f64 s = Some x /\ value x = Some v /\ v < 1.
Proof.
  intros H. destruct (H (Stats (2 ^ 53 + 1) (2 ^ 53) 0 0 0)) as (x & v & Hx & Hv & L); [split; reflexivity|reflexivity|].
  assert (E : ratio_f64 (Stats (2 ^ 53 + 1) (2 ^ 53) 0 0 0) = Some (S754_finite false (2 ^ 52) (-52))) by reflexivity.
  rewrite E in Hx. injection Hx as <-. injection Hv as <-. discriminate L.
Qed.
Print Assumptions C79_comparison_refuted.

(** [0.5], [1/3] rounded, the largest and the smallest ratio. *)
Example C79_example :
  ratio_f64 (Stats 20 10 2 1 0) = Some (S754_finite false (2 ^ 52) (-53)) /\
  ratio_f64 (Stats 3 1 1 1 0) = Some (S754_finite false 6004799503160661 (-54)) /\
  ratio_f64 (Stats 1 (2 ^ 64 - 1) 1 1 0) = Some (S754_finite false (2 ^ 52) 12) /\
  ratio_f64 (Stats (2 ^ 64 - 1) 1 1 1 0) = Some (S754_finite false (2 ^ 52) (-116)) /\
  ratio_f64 (Stats 7 0 1 0 0) = Some (S754_zero false) /\ ratio_f64 (Stats 0 7 0 1 0) = None.
Proof. vm_compute. repeat split. Qed.
