(** * PropsStats: what a thread that reads the statistics sees (C78) *)
From Coq Require Import List NArith Bool Lia ZifyBool ZifyN Permutation.
From Verif Require Import Base BaseFacts Env Traffic SpecTraffic StatsProofs StatsView.
Import ListNotations.
Local Open Scope N_scope.

(** The bytes that these operations add. *)
Definition read_in (l : list stat_op) : N := sum (flat_map (fun o => match o with AddBytesRead n => [n] | _ => [] end) l).
Definition written_in (l : list stat_op) : N := sum (flat_map (fun o => match o with AddBytesWritten n => [n] | _ => [] end) l).

Lemma read_in_rb : forall l, read_in l = sum (map rb l).
Proof. induction l as [|o l IH]; [reflexivity|]. unfold read_in, sum in *. destruct o; cbn; rewrite ?IH; reflexivity. Qed.

Lemma written_in_wb : forall l, written_in l = sum (map wb l).
Proof. induction l as [|o l IH]; [reflexivity|]. unfold written_in, sum in *. destruct o; cbn; rewrite ?IH; reflexivity. Qed.

Lemma in_app a b : read_in (a ++ b) = read_in a + read_in b /\ written_in (a ++ b) = written_in a + written_in b.
Proof. rewrite !read_in_rb, !written_in_wb, !map_app, !sum_app. split; reflexivity. Qed.

Lemma in_prefix l (i j : nat) : (i <= j)%nat ->
  read_in (firstn i l) <= read_in (firstn j l) /\ written_in (firstn i l) <= written_in (firstn j l).
Proof.
  intros H. replace (firstn i l) with (firstn i (firstn j l)) by (rewrite firstn_firstn; f_equal; lia).
  rewrite <- (firstn_skipn i (firstn j l)) at 2 4. destruct (in_app (firstn i (firstn j l)) (skipn i (firstn j l))). lia.
Qed.

Lemma threads_total (threads : list (list record)) opss l :
  Forall2 (fun rs ops => thread_ops rs = Ret ops) threads opss -> merges opss l ->
  read_in l = sum (reads_of (concat threads)) /\ written_in l = sum (writes_of (concat threads)).
Proof.
  intros F M. apply merges_perm in M. rewrite read_in_rb, written_in_wb.
  rewrite <- !(sum_perm _ _ (Permutation_map _ M)). clear M l.
  induction F as [|rs ops threads opss T F IH]; [split; reflexivity|]. cbn [concat].
  destruct (thread_ops_sums _ _ T) as (A & B & _). destruct IH as [I1 I2].
  unfold reads_of, writes_of in *. rewrite !flat_map_app, !map_app, !sum_app. rewrite A, B, I1, I2. split; reflexivity.
Qed.

Lemma after_exact t0 s0 l (k : nat) : stats_new t0 = Ret s0 -> read_in l < 2 ^ 64 -> written_in l < 2 ^ 64 ->
  bytes_read (after s0 l k) = read_in (firstn k l) /\ bytes_written (after s0 l k) = written_in (firstn k l).
Proof.
  intros Hn A B. unfold stats_new in Hn. destruct (now_ms t0) as [now| |]; [|discriminate..].
  assert (s0 = Stats 0 0 0 0 now) as -> by now injection Hn as <-.
  destruct (counters (firstn k l) (Stats 0 0 0 0 now)) as (C1 & C2 & _).
  assert (in_range (fold_left stat_step (firstn k l) (Stats 0 0 0 0 now))) as (R1 & R2 & _).
  { apply run_in_range. repeat split; cbn; lia. }
  rewrite <- read_in_rb in C1. rewrite <- written_in_wb in C2. cbn [bytes_read bytes_written] in C1, C2.
  assert (read_in (firstn k l) <= read_in l /\ written_in (firstn k l) <= written_in l) as [L1 L2].
  { rewrite <- (firstn_skipn k l) at 2 4. destruct (in_app (firstn k l) (skipn k l)). lia. }
  rewrite N.mod_small, N.add_0_l, N.mod_small in C1, C2 by lia. split; assumption.
Qed.

(** ** C78 *)

(** What had been recorded when the call began (the first [lo] operations) bounds the two values from below,
    what had been recorded when it returned (the first [hi]) bounds them from above. *)
Theorem C78_bounds : forall t0 s0 threads opss l (lo hi i j : nat),
  stats_new t0 = Ret s0 -> Forall2 (fun rs ops => thread_ops rs = Ret ops) threads opss -> merges opss l ->
  sum (reads_of (concat threads)) < 2 ^ 64 -> sum (writes_of (concat threads)) < 2 ^ 64 ->
  (lo <= i <= hi)%nat -> (lo <= j <= hi)%nat ->
  match ratio_seen s0 l i j with
  | Some (w, r) =>
      read_in (firstn lo l) <= r <= read_in (firstn hi l) /\ 0 < r /\
      written_in (firstn lo l) <= w <= written_in (firstn hi l)
  | None => read_in (firstn lo l) = 0
  end.
Proof.
  intros t0 s0 threads opss l lo hi i j Hn F M L1 L2 Hi Hj.
  destruct (threads_total _ _ _ F M) as [T1 T2]. rewrite <- T1 in L1. rewrite <- T2 in L2.
  destruct (after_exact _ _ l i Hn L1 L2) as [Ai _]. destruct (after_exact _ _ l j Hn L1 L2) as [_ Bj].
  destruct (in_prefix l lo i), (in_prefix l i hi), (in_prefix l lo j), (in_prefix l j hi); try lia.
  unfold ratio_seen. rewrite Ai, Bj. destruct (N.eqb_spec (read_in (firstn i l)) 0); lia.
Qed.
Print Assumptions C78_bounds.

(** A call that sees every recording gives the exact totals. *)
Theorem C78_settled : forall t0 s0 threads opss l (i j : nat),
  stats_new t0 = Ret s0 -> Forall2 (fun rs ops => thread_ops rs = Ret ops) threads opss -> merges opss l ->
  sum (reads_of (concat threads)) < 2 ^ 64 -> sum (writes_of (concat threads)) < 2 ^ 64 ->
  (length l <= i)%nat -> (length l <= j)%nat ->
  ratio_seen s0 l i j =
    if sum (reads_of (concat threads)) =? 0 then None
    else Some (sum (writes_of (concat threads)), sum (reads_of (concat threads))).
Proof.
  intros t0 s0 threads opss l i j Hn F M L1 L2 Hi Hj.
  destruct (threads_total _ _ _ F M) as [T1 T2]. rewrite <- T1, <- T2 in *.
  destruct (after_exact _ _ l i Hn L1 L2) as [Ai _]. destruct (after_exact _ _ l j Hn L1 L2) as [_ Bj].
  unfold ratio_seen. rewrite Ai, Bj, !firstn_all2 by assumption. reflexivity.
Qed.
Print Assumptions C78_settled.

(** Of two calls one after the other in a thread, the second sees no smaller values; in particular a ratio
    does not disappear again. *)
Theorem C78_monotone : forall t0 s0 threads opss l (i j i' j' : nat) w r,
  stats_new t0 = Ret s0 -> Forall2 (fun rs ops => thread_ops rs = Ret ops) threads opss -> merges opss l ->
  sum (reads_of (concat threads)) < 2 ^ 64 -> sum (writes_of (concat threads)) < 2 ^ 64 ->
  (i <= i')%nat -> (j <= j')%nat -> ratio_seen s0 l i j = Some (w, r) ->
  exists w' r', ratio_seen s0 l i' j' = Some (w', r') /\ w <= w' /\ r <= r'.
Proof.
  intros t0 s0 threads opss l i j i' j' w r Hn F M L1 L2 Hi Hj H.
  destruct (threads_total _ _ _ F M) as [T1 T2]. rewrite <- T1 in L1. rewrite <- T2 in L2.
  unfold ratio_seen in *.
  destruct (after_exact _ _ l i Hn L1 L2) as [Ai _]. destruct (after_exact _ _ l j Hn L1 L2) as [_ Bj].
  destruct (after_exact _ _ l i' Hn L1 L2) as [Ai' _]. destruct (after_exact _ _ l j' Hn L1 L2) as [_ Bj'].
  rewrite Ai, Bj in H. rewrite Ai', Bj'. destruct (in_prefix l i i' Hi), (in_prefix l j j' Hj).
  destruct (N.eqb_spec (read_in (firstn i l)) 0); [discriminate|]. injection H as <- <-.
  destruct (N.eqb_spec (read_in (firstn i' l)) 0); [lia|]. eexists _, _. split; [reflexivity|]. split; assumption.
Qed.
Print Assumptions C78_monotone.

(** A thread that answers every message with one of the same size. *)
Definition echo : list record :=
  [RecordRead 10 (AtMillis 1); RecordWrite 10 (AtMillis 2); RecordRead 10 (AtMillis 3); RecordWrite 10 (AtMillis 4)].
Definition echo_ops : list stat_op :=
  [AddBytesRead 10; AddMessagesRead; StoreActivity 1; AddBytesWritten 10; AddMessagesWritten; StoreActivity 2;
   AddBytesRead 10; AddMessagesRead; StoreActivity 3; AddBytesWritten 10; AddMessagesWritten; StoreActivity 4].

Lemma echo_threads : Forall2 (fun rs ops => thread_ops rs = Ret ops) [echo] [echo_ops].
Proof. repeat constructor. Qed.

Lemma alone {A} : forall l : list A, merges [l] l.
Proof. induction l as [|x l IH]; [repeat constructor|]. now apply (merges_cons [] x l []). Qed.

(** The two values need not have been those of the counters at one moment, even if the loads are in the order
    of the program. *)
Theorem C78_one_moment_refuted :
  ~ forall t0 s0 threads opss l (i j : nat),
      stats_new t0 = Ret s0 -> Forall2 (fun rs ops => thread_ops rs = Ret ops) threads opss -> merges opss l ->
      (i <= j)%nat ->
      exists k, ratio_seen s0 l i j = write_read_ratio (after s0 l k).
Proof.
  intros H.
  destruct (H (AtMillis 0) _ _ _ echo_ops 3%nat 12%nat eq_refl echo_threads (alone _) ltac:(lia)) as [k K].
  change (Some (20, 10) = write_read_ratio (after (Stats 0 0 0 0 0) echo_ops k)) in K.
  do 12 (destruct k as [|k]; [discriminate K|]).
  unfold after in K. rewrite firstn_all2 in K by (cbn; lia). discriminate K.
Qed.
Print Assumptions C78_one_moment_refuted.

(** Nor does the ratio stay within the bounds that hold at every moment: of an application that never has
    written more than it has read, more can be seen written than read. *)
Theorem C78_invariant_refuted :
  ~ forall t0 s0 threads opss l (i j : nat) w r,
      stats_new t0 = Ret s0 -> Forall2 (fun rs ops => thread_ops rs = Ret ops) threads opss -> merges opss l ->
      (forall k, bytes_written (after s0 l k) <= bytes_read (after s0 l k)) ->
      (i <= j)%nat -> ratio_seen s0 l i j = Some (w, r) -> w <= r.
Proof.
  intros H.
  assert (20 <= 10); [|lia].
  apply (H (AtMillis 0) _ _ _ echo_ops 3%nat 12%nat 20 10 eq_refl echo_threads (alone _)); [|lia|reflexivity].
  intros k. do 12 (destruct k as [|k]; [vm_compute; discriminate|]).
  unfold after. rewrite firstn_all2 by (cbn; lia). vm_compute. discriminate.
Qed.
Print Assumptions C78_invariant_refuted.

(** [new] starts the idle time at the creation. *)
Theorem C78_since_creation : forall created now s0,
  created <= now -> now < 2 ^ 64 -> stats_new (AtMillis created) = Ret s0 ->
  time_since_last_activity s0 (AtMillis now) = Ret (now - created).
Proof.
  intros created now s0 L R H. injection H as <-. unfold time_since_last_activity, wrap64. cbn [now_ms bind last_activity_ms].
  unfold wrap64. rewrite !N.mod_small by lia. destruct (N.ltb_spec now created); [lia|reflexivity].
Qed.
Print Assumptions C78_since_creation.

(** [default], which the type offers too, starts it at the epoch. *)
Theorem C78_default : forall now, now < 2 ^ 64 -> time_since_last_activity stats_default (AtMillis now) = Ret now.
Proof.
  intros now R. unfold time_since_last_activity, stats_default. cbn [now_ms bind last_activity_ms].
  unfold wrap64. rewrite N.mod_small by assumption. destruct (N.ltb_spec now 0); [lia|]. now rewrite N.sub_0_r.
Qed.
Print Assumptions C78_default.

Theorem C78_default_since_creation_refuted :
  ~ forall created now, created <= now -> now < 2 ^ 64 ->
      time_since_last_activity stats_default (AtMillis now) = Ret (now - created).
Proof. intros H. specialize (H 1 1 ltac:(lia) ltac:(lia)). discriminate H. Qed.
Print Assumptions C78_default_since_creation_refuted.

Example C78_example :
  let s0 := Stats 0 0 0 0 0 in
  map (fun k => write_read_ratio (after s0 echo_ops k)) [0; 1; 4; 7; 10]%nat =
    [None; Some (0, 10); Some (10, 10); Some (10, 20); Some (20, 20)] /\
  ratio_seen s0 echo_ops 1 12 = Some (20, 10) /\
  ratio_seen s0 echo_ops 12 0 = Some (0, 20) /\
  ratio_seen s0 echo_ops 0 12 = None /\
  idle_seen s0 echo_ops 6 (AtMillis 5) = Ret 3 /\
  idle_seen s0 echo_ops 12 (AtMillis 2) = Ret 0.
Proof. vm_compute. repeat split. Qed.
