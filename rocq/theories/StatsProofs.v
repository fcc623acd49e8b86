(** * StatsProofs: the atomic counters under every interleaving *)
From Coq Require Import List NArith Bool Lia ZifyBool ZifyN Permutation.
From Verif Require Import Base BaseFacts Env Traffic SpecTraffic.
Import ListNotations.
Local Open Scope N_scope.

Lemma merges_perm {A} (ls : list (list A)) l : merges ls l -> Permutation (concat ls) l.
Proof.
  induction 1 as [ls F|before x l after r H IH].
  - replace (concat ls) with (@nil A); [constructor|]. induction F as [|l ls -> F IH]; [reflexivity|]. exact IH.
  - rewrite concat_app in *. cbn [concat] in *.
    etransitivity; [symmetry; apply Permutation_middle|]. now constructor.
Qed.

Definition rb (o : stat_op) : N := match o with AddBytesRead n => n | _ => 0 end.
Definition wb (o : stat_op) : N := match o with AddBytesWritten n => n | _ => 0 end.
Definition rm (o : stat_op) : N := match o with AddMessagesRead => 1 | _ => 0 end.
Definition wm (o : stat_op) : N := match o with AddMessagesWritten => 1 | _ => 0 end.
Definition stores (l : list stat_op) : list N :=
  flat_map (fun o => match o with StoreActivity n => [n] | _ => [] end) l.

Lemma sum_app a b : sum (a ++ b) = sum a + sum b.
Proof. induction a as [|x a IH]; cbn; [reflexivity|]. unfold sum in *. rewrite IH. lia. Qed.

Lemma sum_perm a b : Permutation a b -> sum a = sum b.
Proof. induction 1; cbn in *; unfold sum in *; cbn in *; lia. Qed.

Lemma add_wrap a b : (wrap64 a + b) mod 2 ^ 64 = (a + b) mod 2 ^ 64.
Proof. unfold wrap64. apply N.add_mod_idemp_l. discriminate. Qed.

Lemma last_default {A} : forall (r : list A) x d d', last (x :: r) d = last (x :: r) d'.
Proof. induction r as [|y r IH]; intros x d d'; [reflexivity|]. apply (IH y d d'). Qed.

Lemma counters : forall l s,
  let s' := fold_left stat_step l s in
  bytes_read s' mod 2 ^ 64 = (bytes_read s + sum (map rb l)) mod 2 ^ 64 /\
  bytes_written s' mod 2 ^ 64 = (bytes_written s + sum (map wb l)) mod 2 ^ 64 /\
  messages_read s' mod 2 ^ 64 = (messages_read s + sum (map rm l)) mod 2 ^ 64 /\
  messages_written s' mod 2 ^ 64 = (messages_written s + sum (map wm l)) mod 2 ^ 64 /\
  last_activity_ms s' = last (stores l) (last_activity_ms s).
Proof.
  induction l as [|o l IH]; intros s; cbn [fold_left map sum fold_right stores flat_map last].
  - rewrite !N.add_0_r. auto.
  - specialize (IH (stat_step s o)). cbn zeta in *. destruct IH as (I1 & I2 & I3 & I4 & I5).
    fold (sum (map rb l)) (sum (map wb l)) (sum (map rm l)) (sum (map wm l)) (stores l).
    rewrite I1, I2, I3, I4, I5.
    destruct o; cbn [stat_step rb wb rm wm bytes_read bytes_written messages_read messages_written last_activity_ms];
      rewrite ?add_wrap, ?N.add_0_l, ?N.add_assoc; repeat split; try reflexivity.
    cbn [app]. destruct (stores l) as [|a rest]; [reflexivity|].
    apply (last_default rest a).
Qed.

Definition in_range (s : stats) : Prop :=
  bytes_read s < 2 ^ 64 /\ bytes_written s < 2 ^ 64 /\ messages_read s < 2 ^ 64 /\ messages_written s < 2 ^ 64.

Lemma step_in_range s o : in_range s -> in_range (stat_step s o).
Proof.
  intros (A & B & C & D).
  assert (W : forall n, wrap64 n < 2 ^ 64) by (intros n; apply N.mod_lt; discriminate).
  destruct o; unfold in_range; cbn [stat_step bytes_read bytes_written messages_read messages_written]; auto.
Qed.

Lemma run_in_range : forall l s, in_range s -> in_range (fold_left stat_step l s).
Proof. induction l as [|o l IH]; intros s H; cbn [fold_left]; [assumption|]. apply IH. now apply step_in_range. Qed.

Lemma thread_ops_sums : forall rs ops, thread_ops rs = Ret ops ->
  sum (map rb ops) = sum (reads_of rs) /\ sum (map wb ops) = sum (writes_of rs) /\
  sum (map rm ops) = N.of_nat (length (reads_of rs)) /\ sum (map wm ops) = N.of_nat (length (writes_of rs)) /\
  stores ops = times_of rs.
Proof.
  induction rs as [|r rs IH]; intros ops H; cbn [thread_ops] in H.
  - injection H as <-. repeat split.
  - destruct (record_ops r) as [a| |] eqn:Ra; [|discriminate..]. cbn [bind] in H.
    destruct (thread_ops rs) as [b| |]; [|discriminate..]. injection H as <-.
    destruct (IH b eq_refl) as (I1 & I2 & I3 & I4 & I5).
    rewrite !map_app, !sum_app. unfold stores, reads_of, writes_of, times_of in *.
    rewrite flat_map_app, I1, I2, I3, I4, I5.
    destruct r as [n [|t]|n [|t]]; cbn in Ra; try discriminate; injection Ra as <-; cbn [map flat_map app sum fold_right rb wb rm wm length];
      unfold sum; cbn [fold_right]; repeat split; try lia; try reflexivity.
Qed.

Theorem stats_sums t0 s0 threads opss l :
  stats_new t0 = Ret s0 -> Forall2 (fun rs ops => thread_ops rs = Ret ops) threads opss -> merges opss l ->
  let s := fold_left stat_step l s0 in
  bytes_read s = sum (reads_of (concat threads)) mod 2 ^ 64 /\
  bytes_written s = sum (writes_of (concat threads)) mod 2 ^ 64 /\
  messages_read s = N.of_nat (length (reads_of (concat threads))) mod 2 ^ 64 /\
  messages_written s = N.of_nat (length (writes_of (concat threads))) mod 2 ^ 64 /\
  (In (last_activity_ms s) (times_of (concat threads)) \/
   (times_of (concat threads) = [] /\ last_activity_ms s = last_activity_ms s0)).
Proof.
  intros Hn F M s.
  assert (s0 = Stats 0 0 0 0 (last_activity_ms s0)) as S0.
  { unfold stats_new in Hn. destruct (now_ms t0); try discriminate. now injection Hn as <-. }
  assert (thread_ops (concat threads) = Ret (concat opss)) as T.
  { clear -F. assert (A : forall a b x y, thread_ops a = Ret x -> thread_ops b = Ret y -> thread_ops (a ++ b) = Ret (x ++ y)).
    { induction a as [|r a IH]; intros b x y H1 H2; cbn [thread_ops app] in *.
      - injection H1 as <-. assumption.
      - destruct (record_ops r) as [z| |]; [|discriminate..]. cbn [bind] in *.
        destruct (thread_ops a) as [w| |]; [|discriminate..]. cbn [bind] in *. injection H1 as <-.
        rewrite (IH b w y eq_refl H2). cbn [bind]. now rewrite app_assoc. }
    induction F; [reflexivity|]. cbn [concat]. now apply A. }
  destruct (thread_ops_sums _ _ T) as (T1 & T2 & T3 & T4 & T5).
  apply merges_perm in M.
  destruct (counters l s0) as (C1 & C2 & C3 & C4 & C5). fold s in C1, C2, C3, C4, C5.
  assert (in_range s) as (R1 & R2 & R3 & R4).
  { apply run_in_range. rewrite S0. repeat split; cbn; lia. }
  rewrite N.mod_small in C1, C2, C3, C4 by assumption.
  assert (P : forall f : stat_op -> N, sum (map f l) = sum (map f (concat opss))).
  { intros f. apply sum_perm. apply Permutation_map. now symmetry. }
  rewrite P in C1, C2, C3, C4. rewrite T1 in C1. rewrite T2 in C2. rewrite T3 in C3. rewrite T4 in C4.
  rewrite S0 in C1, C2, C3, C4. cbn [bytes_read bytes_written messages_read messages_written] in C1, C2, C3, C4.
  rewrite N.add_0_l in C1, C2, C3, C4. repeat split; try assumption.
  assert (Permutation (stores (concat opss)) (stores l)) as Ps.
  { unfold stores. clear -M. induction M; cbn.
    - constructor.
    - now apply Permutation_app_head.
    - rewrite !app_assoc. apply Permutation_app_tail. apply Permutation_app_comm.
    - etransitivity; eassumption. }
  rewrite T5 in Ps. rewrite C5. destruct (stores l) as [|a rest] eqn:Sl.
  - right. split; [|reflexivity]. now apply Permutation_nil, Permutation_sym.
  - left. eapply Permutation_in; [symmetry; exact Ps|]. 
    assert (Q : forall (r : list N) x d, In (last (x :: r) d) (x :: r)).
    { clear. induction r as [|y r IH]; intros x d; [now left|]. right. apply (IH y d). }
    apply Q.
Qed.

