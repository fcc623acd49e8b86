(** * Property C111: how long dropping a blocking shaped writer takes *)
From Coq Require Import List NArith Bool Arith Lia.
From Coq.Strings Require Import Byte.
From Verif Require Import Base BaseFacts Env FsChacha Cipher Handshake Transport Io Toy PropsHandshake PropsIo
  Traffic TrafficIo TrafficFutures SpecTraffic TrafficProofs TrafficIoProofs PropsTraffic TrafficTask Timed SpecTimed PropsTimed SpecCover.
Import ListNotations.
Local Open Scope N_scope.

Section Drop.
Context {E : Env} {G : Type} {R : Rng G}.

(** The thread never sleeps for more than a period. *)
Lemma wakes_soon : forall ms (s s' : @timed_shared G), ts_wake s <= ts_now s + 100 -> timed_play s ms = Some s' -> ts_wake s' <= ts_now s' + 100.
Proof.
  induction ms as [|m ms IH]; intros s s' W H; cbn [timed_play] in H; [injection H as <-; exact W|].
  destruct (timed_do s m) as [s1|] eqn:D; [|discriminate]. apply (IH s1 s'); [|exact H]. clear H IH.
  destruct m as [d|mv]; cbn [timed_do] in D; [injection D as <-; cbn [ts_wake ts_now]; lia|].
  assert (forall t, match do_move (ts_shared s) t with Some s' => Some (TimedShared s' (ts_wake s) (ts_now s) (ts_decoys s)) | None => None end = Some s1 ->
    ts_wake s1 <= ts_now s1 + 100) as A by (intros t Q; destruct (do_move (ts_shared s) t); [injection Q as <-; exact W|discriminate]).
  destruct mv; [exact (A _ D)..|]. unfold timed_thread in D. destruct (thread_step _) as [t|]; [|discriminate].
  destruct (thread_at _); try (injection D as <-; cbn [ts_wake ts_now]; unfold DEFAULT_CHECK_INTERVAL_MS; lia).
  destruct (_ <=? _); [|discriminate]. injection D as <-. cbn [ts_wake ts_now]. lia.
Qed.

Lemma drop_called (s s0 : @timed_shared G) : timed_do s (Acts CallDrop) = Some s0 ->
  app_at (ts_shared s0) = AppJoin /\ shutdown (ts_shared s0) = true /\ thread_at (ts_shared s0) = thread_at (ts_shared s) /\
  ts_wake s0 = ts_wake s /\ ts_now s0 = ts_now s /\ ts_decoys s0 = ts_decoys s.
Proof.
  cbn [timed_do do_move]. destruct (app_at (ts_shared s)); intros H; try discriminate; injection H as <-; cbn; auto 10.
Qed.

(** While the thread sleeps, drop waits. *)
Lemma join_waits w : forall ms (s s' : @timed_shared G),
  thread_at (ts_shared s) = ThSleep /\ ts_wake s = w /\ app_at (ts_shared s) = AppJoin \/ w <= ts_now s ->
  timed_play s ms = Some s' ->
  thread_at (ts_shared s') = ThSleep /\ ts_wake s' = w /\ app_at (ts_shared s') = AppJoin \/ w <= ts_now s'.
Proof.
  induction ms as [|m ms IH]; intros s s' P H; cbn [timed_play] in H; [injection H as <-; exact P|].
  destruct (timed_do s m) as [s1|] eqn:D; [|discriminate]. apply (IH s1 s'); [|exact H]. clear H IH.
  destruct P as [(Th & Wk & Ap)|P].
  - destruct m as [d|[pl| | |]]; cbn [timed_do do_move] in D.
    + injection D as <-. left. auto.
    + rewrite Ap in D. discriminate.
    + rewrite Ap in D. discriminate.
    + unfold app_step in D. rewrite Ap, Th in D. discriminate.
    + unfold timed_thread, thread_step in D. rewrite Th in D. destruct (ts_wake s <=? ts_now s) eqn:Q; [|discriminate]. injection D as <-.
      apply N.leb_le in Q. right. cbn [ts_now]. lia.
  - right. destruct m as [d|mv]; cbn [timed_do] in D; [injection D as <-; cbn [ts_now]; lia|].
    assert (forall t, match do_move (ts_shared s) t with Some s' => Some (TimedShared s' (ts_wake s) (ts_now s) (ts_decoys s)) | None => None end = Some s1 ->
      w <= ts_now s1) as A by (intros t Q; destruct (do_move (ts_shared s) t); [injection Q as <-; exact P|discriminate]).
    destruct mv; [exact (A _ D)..|]. unfold timed_thread in D. destruct (thread_step _) as [t|]; [|discriminate].
    destruct (thread_at _); try (injection D as <-; exact P). destruct (_ <=? _); [|discriminate]. injection D as <-. exact P.
Qed.

(** After the call of drop at [t], with decoys [ds] so far, if the thread is not late. *)
Definition ending (t : N) (ds : list N) (s : @timed_shared G) : Prop :=
  (app_at (ts_shared s) = AppJoin \/ app_at (ts_shared s) = AppDropped) /\ shutdown (ts_shared s) = true /\
  let one_more := ts_decoys s = ds \/ exists d, ts_decoys s = ds ++ [d] /\ d <= t + 100 in
  match thread_at (ts_shared s) with
  | ThSleep => ts_wake s <= t + 100 /\ ts_now s <= t + 100 /\ ts_decoys s = ds
  | ThTryLock | ThDecoy => ts_now s <= t + 100 /\ ts_decoys s = ds
  | ThCheck | ThWrite _ => ts_now s <= t + 100 /\ one_more
  | ThDone | ThPanicked => one_more
  end.

Lemma ending_step t ds s m s' : ending t ds s -> punctual_thread s [m] -> timed_do s m = Some s' -> ending t ds s'.
Proof.
  intros (Ap & Sd & K) P D. cbn [punctual_thread] in P. destruct P as [P _]. unfold ending. destruct m as [d|mv]; cbn [timed_do] in D.
  - injection D as <-. cbn [ts_shared ts_decoys ts_now ts_wake]. split; [exact Ap|]. split; [exact Sd|].
    destruct (thread_at (ts_shared s)); cbv zeta in *; try (subst d; rewrite N.add_0_r; exact K); try exact K. destruct K as (K1 & K2 & K3). split; [exact K1|]. split; [lia|exact K3].
  - destruct mv as [pl| | |].
    + cbn [do_move] in D. destruct Ap as [Ap|Ap]; rewrite Ap in D; discriminate.
    + cbn [do_move] in D. destruct Ap as [Ap|Ap]; rewrite Ap in D; discriminate.
    + cbn [do_move] in D. unfold app_step in D. destruct Ap as [Ap|Ap]; rewrite Ap in D; [|discriminate].
      destruct (thread_at (ts_shared s)) eqn:Th; try discriminate; injection D as <-; cbn [ts_shared ts_decoys ts_now ts_wake set_app app_at shutdown thread_at]; rewrite Th;
        (split; [now right|]; split; [exact Sd|exact K]).
    + unfold timed_thread, thread_step in D. destruct (thread_at (ts_shared s)) as [| | | |d| |] eqn:Th; try discriminate; cbv zeta in K.
      * injection D as <-. rewrite Sd. cbn. split; [exact Ap|]. split; [exact Sd|]. apply K.
      * destruct (ts_wake s <=? ts_now s); [|discriminate]. injection D as <-. cbn. split; [exact Ap|]. split; [exact Sd|]. split; apply K.
      * injection D as <-. destruct (lock _); [destruct (poisoned _)|..]; cbn; (split; [exact Ap|]; split; [exact Sd|]); (split; [apply K|]); try apply K; left; apply K.
      * injection D as <-. unfold makes_decoy. destruct K as (K1 & K2). destruct (shaper_decoy _) as [[[d|] sh] recs]; cbn [fst ts_shared ts_decoys ts_now ts_wake]; cbn;
          (split; [exact Ap|]; split; [exact Sd|]); (split; [exact K1|]).
        -- right. exists (ts_now s). rewrite K2. split; [reflexivity|exact K1].
        -- left. rewrite app_nil_r. exact K2.
      * injection D as <-. destruct (sync_write _ _) as [[x w]| |]; cbn; (split; [exact Ap|]; split; [exact Sd|]); [exact K|apply K..].
Qed.

Lemma ending_play t ds : forall ms s s', ending t ds s -> punctual_thread s ms -> timed_play s ms = Some s' -> ending t ds s'.
Proof.
  induction ms as [|m ms IH]; intros s s' X P H; cbn [timed_play] in H; [injection H as <-; exact X|].
  destruct (timed_do s m) as [s1|] eqn:D; [|discriminate]. cbn [punctual_thread] in P. rewrite D in P. destruct P as [P1 P].
  apply (IH s1 s'); [|exact P|exact H]. apply (ending_step t ds s m s1 X); [|exact D]. cbn [punctual_thread]. rewrite D. auto.
Qed.

End Drop.

(** ** C111 *)

(** If the thread sleeps when drop is called, drop does not return before it wakes up: up to 100 ms later. *)
Theorem C111_waits : forall (E : Env) (G : Type) (R : Rng G) start p (sh : shaper G) recs ms s s0 ms' s1,
  timed_play (timed_shared_new start p sh recs) ms = Some s -> thread_at (ts_shared s) = ThSleep ->
  timed_do s (Acts CallDrop) = Some s0 -> timed_play s0 ms' = Some s1 -> app_at (ts_shared s1) = AppDropped ->
  ts_wake s <= ts_now s1 /\ ts_wake s <= ts_now s + 100.
Proof.
  intros E G R start p sh recs ms s s0 ms' s1 H Th D P Ap. split; [|apply (wakes_soon ms (timed_shared_new start p sh recs) s); [cbn; lia|exact H]].
  destruct (drop_called s s0 D) as (A & _ & T & W & _). destruct (join_waits (ts_wake s) ms' s0 s1) as [(_ & _ & Q)|Q]; [left; rewrite T, W; auto|exact P| |exact Q].
  rewrite Ap in Q. discriminate.
Qed.
Print Assumptions C111_waits.

(** If the thread is not late, it is there for 100 ms at most after the call, and makes one decoy at most in this time. *)
Theorem C111_within : forall (E : Env) (G : Type) (R : Rng G) start p (sh : shaper G) recs ms s s0 ms' s1,
  timed_play (timed_shared_new start p sh recs) ms = Some s -> timed_do s (Acts CallDrop) = Some s0 ->
  punctual_thread s0 ms' -> timed_play s0 ms' = Some s1 ->
  (ts_decoys s1 = ts_decoys s \/ exists d, ts_decoys s1 = ts_decoys s ++ [d] /\ d <= ts_now s + 100) /\
  (ts_now s + 100 < ts_now s1 -> thread_at (ts_shared s1) = ThDone \/ thread_at (ts_shared s1) = ThPanicked).
Proof.
  intros E G R start p sh recs ms s s0 ms' s1 H D P Q. destruct (drop_called s s0 D) as (A & Sd & T & W & N0 & Ds).
  assert (X : ending (ts_now s) (ts_decoys s) s0).
  { split; [now left|]. split; [exact Sd|]. cbv zeta. rewrite Ds, N0, W.
    pose proof (wakes_soon ms (timed_shared_new start p sh recs) s ltac:(cbn; lia) H).
    destruct (thread_at (ts_shared s0)); repeat split; auto; lia. }
  destruct (ending_play _ _ _ _ _ X P Q) as (_ & _ & K). cbv zeta in K.
  destruct (thread_at (ts_shared s1)); try (destruct K as (K1 & K)); try (destruct K as (K2 & K)); split; auto; lia.
Qed.
Print Assumptions C111_within.

Section Returns.
Context {E : Env} {G : Type} {R : Rng G}.

Definition finishes (n : nat) (s : @timed_shared G) : Prop :=
  exists k s1, (k <= n)%nat /\ timed_play s (repeat (Acts Thread) k ++ [Acts App]) = Some s1 /\
    app_at (ts_shared s1) = AppDropped /\ ts_now s1 = ts_now s.

Lemma finishes_step n (s s' : @timed_shared G) : timed_do s (Acts Thread) = Some s' -> ts_now s' = ts_now s -> finishes n s' -> finishes (S n) s.
Proof.
  intros D N' (k & s1 & L & P & A & N1). exists (S k), s1. split; [lia|]. split; [|split; [exact A|congruence]].
  cbn [repeat app timed_play]. rewrite D. exact P.
Qed.

Lemma finishes_more n (s : @timed_shared G) : finishes n s -> finishes (S n) s.
Proof. intros (k & s1 & L & P). exists k, s1. split; [lia|exact P]. Qed.

Lemma finishes_from : forall s : @timed_shared G, app_at (ts_shared s) = AppJoin -> shutdown (ts_shared s) = true ->
  match thread_at (ts_shared s) with
  | ThDone | ThPanicked => finishes 0 s
  | ThCheck => finishes 1 s
  | ThWrite _ => finishes 2 s
  | ThDecoy => finishes 3 s
  | ThTryLock => finishes 4 s
  | ThSleep => ts_wake s <= ts_now s -> finishes 5 s
  end.
Proof.
  assert (C0 : forall s : @timed_shared G, app_at (ts_shared s) = AppJoin -> thread_at (ts_shared s) = ThDone \/ thread_at (ts_shared s) = ThPanicked -> finishes 0 s).
  { intros [sh w n d] A T. cbn [ts_shared] in *. exists 0%nat. cbn [repeat app timed_play timed_do do_move ts_shared]. unfold app_step. rewrite A.
    destruct T as [-> | ->]; (eexists; split; [lia|]; split; [reflexivity|]; split; reflexivity). }
  assert (C1 : forall s : @timed_shared G, app_at (ts_shared s) = AppJoin -> shutdown (ts_shared s) = true -> thread_at (ts_shared s) = ThCheck -> finishes 1 s).
  { intros [sh w n d] A S T. cbn [ts_shared] in *. eapply finishes_step; [cbn [timed_do]; unfold timed_thread, thread_step; cbn [ts_shared]; rewrite T, S; reflexivity|reflexivity|].
    apply C0; [exact A|now left]. }
  assert (C2 : forall s d, app_at (@ts_shared G s) = AppJoin -> shutdown (ts_shared s) = true -> thread_at (ts_shared s) = ThWrite d -> finishes 2 s).
  { intros [sh w n ds] d A S T. cbn [ts_shared] in *. eapply finishes_step; [cbn [timed_do]; unfold timed_thread, thread_step; cbn [ts_shared]; rewrite T; reflexivity|reflexivity|].
    destruct (sync_write _ _) as [[x w']| |]; [now apply C1|apply finishes_more, C0; [exact A|now right]..]. }
  assert (C3 : forall s : @timed_shared G, app_at (ts_shared s) = AppJoin -> shutdown (ts_shared s) = true -> thread_at (ts_shared s) = ThDecoy -> finishes 3 s).
  { intros [sh w n ds] A S T. cbn [ts_shared] in *. eapply finishes_step; [cbn [timed_do]; unfold timed_thread, thread_step; cbn [ts_shared]; rewrite T; reflexivity|reflexivity|].
    destruct (shaper_decoy _) as [[[d|] sh'] recs]; [eapply C2; [exact A|exact S|reflexivity]|apply finishes_more, C1; [exact A|exact S|reflexivity]]. }
  assert (C4 : forall s : @timed_shared G, app_at (ts_shared s) = AppJoin -> shutdown (ts_shared s) = true -> thread_at (ts_shared s) = ThTryLock -> finishes 4 s).
  { intros [sh w n ds] A S T. cbn [ts_shared] in *. eapply finishes_step; [cbn [timed_do]; unfold timed_thread, thread_step; cbn [ts_shared]; rewrite T; reflexivity|reflexivity|].
    destruct (lock sh); [destruct (poisoned sh)|..]; [do 2 apply finishes_more; apply C1|apply C3|do 2 apply finishes_more; apply C1..]; try exact A; try exact S; reflexivity. }
  intros s A S. destruct (thread_at (ts_shared s)) eqn:T; eauto. intros W. destruct s as [sh w n ds]. cbn [ts_shared ts_wake ts_now] in *.
  eapply finishes_step; [cbn [timed_do]; unfold timed_thread, thread_step; cbn [ts_shared ts_wake ts_now]; rewrite T, (proj2 (N.leb_le _ _) W); reflexivity|reflexivity|].
  apply C4; [exact A|exact S|reflexivity].
Qed.

End Returns.

(** And it does return within 100 ms and five moves of the thread, if the thread gets them in time. *)
Theorem C111_returns : forall (E : Env) (G : Type) (R : Rng G) start p (sh : shaper G) recs ms s s0,
  timed_play (timed_shared_new start p sh recs) ms = Some s -> timed_do s (Acts CallDrop) = Some s0 ->
  exists d k s1, let ms' := Later d :: repeat (Acts Thread) k ++ [Acts App] in
    d <= 100 /\ (k <= 5)%nat /\ timed_play s0 ms' = Some s1 /\
    app_at (ts_shared s1) = AppDropped /\ ts_now s1 = ts_now s + d.
Proof.
  intros E G R start p sh recs ms s s0 H D. destruct (drop_called s s0 D) as (A & Sd & T & W & N0 & Ds).
  pose proof (wakes_soon ms (timed_shared_new start p sh recs) s ltac:(cbn; lia) H) as Wk. clear H D. rewrite <- W, <- N0 in *. clear W N0 T Ds s ms.
  set (d := match thread_at (ts_shared s0) with ThSleep => ts_wake s0 - ts_now s0 | _ => 0 end).
  set (s' := TimedShared (ts_shared s0) (ts_wake s0) (ts_now s0 + d) (ts_decoys s0)).
  assert (F : finishes 5 s').
  { pose proof (finishes_from s' A Sd) as F. change (thread_at (ts_shared s')) with (thread_at (ts_shared s0)) in F.
    assert (Mo : forall n, (n <= 5)%nat -> finishes n s' -> finishes 5 s') by (intros n L (k & s1 & L1 & Q); exists k, s1; split; [lia|exact Q]).
    destruct (thread_at (ts_shared s0)) eqn:Th; try (eapply Mo; [|exact F]; lia). apply F. unfold s', d. cbn [ts_wake ts_now]. lia. }
  destruct F as (k & s1 & L & P & Q & N1). exists d, k, s1. cbv zeta. split; [unfold d; destruct (thread_at _); lia|]. split; [exact L|].
  assert (timed_do s0 (Later d) = Some s') as D by reflexivity. split; [cbn [timed_play]; rewrite D; exact P|]. split; [exact Q|exact N1].
Qed.
Print Assumptions C111_returns.

(** So drop may take its time: 100 ms for a thread that has just gone to sleep. *)
Theorem C111_at_once_refuted :
  ~ forall (E : Env) (EL : EnvLaws E) (G : Type) (R : Rng G) (RL : RngLaws G R) start p (sh : shaper G) recs ms s s0,
      timed_play (timed_shared_new start p sh recs) ms = Some s -> timed_do s (Acts CallDrop) = Some s0 ->
      exists ms' s1, timed_play s0 ms' = Some s1 /\ app_at (ts_shared s1) = AppDropped /\ ts_now s1 < ts_now s0 + 100.
Proof.
  intros H.
  destruct (H (toy true) (toy_laws true) _ draws draws_laws 0 toy_writer (Shaper all_random []) [] [Acts Thread] _ _ eq_refl eq_refl) as (ms' & s1 & P & A & L).
  pose proof (C111_waits (toy true) _ draws 0 toy_writer (Shaper all_random []) [] [Acts Thread] _ _ ms' s1 eq_refl eq_refl eq_refl P A) as [Q _].
  match type of Q with ?w <= _ => assert (Ew : w = 100) by reflexivity; rewrite Ew in Q end.
  match type of L with _ < ?w => assert (El : w = 100) by reflexivity; rewrite El in L end. lia.
Qed.
Print Assumptions C111_at_once_refuted.

(** The thread checks at 0 and sleeps; drop is called at 30 ms; at 99 ms it waits yet; at 100 ms the thread wakes up, makes one more decoy and ends,
    and drop returns. *)
Example C111_example :
  let s0 := timed_shared_new 0 toy_writer (Shaper all_random [99; 4; 99; 5]) [] in
  let play := @timed_play (toy true) _ draws in
  let waits := [Acts Thread; Later 30; Acts CallDrop; Later 69] in
  match play s0 waits with
  | Some s =>
    app_at (ts_shared s) = AppJoin /\ play s [Acts App] = None /\ play s [Acts Thread] = None /\
    match play s (Later 1 :: repeat (Acts Thread) 5 ++ [Acts App]) with
    | Some s1 => app_at (ts_shared s1) = AppDropped /\ ts_now s1 = 100 /\ ts_decoys s1 = [100] /\ play s1 [Acts Thread] = None
    | None => False
    end
  | None => False
  end /\
  (* a thread that has yet to test the flag ends at once *)
  match play s0 [Later 30; Acts CallDrop; Acts Thread; Acts App] with
  | Some s => app_at (ts_shared s) = AppDropped /\ ts_now s = 30 /\ ts_decoys s = []
  | None => False
  end.
Proof. vm_compute. repeat split. Qed.
Print Assumptions C111_example.
