(** * Property C109: how long a command waits behind ticks that are due *)
From Coq Require Import List NArith Bool Arith Lia.
From Coq.Strings Require Import Byte.
From Verif Require Import Base BaseFacts Env FsChacha Cipher Histories CipherProofs Handshake
  Transport Io SpecIo Futures Sessions SessionProofs EndpointProofs Toy PropsHandshake PropsIo
  Traffic TrafficIo TrafficFutures SpecTraffic TrafficProofs TrafficIoProofs TrafficFuturesProofs TrafficSessionProofs PropsTraffic
  TrafficTask SpecTask TrafficTaskProofs PropsTask Timed SpecTimed PropsTimed SpecObserver PropsObserver SpecCover PropsCover SpecTurns.
Import ListNotations.
Local Open Scope N_scope.

(** A task at its [select!] with both branches open, over a transport that does not hold it up. *)
Definition ready {E : Env} {G : Type} (k : N) (s : @timed_task G) : Prop :=
  let t := sp_task (tt_split s) in
  running t = true /\ sp_place (tt_split s) = AtSelect /\ sel t = no_branch_disabled /\
  hold_ups (pw_writer (tk_writer t)) = 0%nat /\ counted k (pw_cipher (tk_writer t)).

(** The runtime polls the task once for each toss; it finds the timer run out whenever it has. *)
Definition polled {E : Env} {G : Type} {R : Rng G} (s : @timed_task G) (bs : list bool) : timed_task :=
  timed_run s (map (fun b => Happens (Ev (Poll b true))) bs).

Definition waiting {E : Env} {G : Type} (s : @timed_task G) : list command := queue (sp_task (tt_split s)).
Definition answered {E : Env} {G : Type} (s : @timed_task G) : list (N * result perror unit) := answers (sp_task (tt_split s)).

Section Turns.
Context {E : Env} {EL : EnvLaws E} {G : Type} {R : Rng G} {RL : RngLaws G R}.

Lemma no_hold_ups w : hold_ups w = 0%nat -> healthy w.
Proof.
  unfold hold_ups. intros H. destruct (w_script w) eqn:A; [|cbn in H; lia]. destruct (flushes w) eqn:B; [|cbn in H; lia].
  split; [rewrite A|rewrite B]; constructor.
Qed.

Lemma write_now w pl k : hold_ups (pw_writer w) = 0%nat -> counted k (pw_cipher w) -> room k -> sound_payload pl ->
  exists w', begin_write w pl = Ret (Done (Ok tt), w') /\ hold_ups (pw_writer w') = 0%nat /\ counted (k + 1) (pw_cipher w').
Proof.
  intros H Hc Hr Sp. destruct (tokio_write_fine w pl k (no_hold_ups _ H) Hc Hr Sp) as (w' & out & W & Hc' & _).
  pose proof (begin_write_finish w pl) as B. destruct (begin_write w pl) as [[[f|x] p]| |] eqn:Bw; [destruct B; lia| |congruence..].
  rewrite W in B. injection B as <- <-. exists w'. split; [reflexivity|]. split; [|exact Hc'].
  destruct (begin_free _ _ _ H Bw) as (x & w2 & Q & Hw). injection Q as _ <-. exact Hw.
Qed.

Lemma takes_command k (s : @timed_task G) b rd cmd q : ready k s -> waiting s = cmd :: q -> sound_payload (cmd_payload cmd) ->
  (overflow_checks = true -> k + 2 < 2 ^ 32) -> b && (rd && (tt_deadline s <=? tt_now s)) = false ->
  let s' := timed_poll b rd s in
  ready (k + 2) s' /\ waiting s' = q /\ answered s' = answered s ++ [(cmd_id cmd, Ok tt)] /\
  tt_deadline s' = tt_deadline s /\ tt_now s' = tt_now s /\ tt_ticks s' = tt_ticks s.
Proof.
  intros (Ru & At & Se & Ho & Hc) Q Sp Hr B. unfold waiting, answered in *.
  set (el := rd && (tt_deadline s <=? tt_now s)) in *.
  assert (SE : select (order_of b) (sel (sp_task (tt_split s))) [poll_recv (sp_task (tt_split s)); poll_tick el] = Taken 0).
  { rewrite Se. unfold poll_recv. rewrite Q. destruct b; [|reflexivity]. cbn [andb] in B. rewrite B. reflexivity. }
  assert (TI : ticking (order_of b) el (tt_split s) = false) by (unfold ticking; rewrite Ru, At, SE; reflexivity).
  unfold timed_poll. fold el. rewrite TI. cbn zeta. cbn [tt_split tt_deadline tt_now tt_ticks]. unfold ready. cbn [tt_split].
  assert (SP : exists w sh recs, split_poll (order_of b) el (tt_split s) =
      SplitTask (turn (sp_task (tt_split s)) w sh q recs [(cmd_id cmd, Ok tt)]) AtSelect /\ hold_ups (pw_writer w) = 0%nat /\ counted (k + 2) (pw_cipher w)).
  { unfold split_poll. rewrite Ru, At, SE, Q. unfold split_handle. destruct (pad_total (tk_shaper (sp_task (tt_split s))) (cmd_payload cmd) Sp) as (d & sh & recs & P). rewrite P.
    destruct d as [d|].
    - assert (Sd : sound_payload d).
      { unfold shaper_pad in P. apply bind_ret_inv in P. destruct P as (ct & _ & P). destruct (padding_strategy _); [discriminate P|].
        unfold zero_decoy in P. destruct (gen_range _ _ _) as [sz g]. injection P as <- _ _. eexists. reflexivity. }
      cbn [tk_writer]. destruct (write_now _ d k Ho Hc ltac:(intros O; specialize (Hr O); lia) Sd) as (w1 & W1 & H1 & C1). rewrite W1. cbn [pad_wrote].
      unfold write_payload, with_writer. cbn [tk_writer].
      destruct (write_now w1 (cmd_payload cmd) (k + 1) H1 C1 ltac:(intros O; specialize (Hr O); lia) Sp) as (w2 & W2 & H2 & C2). rewrite W2.
      cbn [payload_wrote]. exists w2, sh, recs. split; [|split; [exact H2|replace (k + 2) with (k + 1 + 1) by lia; exact C2]].
      unfold branch_end, turn. cbn [queue senders tk_shaper tk_records answers]. rewrite app_nil_r. reflexivity.
    - unfold write_payload. cbn [tk_writer].
      destruct (write_now _ (cmd_payload cmd) k Ho Hc ltac:(intros O; specialize (Hr O); lia) Sp) as (w2 & W2 & H2 & C2). rewrite W2.
      cbn [payload_wrote]. exists w2, sh, recs. split; [|split; [exact H2|apply (counted_mono (k + 1)); [lia|exact C2]]].
      unfold branch_end, turn. cbn [queue senders tk_shaper tk_records answers]. rewrite app_nil_r. reflexivity. }
  destruct SP as (w & sh & recs & -> & H' & C'). cbn. repeat match goal with |- _ /\ _ => split end; try reflexivity; assumption.
Qed.

Lemma takes_tick k (s : @timed_task G) : ready k s -> (overflow_checks = true -> k + 2 < 2 ^ 32) -> tt_deadline s <= tt_now s ->
  let s' := timed_poll true true s in
  ready (k + 2) s' /\ waiting s' = waiting s /\ answered s' = answered s /\
  tt_deadline s' = tt_deadline s + 100 /\ tt_now s' = tt_now s /\ tick_times (tt_ticks s') = tick_times (tt_ticks s) ++ [tt_now s].
Proof.
  intros (Ru & At & Se & Ho & Hc) Hr D. unfold waiting, answered.
  assert (SE : select (order_of true) (sel (sp_task (tt_split s))) [poll_recv (sp_task (tt_split s)); poll_tick true] = Taken 1) by (rewrite Se; reflexivity).
  unfold timed_poll. rewrite (proj2 (N.leb_le _ _) D). cbn [andb].
  assert (TI : ticking (order_of true) true (tt_split s) = true) by (unfold ticking; rewrite Ru, At, SE; reflexivity).
  rewrite TI. cbn zeta. cbn [tt_split tt_deadline tt_now tt_ticks]. unfold ready. cbn [tt_split].
  assert (SP : exists w sh recs, split_poll (order_of true) true (tt_split s) =
      SplitTask (turn (sp_task (tt_split s)) w sh (queue (sp_task (tt_split s))) recs []) AtSelect /\ hold_ups (pw_writer w) = 0%nat /\ counted (k + 2) (pw_cipher w)).
  { unfold split_poll. rewrite Ru, At, SE. unfold split_tick. destruct (shaper_decoy _) as [[d sh] recs] eqn:P. destruct d as [d|].
    - assert (Sd : sound_payload d).
      { unfold shaper_decoy in P. destruct (decoy_strategy _); [discriminate P|]. destruct (gen_range 0 99 _) as [p g1]. destruct (p <? 85); [discriminate P|].
        unfold zero_decoy in P. destruct (gen_range _ _ _) as [sz g]. injection P as <- _ _. eexists. reflexivity. }
      cbn [tk_writer]. destruct (write_now _ d k Ho Hc ltac:(intros O; specialize (Hr O); lia) Sd) as (w1 & W1 & H1 & C1). rewrite W1. cbn [decoy_wrote].
      exists w1, sh, recs. split; [|split; [exact H1|apply (counted_mono (k + 1)); [lia|exact C1]]].
      unfold branch_end, turn. cbn [queue senders tk_shaper tk_records answers]. rewrite !app_nil_r. reflexivity.
    - exists (tk_writer (sp_task (tt_split s))), sh, recs. split; [|split; [exact Ho|apply (counted_mono k); [lia|exact Hc]]].
      unfold branch_end, turn. cbn [tk_writer queue senders tk_shaper tk_records answers]. rewrite !app_nil_r. reflexivity. }
  destruct SP as (w & sh & recs & -> & H' & C'). cbn. repeat match goal with |- _ /\ _ => split end; try reflexivity; try assumption; [now rewrite app_nil_r|].
  unfold tick_times. rewrite map_app. reflexivity.
Qed.

Lemma polled_cons (s : @timed_task G) b bs : polled s (b :: bs) = polled (timed_poll b true s) bs.
Proof. reflexivity. Qed.

Lemma turns_are : forall bs k (s : @timed_task G), ready k s -> (length bs <= length (waiting s))%nat ->
  tt_deadline s + 100 * len bs <= tt_now s + 100 -> (overflow_checks = true -> k + 2 * len bs < 2 ^ 32) ->
  Forall (fun c => sound_payload (cmd_payload c)) (waiting s) ->
  let s' := polled s bs in let j := times false bs in
  waiting s' = skipn j (waiting s) /\ answered s' = answered s ++ map (fun c => (cmd_id c, Ok tt)) (firstn j (waiting s)) /\
  tick_times (tt_ticks s') = tick_times (tt_ticks s) ++ repeat (tt_now s) (times true bs) /\ tt_now s' = tt_now s.
Proof.
  induction bs as [|b bs IH]; intros k s Re L D Hr So.
  - cbn. rewrite !app_nil_r. auto.
  - rewrite len_cons in D, Hr. rewrite polled_cons. cbn [length] in L. destruct b.
    + destruct (takes_tick k s Re ltac:(intros O; specialize (Hr O); lia) ltac:(lia)) as (Re' & Q & A & D' & N' & T).
      destruct (IH (k + 2) _ Re') as (I1 & I2 & I3 & I4); [rewrite Q; lia|rewrite D', N'; lia|intros O; specialize (Hr O); lia|now rewrite Q|].
      unfold times in *. cbn [filter Bool.eqb length]. rewrite I1, I2, I3, I4, Q, A, T, N'. cbn [repeat].
      rewrite <- app_assoc. repeat split; reflexivity.
    + destruct (waiting s) as [|cmd q] eqn:Q; [cbn in L; lia|]. apply Forall_cons_iff in So. destruct So as [Sc So].
      destruct (takes_command k s false true cmd q Re Q Sc ltac:(intros O; specialize (Hr O); lia) eq_refl) as (Re' & Q' & A & D' & N' & T).
      cbn [length] in L. destruct (IH (k + 2) _ Re') as (I1 & I2 & I3 & I4); [rewrite Q'; lia|rewrite D', N'; lia|intros O; specialize (Hr O); lia|now rewrite Q'|].
      unfold times in *. cbn [filter Bool.eqb length]. rewrite I1, I2, I3, I4, Q', A, T, N'. cbn [skipn firstn map].
      rewrite <- app_assoc. repeat split; reflexivity.
Qed.

(** Whatever the coins, a command waits for no more turns than there are ticks due. *)
Lemma waits_for : forall m bs k (s : @timed_task G) cmd q, ready k s -> waiting s = cmd :: q -> (S m <= length bs)%nat ->
  tt_now s < tt_deadline s + 100 * N.of_nat m -> (overflow_checks = true -> k + 2 * len bs < 2 ^ 32) -> sound_payload (cmd_payload cmd) ->
  exists j rest, (j <= m)%nat /\ bs = repeat true j ++ rest /\ answered (polled s (repeat true j)) = answered s /\
    answered (polled s (firstn (S j) bs)) = answered s ++ [(cmd_id cmd, Ok tt)].
Proof.
  induction m as [|m IH]; intros bs k s cmd q Re Q L D Hr Sc.
  - destruct bs as [|b bs]; [cbn in L; lia|]. rewrite len_cons in Hr. exists 0%nat, (b :: bs). split; [lia|]. split; [reflexivity|]. split; [reflexivity|].
    change (firstn 1 (b :: bs)) with [b]. rewrite polled_cons. 
    destruct (takes_command k s b true cmd q Re Q Sc ltac:(intros O; specialize (Hr O); lia)) as (_ & _ & A & _); [|exact A].
    destruct (N.leb_spec (tt_deadline s) (tt_now s)); [|now destruct b]. change (N.of_nat 0) with 0 in D. lia.
  - destruct bs as [|b bs]; [cbn in L; lia|]. rewrite len_cons in Hr. cbn [length] in L.
    destruct (b && (tt_deadline s <=? tt_now s)) eqn:B.
    + apply andb_prop in B. destruct B as [-> B]. apply N.leb_le in B.
      destruct (takes_tick k s Re ltac:(intros O; specialize (Hr O); lia) B) as (Re' & Q' & A & D' & N' & T). rewrite Q in Q'.
      destruct (IH bs (k + 2) _ cmd q Re' Q') as (j & rest & J & -> & A1 & A2); [lia|rewrite D', N'; lia|intros O; specialize (Hr O); lia|exact Sc|].
      exists (S j), rest. split; [lia|]. split; [reflexivity|]. rewrite A in A1, A2. split; [exact A1|]. exact A2.
    + exists 0%nat, (b :: bs). split; [lia|]. split; [reflexivity|]. split; [reflexivity|].
      change (firstn 1 (b :: bs)) with [b]. rewrite polled_cons.
      destruct (takes_command k s b true cmd q Re Q Sc ltac:(intros O; specialize (Hr O); lia) B) as (_ & _ & A & _). exact A.
Qed.

End Turns.

(** ** C109 *)

(** [n] turns with at least [n] commands waiting and at least [n] ticks due: each toss decides for the next command or the next tick. *)
Theorem C109_turns : forall (E : Env) (EL : EnvLaws E) (G : Type) (R : Rng G) (RL : RngLaws G R) (s : @timed_task G) bs k,
  ready k s -> (length bs <= length (waiting s))%nat -> tt_deadline s + 100 * len bs <= tt_now s + 100 ->
  (overflow_checks = true -> k + 2 * len bs < 2 ^ 32) -> Forall (fun c => sound_payload (cmd_payload c)) (waiting s) ->
  let s' := polled s bs in let j := times false bs in
  waiting s' = skipn j (waiting s) /\ answered s' = answered s ++ map (fun c => (cmd_id c, Ok tt)) (firstn j (waiting s)) /\
  tick_times (tt_ticks s') = tick_times (tt_ticks s) ++ repeat (tt_now s) (times true bs).
Proof.
  intros E EL G R RL s bs k Re L D Hr So. destruct (turns_are bs k s Re L D Hr So) as (A & B & C & _). auto.
Qed.
Print Assumptions C109_turns.

Lemma tosses_count : forall n j, len (filter (fun bs => times false bs =? j)%nat (tosses n)) = choose n j.
Proof.
  assert (FM : forall (b : bool) (P : list bool -> bool) l, len (filter P (map (cons b) l)) = len (filter (fun bs => P (b :: bs)) l)).
  { intros b P. induction l as [|x l IH]; [reflexivity|]. cbn [map filter]. destruct (P (b :: x)); rewrite ?len_cons, IH; reflexivity. }
  induction n as [|n IH]; intros [|j]; try reflexivity; cbn [tosses]; rewrite filter_app, len_app, !FM; cbn [choose].
  - change (fun bs => times false (true :: bs) =? 0)%nat with (fun bs => times false bs =? 0)%nat. rewrite IH.
    change (fun bs => times false (false :: bs) =? 0)%nat with (fun _ : list bool => false).
    assert (Z : forall l : list (list bool), filter (fun _ => false) l = []) by (induction l; auto). rewrite Z.
    replace (choose n 0) with 1 by (destruct n; reflexivity). reflexivity.
  - change (fun bs => times false (true :: bs) =? S j)%nat with (fun bs => times false bs =? S j)%nat. rewrite IH.
    change (fun bs => times false (false :: bs) =? S j)%nat with (fun bs => times false bs =? j)%nat. rewrite IH. lia.
Qed.

Lemma in_tosses : forall n bs, In bs (tosses n) -> length bs = n.
Proof.
  induction n as [|n IH]; intros bs I; cbn [tosses] in I; [destruct I as [<-|[]]; reflexivity|].
  apply in_app_or in I. destruct I as [I|I]; apply in_map_iff in I; destruct I as (l & <- & I); cbn; f_equal; auto.
Qed.

Lemma len_tosses : forall n, len (tosses n) = 2 ^ N.of_nat n.
Proof.
  induction n as [|n IH]; [reflexivity|]. cbn [tosses]. rewrite len_app. unfold len in *. rewrite !map_length, Nat2N.inj_succ, N.pow_succ_r', IH. lia.
Qed.

(** So of the 2^n outcomes exactly (n over j) have served [j] commands. *)
Theorem C109_how_many : forall (E : Env) (EL : EnvLaws E) (G : Type) (R : Rng G) (RL : RngLaws G R) (s : @timed_task G) n k j,
  ready k s -> (n <= length (waiting s))%nat -> tt_deadline s + 100 * N.of_nat n <= tt_now s + 100 ->
  (overflow_checks = true -> k + 2 * N.of_nat n < 2 ^ 32) -> Forall (fun c => sound_payload (cmd_payload c)) (waiting s) ->
  len (filter (fun bs => length (answered (polled s bs)) =? length (answered s) + j)%nat (tosses n)) = choose n j /\
  len (tosses n) = 2 ^ N.of_nat n.
Proof.
  intros E EL G R RL s n k j Re L D Hr So. split; [|apply len_tosses]. rewrite <- tosses_count. f_equal. apply filter_ext_in. intros bs I.
  apply in_tosses in I. assert (LB : len bs = N.of_nat n) by (unfold len; now rewrite I).
  destruct (C109_turns E EL G R RL s bs k Re) as (_ & A & _); [lia|now rewrite LB|now rewrite LB|exact So|]. rewrite A, app_length, map_length, firstn_length_le.
  - destruct (Nat.eqb_spec (times false bs) j), (Nat.eqb_spec (length (answered s) + times false bs) (length (answered s) + j)); try reflexivity; lia.
  - rewrite <- I in L. etransitivity; [|exact L]. clear. unfold times. induction bs as [|b bs IH]; [cbn; lia|]. destruct b; cbn; cbn in IH; lia.
Qed.
Print Assumptions C109_how_many.

(** With [m] ticks due the next command is served after at most [m] of them, whatever the tosses; after [j] of them if the first [j]
    tosses say tick and the next one does not. *)
Theorem C109_waits : forall (E : Env) (EL : EnvLaws E) (G : Type) (R : Rng G) (RL : RngLaws G R) (s : @timed_task G) m bs k cmd q,
  ready k s -> waiting s = cmd :: q -> (S m <= length bs)%nat -> tt_now s < tt_deadline s + 100 * N.of_nat m ->
  (overflow_checks = true -> k + 2 * len bs < 2 ^ 32) -> sound_payload (cmd_payload cmd) ->
  exists j rest, (j <= m)%nat /\ bs = repeat true j ++ rest /\ answered (polled s (repeat true j)) = answered s /\
    answered (polled s (firstn (S j) bs)) = answered s ++ [(cmd_id cmd, Ok tt)].
Proof. intros E EL G R RL s m bs k cmd q. exact (waits_for m bs k s cmd q). Qed.
Print Assumptions C109_waits.

(** A task that is polled when its ticks are due has a command wait for one tick at most. *)
Theorem C109_punctual : forall (E : Env) (EL : EnvLaws E) (G : Type) (R : Rng G) (RL : RngLaws G R) start p (sh : shaper G) recs es b1 b2 k cmd q,
  punctual (timed_new start p sh recs) es -> let s := timed_run (timed_new start p sh recs) es in
  ready k s -> waiting s = cmd :: q -> (overflow_checks = true -> k + 4 < 2 ^ 32) -> sound_payload (cmd_payload cmd) ->
  answered (polled s [b1]) = answered s ++ [(cmd_id cmd, Ok tt)] \/
  answered (polled s [b1]) = answered s /\ answered (polled s [b1; b2]) = answered s ++ [(cmd_id cmd, Ok tt)].
Proof.
  intros E EL G R RL start p sh recs es b1 b2 k cmd q P s Re Q Hr Sc.
  destruct (on_time_run start es _ (on_time_new start p sh recs) P) as (_ & L & _). fold s in L.
  destruct (C109_waits E EL G R RL s 1 [b1; b2] k cmd q Re Q) as (j & rest & J & B & A1 & A2); [cbn; lia|change (N.of_nat 1) with 1; lia| |exact Sc|].
  { intros O. specialize (Hr O). change (len [b1; b2]) with 2. lia. }
  destruct j as [|[|j]]; [left; exact A2|right|lia]. cbn [repeat app] in B. injection B as -> _. split; [exact A1|exact A2].
Qed.
Print Assumptions C109_punctual.

Lemma ticks_first {E : Env} {EL : EnvLaws E} {G : Type} {R : Rng G} {RL : RngLaws G R} : forall n k (s : @timed_task G), ready k s ->
  tt_deadline s + 100 * N.of_nat n <= tt_now s + 100 -> (overflow_checks = true -> k + 2 * N.of_nat n < 2 ^ 32) ->
  let s' := polled s (repeat true n) in
  ready (k + 2 * N.of_nat n) s' /\ waiting s' = waiting s /\ answered s' = answered s /\
  tick_times (tt_ticks s') = tick_times (tt_ticks s) ++ repeat (tt_now s) n.
Proof.
  induction n as [|n IH]; intros k s Re D Hr.
  - cbn [repeat]. replace (k + 2 * N.of_nat 0) with k by lia. rewrite app_nil_r. change (polled s []) with s. auto.
  - cbn [repeat]. rewrite polled_cons. rewrite Nat2N.inj_succ in *.
    destruct (takes_tick k s Re ltac:(intros O; specialize (Hr O); lia) ltac:(lia)) as (Re' & Q & A & D' & N' & T).
    destruct (IH (k + 2) _ Re') as (I1 & I2 & I3 & I4); [rewrite D', N'; lia|intros O; specialize (Hr O); lia|].
    replace (k + 2 * N.succ (N.of_nat n)) with (k + 2 + 2 * N.of_nat n) by lia. rewrite I2, I3, I4, Q, A, T, N', <- app_assoc. auto.
Qed.

Lemma polled_app {E : Env} {G : Type} {R : Rng G} (s : @timed_task G) xs ys : polled s (xs ++ ys) = polled (polled s xs) ys.
Proof. unfold polled. rewrite map_app. unfold timed_run. apply fold_left_app. Qed.

Lemma first_false : forall j bs, first_false_at j bs = true -> firstn j bs = repeat true j /\ firstn (S j) bs = repeat true j ++ [false].
Proof.
  induction j as [|j IH]; intros [|[|] bs] H; try discriminate H; [auto|]. destruct (IH bs H) as (A & B).
  split; [cbn [firstn repeat]; now rewrite A|]. change (firstn (S (S j)) (true :: bs)) with (true :: firstn (S j) bs). now rewrite B.
Qed.

Lemma first_false_count : forall j n, (j < n)%nat -> len (filter (first_false_at j) (tosses n)) * 2 ^ N.of_nat (S j) = 2 ^ N.of_nat n.
Proof.
  assert (FM : forall (b : bool) (P : list bool -> bool) l, len (filter P (map (cons b) l)) = len (filter (fun bs => P (b :: bs)) l)).
  { intros b P. induction l as [|x l IH]; [reflexivity|]. cbn [map filter]. destruct (P (b :: x)); rewrite ?len_cons, IH; reflexivity. }
  assert (Z : forall l : list (list bool), filter (fun _ => false) l = []) by (induction l; auto).
  assert (U : forall l : list (list bool), filter (fun _ => true) l = l) by (induction l as [|x l IH]; [auto|cbn; now rewrite IH]).
  induction j as [|j IH]; intros [|n] L; try lia; cbn [tosses]; rewrite filter_app, len_app, !FM; cbn [first_false_at]; rewrite Z.
  - rewrite U, len_tosses. rewrite !Nat2N.inj_succ, !N.pow_succ_r'. change (len (@nil (list bool))) with 0. cbn [N.of_nat]. rewrite N.pow_0_r. lia.
  - change (len (@nil (list bool))) with 0. rewrite (Nat2N.inj_succ (S j)), (Nat2N.inj_succ n), !N.pow_succ_r'.
    change (fun bs => first_false_at j bs) with (first_false_at j). rewrite <- (IH n ltac:(lia)). lia.
Qed.

(** It is served behind exactly [j] ticks if the tosses say so, which is one outcome in 2^(j+1). *)
Theorem C109_behind : forall (E : Env) (EL : EnvLaws E) (G : Type) (R : Rng G) (RL : RngLaws G R) (s : @timed_task G) j k cmd q,
  ready k s -> waiting s = cmd :: q -> tt_deadline s + 100 * N.of_nat j <= tt_now s + 100 ->
  (overflow_checks = true -> k + 2 * N.of_nat j + 2 < 2 ^ 32) -> sound_payload (cmd_payload cmd) ->
  (forall bs, first_false_at j bs = true ->
    answered (polled s (firstn j bs)) = answered s /\
    answered (polled s (firstn (S j) bs)) = answered s ++ [(cmd_id cmd, Ok tt)] /\
    tick_times (tt_ticks (polled s (firstn (S j) bs))) = tick_times (tt_ticks s) ++ repeat (tt_now s) j) /\
  forall n, (j < n)%nat -> len (filter (first_false_at j) (tosses n)) * 2 ^ N.of_nat (S j) = len (tosses n).
Proof.
  intros E EL G R RL s j k cmd q Re Q D Hr Sc. split; [|intros n L; rewrite len_tosses; now apply first_false_count].
  intros bs F. destruct (first_false j bs F) as (-> & ->).
  destruct (ticks_first j k s Re D ltac:(intros O; specialize (Hr O); lia)) as (Re' & Q' & A & T). split; [exact A|].
  rewrite polled_app. rewrite Q in Q'.
  destruct (takes_command _ _ false true cmd q Re' Q' Sc ltac:(intros O; specialize (Hr O); lia) eq_refl) as (_ & _ & A' & _ & _ & T').
  rewrite polled_cons. change (polled ?x []) with x. rewrite A', T', A, T. auto.
Qed.
Print Assumptions C109_behind.

(** So there is no number of turns after which a command has been served for certain: left alone for long enough, the task has more
    ticks due than that, and the coin may choose them all. *)
Theorem C109_bound_refuted :
  ~ forall (E : Env) (EL : EnvLaws E) (G : Type) (R : Rng G) (RL : RngLaws G R), exists n,
      forall (s : @timed_task G) bs k cmd q, ready k s -> waiting s = cmd :: q -> sound_payload (cmd_payload cmd) ->
        (overflow_checks = true -> k + 2 * N.of_nat n < 2 ^ 32) -> length bs = n -> answered (polled s bs) <> answered s.
Proof.
  intros H. destruct (H (toy false) (toy_laws false) _ draws draws_laws) as (n & B).
  set (s := @timed_run (toy false) _ draws (timed_new 0 toy_writer (Shaper all_random []) [])
      [Elapse (100 * N.of_nat n); Happens (Ev (Send (Command 1 (genuine [x01]))))]).
  assert (Re : @ready (toy false) _ 0 s) by (unfold ready; cbv zeta; repeat match goal with |- _ /\ _ => split end; try reflexivity; intros O; discriminate O).
  assert (Hr : @overflow_checks (toy false) = true -> 0 + 2 * N.of_nat n < 2 ^ 32) by discriminate.
  assert (Sp : sound_payload (genuine [x01])) by (eexists; reflexivity).
  apply (B s (repeat true n) 0 (Command 1 (genuine [x01])) [] Re eq_refl Sp Hr (repeat_length _ _)).
  destruct (@ticks_first (toy false) (toy_laws false) _ draws draws_laws n 0 s Re) as (_ & _ & A & _); [|exact Hr|exact A].
  change (tt_deadline s) with 0. change (tt_now s) with (0 + 100 * N.of_nat n). lia.
Qed.
Print Assumptions C109_bound_refuted.

(** A task held up for 200 ms with three commands waiting: of the eight outcomes of three tosses one serves nothing, three serve one command,
    three two, and one all of them. *)
Example C109_example :
  let s := @timed_run (toy true) _ draws (timed_new 0 toy_writer (Shaper all_random [99; 2; 84; 99; 3; 5; 1; 4]) [])
    (Elapse 200 :: map (fun i => Happens (Ev (Send (Command i (genuine [x01]))))) [1; 2; 3]) in
  let after := @polled (toy true) _ draws s in
  @ready (toy true) _ 0 s /\
  map (fun bs => map fst (@answered (toy true) _ (after bs))) (tosses 3) = [[]; [1]; [1]; [1; 2]; [1]; [1; 2]; [1; 2]; [1; 2; 3]] /\
  map (fun j => len (filter (fun bs => length (@answered (toy true) _ (after bs)) =? j)%nat (tosses 3))) [0; 1; 2; 3]%nat = [1; 3; 3; 1] /\
  tick_times (tt_ticks (after [true; true; true])) = [200; 200; 200] /\
  tick_times (tt_ticks (after [true; false; true])) = [200; 200] /\
  filter (first_false_at 1) (tosses 3) = [[true; false; true]; [true; false; false]] /\
  (* with one tick due there is at most one before the command *)
  map (fun bs => map fst (@answered (toy true) _ (@polled (toy true) _ draws (@timed_run (toy true) _ draws (timed_new 0 toy_writer (Shaper all_random [99; 2; 84; 3]) [])
    [Happens (Ev (Send (Command 7 (genuine [x01]))))]) bs))) (tosses 2) = [[7]; [7]; [7]; [7]].
Proof. unfold ready. cbv zeta. repeat match goal with |- _ /\ _ => split end; try reflexivity. intros _. vm_compute. repeat split; discriminate. Qed.
Print Assumptions C109_example.
