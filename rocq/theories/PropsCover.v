(** * Property C107: when the decoys of cover traffic leave, and how often there is none *)
From Coq Require Import List NArith Bool Arith Lia.
From Coq.Strings Require Import Byte.
From Verif Require Import Base BaseFacts Env FsChacha Cipher Histories CipherProofs Handshake
  Transport Io SpecIo Futures Sessions SessionProofs EndpointProofs Toy PropsHandshake PropsIo
  Traffic TrafficIo TrafficFutures SpecTraffic TrafficProofs TrafficFuturesProofs TrafficSessionProofs DuplexProofs PropsTraffic
  TrafficTask SpecTask TrafficTaskProofs PropsTask Timed SpecTimed PropsTimed SpecObserver ObserverProofs PropsObserver SpecCover.
Import ListNotations.
Local Open Scope N_scope.

Section WithEnv.
Context {E : Env} {G : Type} {R : Rng G}.

(** ** The task *)

Definition on_time (start : N) (s : @timed_task G) : Prop :=
  tt_deadline s = start + 100 * len (tt_ticks s) /\ tt_now s <= tt_deadline s /\
  forall i t b, nth_error (tt_ticks s) i = Some (t, b) -> t = start + 100 * N.of_nat i.

Lemma ticking_due f el (sp : @split_task G) : ticking (order_of f) el sp = true -> el = true.
Proof.
  unfold ticking. destruct el; [reflexivity|]. cbn [poll_tick]. destruct (running _); [|discriminate]. destruct (sp_place _); try discriminate.
  destruct f; cbn [order_of select nth]; destruct (poll_recv _); cbn [set_nth]; destruct (sel _) as [|[|] [|[|] ?]]; cbn;
    try discriminate; destruct (forallb _ _); discriminate.
Qed.

Lemma on_time_step start (s : @timed_task G) e :
  on_time start s -> match e with Elapse ms => tt_now s + ms <= tt_deadline s | _ => True end -> on_time start (timed_step s e).
Proof.
  intros (D & L & T) P.
  assert (K : forall sp, on_time start (TimedTask sp (tt_deadline s) (tt_now s) (tt_ticks s))) by (intros sp; split; [exact D|]; split; [exact L|exact T]).
  destruct e as [ms|[[c| |f rd|]|i]]; cbn [timed_step]; try apply K.
  - split; [exact D|]. split; [exact P|exact T].
  - unfold timed_poll. destruct (ticking _ _ _) eqn:Tk; [|apply K]. apply ticking_due, andb_prop in Tk. destruct Tk as [_ Q]. apply N.leb_le in Q.
    unfold on_time. cbn [tt_deadline tt_now tt_ticks]. rewrite len_app. change (len [(tt_now s, makes_decoy (tk_shaper (sp_task (tt_split s))))]) with 1.
    change DEFAULT_CHECK_INTERVAL_MS with 100. split; [lia|]. split; [lia|].
    intros i t b N1. destruct (Nat.lt_ge_cases i (length (tt_ticks s))) as [Li|Li].
    + rewrite nth_error_app1 in N1 by assumption. exact (T i t b N1).
    + rewrite nth_error_app2 in N1 by assumption. assert (Z : (i - length (tt_ticks s))%nat = 0%nat).
      { destruct (i - length (tt_ticks s))%nat as [|[|k]]; [reflexivity|discriminate..]. }
      rewrite Z in N1. cbn in N1. injection N1 as <- _. assert (N.of_nat i = len (tt_ticks s)) by (unfold len; lia). lia.
Qed.

Lemma on_time_run start es : forall s : @timed_task G, on_time start s -> punctual s es -> on_time start (timed_run s es).
Proof.
  induction es as [|e es IH]; intros s X P; [exact X|]. destruct P as [P1 P]. change (timed_run s (e :: es)) with (timed_run (timed_step s e) es).
  apply IH; [|exact P]. now apply on_time_step.
Qed.

Lemma on_time_new start p sh recs : on_time start (@timed_new G start p sh recs).
Proof. split; [cbn; lia|]. split; [cbn; lia|]. intros [] t b Q; discriminate. Qed.

(** A transport that does not hold the task up: it is always at its [select!]. *)
Definition free (s : @split_task G) : Prop := sp_place s = AtSelect /\ hold_ups (pw_writer (tk_writer (sp_task s))) = 0%nat.

Lemma begin_free p pl r : hold_ups (pw_writer p) = 0%nat -> begin_write p pl = Ret r ->
  exists x w, r = (Done x, w) /\ hold_ups (pw_writer w) = 0%nat.
Proof.
  intros Ho Bw. pose proof (begin_write_finish p pl) as Bf. rewrite Bw in Bf. destruct r as [[fu|x] w]; [destruct Bf as [_ Bf]; lia|].
  exists x, w. split; [reflexivity|]. clear Bf. unfold begin_write in Bw. apply bind_ret_inv in Bw. destruct Bw as ([y p'] & Sw & Bw).
  assert (pw_writer p' = pw_writer p) as Pw.
  { unfold start_write in Sw. apply bind_ret_inv in Sw. destruct Sw as (ct & _ & Sw). apply bind_ret_inv in Sw. destruct Sw as (pt & _ & Sw).
    apply bind_ret_inv in Sw. destruct Sw as ([[z c] buf] & _ & Sw). destruct z; injection Sw as _ <-; reflexivity. }
  destruct y as [fu|e]; [|injection Bw as _ <-; rewrite Pw; exact Ho].
  pose proof (go_on_finish fu p') as Q. injection Bw as Bw. rewrite Bw in Q. apply finish_write_script in Q. rewrite Pw in Q. lia.
Qed.

Lemma write_payload_free t c : hold_ups (pw_writer (tk_writer t)) = 0%nat -> free (@write_payload E G t c).
Proof.
  intros Ho. unfold write_payload. destruct (begin_write _ _) as [r| |] eqn:B; [|split; [reflexivity|exact Ho]..].
  destruct (begin_free _ _ _ Ho B) as (x & w & -> & Hw). split; [reflexivity|exact Hw].
Qed.

Lemma free_step (s : @split_task G) e : free s -> free (split_step s e).
Proof.
  destruct s as [t pl]. intros [At Ho]. cbn [sp_place sp_task] in At, Ho. subst pl.
  destruct e as [[c| |f rd|]|i]; cbn [split_step sp_task sp_place].
  - split; [reflexivity|]. cbn [sp_task task_step]. destruct (_ && _)%bool; exact Ho.
  - split; [reflexivity|exact Ho].
  - unfold split_poll. cbn [sp_task sp_place]. destruct (running t); [|split; [reflexivity|exact Ho]].
    destruct (select _ _ _) as [[|n]| |d].
    + destruct (queue t) as [|c q]; [split; [reflexivity|exact Ho]|]. unfold split_handle.
      destruct (shaper_pad _ _) as [[[[dd|] sh] recs]| |]; [| |split; [reflexivity|exact Ho]..].
      * destruct (begin_write _ _) as [r| |] eqn:B; [|split; [reflexivity|exact Ho]..].
        destruct (begin_free _ _ _ Ho B) as (x & w & -> & Hw). cbn [pad_wrote]. destruct x as [u|e]; [|split; [reflexivity|exact Hw]].
        apply write_payload_free. exact Hw.
      * apply write_payload_free. exact Ho.
    + unfold split_tick. destruct (shaper_decoy _) as [[[dd|] sh] recs]; [|split; [reflexivity|exact Ho]].
      destruct (begin_write _ _) as [r| |] eqn:B; [|split; [reflexivity|exact Ho]..].
      destruct (begin_free _ _ _ Ho B) as (x & w & -> & Hw). split; [reflexivity|exact Hw].
    + split; [reflexivity|exact Ho].
    + split; [reflexivity|exact Ho].
  - split; [reflexivity|]. cbn [sp_task task_step]. destruct (running t); exact Ho.
  - split; [reflexivity|exact Ho].
Qed.

Lemma free_run p sh recs es : hold_ups (pw_writer p) = 0%nat -> free (split_run (@split_new G p sh recs) es).
Proof.
  intros Ho. apply (List.rev_ind (fun es => free (split_run (split_new p sh recs) es))); [split; [reflexivity|exact Ho]|].
  intros e es0 IH. rewrite split_run_app. apply free_step, IH.
Qed.

Lemma nothing_to_do f (s : @split_task G) : sp_place s = AtSelect -> queue (sp_task s) = [] ->
  tk_writer (sp_task (split_poll (order_of f) false s)) = tk_writer (sp_task s).
Proof.
  intros At Qe. unfold split_poll. rewrite At, Qe. destruct (running _); [|reflexivity].
  destruct (select _ _ _) as [[|n]| |d] eqn:Se; try reflexivity. exfalso.
  cbn [poll_tick] in Se. destruct f; cbn [order_of select nth] in Se; destruct (poll_recv _); cbn [set_nth] in Se;
    destruct (sel _) as [|[|] [|[|] ?]]; cbn in Se; try discriminate; destruct (forallb _ _); discriminate.
Qed.

(** ** The thread *)

Definition on_grid (start t : N) : Prop := exists i, t = start + 100 * i.

Definition thread_on_time (start : N) (s : @timed_shared G) : Prop :=
  (forall t, In t (ts_decoys s) -> on_grid start t) /\
  match thread_at (ts_shared s) with
  | ThSleep => on_grid start (ts_wake s) /\ ts_now s <= ts_wake s
  | ThDone | ThPanicked => True
  | _ => on_grid start (ts_now s)
  end.

Lemma thread_on_time_do start (s s' : @timed_shared G) m : thread_on_time start s -> timed_do s m = Some s' ->
  match m with
  | Later d => match thread_at (ts_shared s) with ThSleep => ts_now s + d <= ts_wake s | ThDone | ThPanicked => True | _ => d = 0 end
  | _ => True
  end -> thread_on_time start s'.
Proof.
  intros [Dc Th] H P. destruct m as [d|m].
  - injection H as <-. split; [exact Dc|]. cbn [ts_decoys ts_now ts_shared ts_wake].
    destruct (thread_at (ts_shared s)); try (subst d; rewrite N.add_0_r; exact Th); try exact I. split; [apply Th|exact P].
  - clear P. assert (K : forall m, m <> Thread -> timed_do s (Acts m) = Some s' -> thread_on_time start s').
    { clear H m. intros m Nt H. assert (exists y, do_move (ts_shared s) m = Some y /\ s' = TimedShared y (ts_wake s) (ts_now s) (ts_decoys s)) as (y & D & ->).
      { destruct m; cbn [timed_do] in H; try contradiction; destruct (do_move _ _) as [y|]; try discriminate; injection H as <-; eauto. }
      pose proof (other_thread_at _ _ _ D Nt) as T. split; [exact Dc|]. cbn [ts_decoys ts_now ts_shared ts_wake]. rewrite T. exact Th. }
    destruct m; try (eapply K; [|exact H]; discriminate). clear K. cbn [timed_do] in H. unfold timed_thread in H.
    destruct (thread_step (ts_shared s)) as [y|] eqn:Ts; [|discriminate]. unfold thread_step in Ts.
    destruct (thread_at (ts_shared s)) eqn:At; try discriminate.
    + injection H as <-. injection Ts as <-. split; [exact Dc|]. cbn [ts_decoys ts_now ts_shared ts_wake set_thread thread_at].
      destruct (shutdown (ts_shared s)); [exact I|]. change DEFAULT_CHECK_INTERVAL_MS with 100. destruct Th as (i & ->).
      split; [exists (i + 1); lia|lia].
    + destruct (N.leb_spec (ts_wake s) (ts_now s)) as [Le|]; [|discriminate]. injection H as <-. injection Ts as <-.
      split; [exact Dc|]. cbn [ts_decoys ts_now ts_shared ts_wake set_thread thread_at]. destruct Th as (W & L).
      assert (ts_now s = ts_wake s) as -> by lia. exact W.
    + injection H as <-. split; [exact Dc|]. cbn [ts_decoys ts_now ts_shared ts_wake].
      destruct (lock (ts_shared s)); [destruct (poisoned (ts_shared s))|..]; injection Ts as <-; exact Th.
    + injection H as <-. split; cbn [ts_decoys ts_now ts_shared ts_wake].
      * intros t I. apply in_app_iff in I. destruct I as [I|I]; [exact (Dc t I)|]. destruct (makes_decoy _); [|contradiction].
        destruct I as [<-|[]]. exact Th.
      * destruct (shaper_decoy _) as [[[d|] sh] recs]; injection Ts as <-; exact Th.
    + injection H as <-. split; [exact Dc|]. cbn [ts_decoys ts_now ts_shared ts_wake].
      destruct (sync_write _ _) as [[? ?]| |]; injection Ts as <-; try exact Th; exact I.
Qed.

Lemma thread_on_time_play start ms : forall s s' : @timed_shared G,
  thread_on_time start s -> punctual_thread s ms -> timed_play s ms = Some s' -> thread_on_time start s'.
Proof.
  induction ms as [|m ms IH]; intros s s' X P H; cbn [timed_play] in H; [injection H as <-; exact X|].
  cbn [punctual_thread] in P. destruct P as [P1 P]. destruct (timed_do s m) as [s1|] eqn:D; [|discriminate].
  apply (IH s1); [|exact P|exact H]. eapply thread_on_time_do; eassumption.
Qed.

End WithEnv.

(** ** C107 *)
(** A task that is polled when its ticks are due takes them, and makes decoys, at multiples of 100 ms from its start. *)
Theorem C107_task_grid : forall (E : Env) (G : Type) (R : Rng G) start p (sh : shaper G) recs es,
  punctual (timed_new start p sh recs) es ->
  let ticks := tt_ticks (timed_run (timed_new start p sh recs) es) in
  (forall i t, nth_error (tick_times ticks) i = Some t -> t = start + 100 * N.of_nat i) /\
  (forall t, In t (decoy_times ticks) -> exists i, t = start + 100 * i).
Proof.
  intros E G R start p sh recs es P ticks.
  destruct (on_time_run start es _ (on_time_new start p sh recs) P) as (_ & _ & T). fold ticks in T. split.
  - intros i t Q. unfold tick_times in Q. rewrite nth_error_map in Q. destruct (nth_error ticks i) as [[t' b]|] eqn:Q'; [|discriminate].
    injection Q as <-. exact (T i t' b Q').
  - intros t I. unfold decoy_times in I. apply in_map_iff in I. destruct I as ([t' b] & <- & I). apply filter_In in I. destruct I as [I _].
    apply In_nth_error in I. destruct I as (i & Q). exists (N.of_nat i). exact (T i t' b Q).
Qed.
Print Assumptions C107_task_grid.

(** So what leaves at any other time is the application's: without a command the task writes nothing then, over a transport that takes
    what it is given. *)
Theorem C107_off_grid : forall (E : Env) (G : Type) (R : Rng G) start p (sh : shaper G) recs es f ready,
  punctual (timed_new start p sh recs) es -> hold_ups (pw_writer p) = 0%nat ->
  let s := timed_run (timed_new start p sh recs) es in
  (tt_now s - start) mod 100 <> 0 -> queue (sp_task (tt_split s)) = [] ->
  tk_writer (sp_task (tt_split (timed_poll f ready s))) = tk_writer (sp_task (tt_split s)).
Proof.
  intros E G R start p sh recs es f ready P Ho s Og Qe.
  destruct (on_time_run start es _ (on_time_new start p sh recs) P) as (D & L & _). fold s in D, L.
  assert (free (tt_split s)) as [At _].
  { destruct (timed_is_split (timed_new start p sh recs) es) as (es' & _ & Q). unfold s. rewrite Q. apply free_run, Ho. }
  assert (tt_now s < tt_deadline s) as Lt.
  { destruct (N.eq_dec (tt_now s) (tt_deadline s)) as [Q|Q]; [|lia]. exfalso. apply Og. rewrite Q, D.
    replace (start + 100 * len (tt_ticks s) - start) with (len (tt_ticks s) * 100) by lia. apply N.mod_mul. discriminate. }
  unfold timed_poll. rewrite (proj2 (N.leb_gt _ _) Lt), andb_false_r.
  destruct (ticking _ _ _); cbn [tt_split]; now apply nothing_to_do.
Qed.
Print Assumptions C107_off_grid.

(** The thread, if it takes no time to do its work: its decoys too. *)
Theorem C107_thread_grid : forall (E : Env) (G : Type) (R : Rng G) start p (sh : shaper G) recs ms s,
  punctual_thread (timed_shared_new start p sh recs) ms -> timed_play (timed_shared_new start p sh recs) ms = Some s ->
  forall t, In t (ts_decoys s) -> exists i, t = start + 100 * i.
Proof.
  intros E G R start p sh recs ms s P H.
  apply (thread_on_time_play start ms _ s) in H; [exact (proj1 H)| |exact P].
  split; [contradiction|]. exists 0. cbn. lia.
Qed.
Print Assumptions C107_thread_grid.

(** *** How often *)

#[export] Instance dice_laws : RngLaws (list N * list N) dice.
Proof.
  constructor.
  - intros lo hi [l l'] H. cbn [gen_range dice fst snd]. assert (Q : forall x, lo <= fst (next_in lo hi x) <= hi).
    { intros [|d x]; cbn; [lia|]. assert (d mod (hi - lo + 1) < hi - lo + 1) by (apply N.mod_lt; lia). lia. }
    destruct (is_decision lo hi); [specialize (Q l)|specialize (Q l')]; destruct (next_in lo hi _); exact Q.
  - intros n g. cbn [fill_bytes dice fst]. apply len_zeros.
Qed.

Section Ticks.
Context {E : Env}.

(** The bytes that leave at each of [n] ticks with nothing to do for the application: the task, *)
Fixpoint task_ticks (t : @task (list N * list N)) (n : nat) : list N :=
  match n with
  | O => []
  | S n => let t' := task_step t (Poll false true) in
           (len (written (pw_writer (tk_writer t'))) - len (written (pw_writer (tk_writer t)))) :: task_ticks t' n
  end.

(** and one turn of the thread, from its check of the flag to the next. *)
Definition thread_turn (s : @shared (list N * list N)) : option shared :=
  match play s [Thread; Thread; Thread; Thread] with
  | Some s' => match thread_at s' with ThWrite _ => play s' [Thread] | _ => Some s' end
  | None => None
  end.
Fixpoint thread_ticks (s : @shared (list N * list N)) (n : nat) : list N :=
  match n with
  | O => []
  | S n => match thread_turn s with
           | Some s' => (len (written (pw_writer (st_writer s'))) - len (written (pw_writer (st_writer s)))) :: thread_ticks s' n
           | None => []
           end
  end.

Definition cover (fl : flavor) (p : pwriter) (c : config) (rest : list N) (o : list N) : list N :=
  match fl with
  | Sync => thread_ticks (shared_new p (Shaper c (o, rest)) []) (length o)
  | Tokio => task_ticks (task_new p (Shaper c (o, rest)) []) (length o)
  end.

Context {EL : EnvLaws E}.

Lemma decides c x o rest : decoy_strategy c = Random -> x < 100 ->
  exists rest' recs, 
  shaper_decoy (Shaper c (x :: o, rest)) =
  (if 85 <=? x then Some (decoy (zeros (fst (next_in 1 1024 rest)))) else None, Shaper c (o, rest'), recs).
Proof.
  intros Dc Lx. unfold shaper_decoy. cbn [sh_config sh_rng]. rewrite Dc.
  assert (gen_range 0 99 (x :: o, rest) = (x, (o, rest))) as ->.
  { cbn [gen_range dice]. change (is_decision 0 99) with true. cbn [fst snd next_in]. change (99 - 0 + 1) with 100.
    rewrite N.mod_small by exact Lx. reflexivity. }
  rewrite N.leb_antisym. destruct (x <? 85); cbn [negb].
  - eexists. eexists. reflexivity.
  - unfold zero_decoy. change MAX_DECOY_SIZE_BYTES with 1024. cbn [gen_range dice fst snd]. change (is_decision 1 1024) with false. cbn iota.
    destruct (next_in 1 1024 rest) as [y rest'] eqn:Q. cbn [fst]. eexists. eexists. reflexivity.
Qed.

Lemma task_ticks_are c : forall o rest w k rc an,
  decoy_strategy c = Random -> Forall (fun x => x < 100) o -> healthy (pw_writer w) -> counted k (pw_cipher w) ->
  (overflow_checks = true -> k + len o < 2 ^ 32) ->
  map (N.ltb 0) (task_ticks (Task w (Shaper c (o, rest)) [] true no_branch_disabled true rc an) (length o)) = map (N.leb 85) o.
Proof.
  induction o as [|x o IH]; intros rest w k rc an Dc F Hh Hc Hr; [reflexivity|].
  apply Forall_cons_iff in F. destruct F as [Fx F]. rewrite len_cons in Hr. destruct (decides c x o rest Dc Fx) as (rest' & recs & Q).
  cbn [length task_ticks map].
  set (t1 := task_step (Task w (Shaper c (x :: o, rest)) [] true no_branch_disabled true rc an) (Poll false true)).
  assert (exists w' rc' k', t1 = Task w' (Shaper c (o, rest')) [] true no_branch_disabled true rc' an /\ healthy (pw_writer w') /\
    counted k' (pw_cipher w') /\ k' <= k + 1 /\
    (0 <? len (written (pw_writer w')) - len (written (pw_writer w))) = (85 <=? x)) as (w' & rc' & k' & -> & Hh' & Hc' & Lk & Z).
  { subst t1. cbn [task_step]. rewrite poll_task_eq; [|reflexivity|left; reflexivity]. cbn [andb queue]. unfold tick. cbn [tk_shaper].
    rewrite Q. destruct (85 <=? x).
    - destruct (tokio_write_fine w (decoy (zeros (fst (next_in 1 1024 rest)))) k Hh Hc) as (w1 & o1 & W1 & C1 & H1 & O1 & L1).
      { intros Ho. specialize (Hr Ho). lia. }
      { eexists. reflexivity. }
      cbn [tk_writer]. rewrite W1. exists w1. eexists. exists (k + 1). split; [unfold turn; cbn [tk_writer tk_shaper queue senders tk_records answers]; rewrite app_nil_r; reflexivity|].
      split; [exact H1|]. split; [exact C1|]. split; [lia|]. apply N.ltb_lt. rewrite O1, len_app, L1. lia.
    - exists w. eexists. exists k. split; [unfold turn; cbn [tk_writer tk_shaper queue senders tk_records answers]; rewrite app_nil_r; reflexivity|].
      split; [exact Hh|]. split; [exact Hc|]. split; [lia|]. rewrite N.sub_diag. reflexivity. }
  cbn [tk_writer]. rewrite Z. f_equal. apply (IH rest' w' k'); try assumption. intros Ho. specialize (Hr Ho). lia.
Qed.

Lemma turn_none w sh sh' recs rc rt : shaper_decoy sh = (None, sh', recs) ->
  thread_turn (Shared w sh Free false false AppOut ThCheck rc rt) = Some (Shared w sh' Free false false AppOut ThCheck (rc ++ recs) rt).
Proof. intros Q. unfold thread_turn. cbn. rewrite Q. reflexivity. Qed.

Lemma turn_some w w' d x sh sh' recs rc rt : shaper_decoy sh = (Some d, sh', recs) -> sync_write w d = Ret (x, w') ->
  thread_turn (Shared w sh Free false false AppOut ThCheck rc rt) = Some (Shared w' sh' Free false false AppOut ThCheck (rc ++ recs) rt).
Proof. intros Q W. unfold thread_turn. cbn. rewrite Q. cbn. rewrite W. reflexivity. Qed.

Lemma thread_ticks_are c : forall o rest w k rc rt,
  decoy_strategy c = Random -> Forall (fun x => x < 100) o -> healthy (pw_writer w) -> counted k (pw_cipher w) ->
  (overflow_checks = true -> k + len o < 2 ^ 32) ->
  map (N.ltb 0) (thread_ticks (Shared w (Shaper c (o, rest)) Free false false AppOut ThCheck rc rt) (length o)) = map (N.leb 85) o.
Proof.
  induction o as [|x o IH]; intros rest w k rc rt Dc F Hh Hc Hr; [reflexivity|].
  apply Forall_cons_iff in F. destruct F as [Fx F]. rewrite len_cons in Hr. destruct (decides c x o rest Dc Fx) as (rest' & recs & Q).
  cbn [length thread_ticks map].
  assert (exists w' rc' k', thread_turn (Shared w (Shaper c (x :: o, rest)) Free false false AppOut ThCheck rc rt) =
      Some (Shared w' (Shaper c (o, rest')) Free false false AppOut ThCheck rc' rt) /\ healthy (pw_writer w') /\
    counted k' (pw_cipher w') /\ k' <= k + 1 /\
    (0 <? len (written (pw_writer w')) - len (written (pw_writer w))) = (85 <=? x)) as (w' & rc' & k' & -> & Hh' & Hc' & Lk & Z).
  { revert Q. generalize (fst (next_in 1 1024 rest)). intros size Q. destruct (85 <=? x).
    - destruct (sync_write_fine w (decoy (zeros size)) k Hh Hc) as (pk & c1 & w1 & W1 & _ & <- & C1 & H1 & O1 & L1).
      { intros Ho. specialize (Hr Ho). lia. }
      { eexists. reflexivity. }
      exists w1, (rc ++ recs), (k + 1). split; [exact (turn_some _ _ _ _ _ _ _ _ _ Q W1)|].
      split; [exact H1|]. split; [exact C1|]. split; [lia|]. apply N.ltb_lt. rewrite O1, len_app, L1. lia.
    - exists w, (rc ++ recs), k. split; [exact (turn_none _ _ _ _ _ _ Q)|].
      split; [exact Hh|]. split; [exact Hc|]. split; [lia|]. rewrite N.sub_diag. reflexivity. }
  cbn [st_writer map]. rewrite Z. f_equal. apply (IH rest' w' k'); try assumption. intros Ho. specialize (Hr Ho). lia.
Qed.

Lemma cover_is fl p c k rest n o :
  In o (outcomes 100 n) -> decoy_strategy c = Random -> healthy (pw_writer p) -> counted k (pw_cipher p) ->
  (overflow_checks = true -> k + N.of_nat n < 2 ^ 32) ->
  map (N.ltb 0) (cover fl p c rest o) = map (N.leb 85) o.
Proof.
  intros I Dc Hh Hc Hr. apply in_outcomes in I. destruct I as [L F]. change (N.of_nat 100) with 100 in F. subst n.
  destruct fl; [eapply thread_ticks_are|eapply task_ticks_are]; eassumption.
Qed.

End Ticks.

Lemma all_through {A} (f : A -> bool) l : forallb (fun b => negb (f b)) l = forallb negb (map f l).
Proof. induction l as [|a l IH]; [reflexivity|]. cbn [forallb map]. now rewrite IH. Qed.

Lemma count_through {A} (f : A -> bool) l : len (filter f l) = len (filter (fun b => b) (map f l)).
Proof. induction l as [|a l IH]; [reflexivity|]. cbn [filter map]. destruct (f a); rewrite ?len_cons, IH; reflexivity. Qed.

Lemma unmasked : forall o, masked 0 (repeat 0 (length o)) o = o.
Proof. induction o as [|x o IH]; [reflexivity|]. cbn [length repeat masked]. rewrite IH. f_equal. Qed.

(** In [n] ticks nothing leaves for exactly 85^n of the 100^n outcomes. *)
Theorem C107_silence : forall (E : Env) (EL : EnvLaws E) fl p c k rest n,
  decoy_strategy c = Random -> healthy (pw_writer p) -> counted k (pw_cipher p) ->
  (overflow_checks = true -> k + N.of_nat n < 2 ^ 32) ->
  yes (forallb (fun b => negb (0 <? b))) (cover fl p c rest) (outcomes 100 n) = 85 ^ N.of_nat n /\
  len (outcomes 100 n) = 100 ^ N.of_nat n.
Proof.
  intros E EL fl p c k rest n Dc Hh Hc Hr. split; [|apply (len_outcomes 100)].
  rewrite (yes_ext _ (forallb (fun x => negb (85 <=? x))) _ (masked 0 (repeat 0 n))).
  - rewrite yes_all. reflexivity.
  - intros o I. rewrite (all_through (N.ltb 0)), (cover_is fl p c k rest n o I Dc Hh Hc Hr), <- (all_through (N.leb 85)).
    apply in_outcomes in I. destruct I as [<- _]. now rewrite unmasked.
Qed.
Print Assumptions C107_silence.

Lemma len_split (P PA PB : list N -> bool) (q : N -> bool) os : (forall x o, P (x :: o) = if q x then PA o else PB o) -> forall l,
  len (filter P (flat_map (fun x => map (cons x) os) l)) =
  len (filter q l) * len (filter PA os) + len (filter (fun x => negb (q x)) l) * len (filter PB os).
Proof.
  intros H. induction l as [|x l IH]; [reflexivity|]. cbn [flat_map]. rewrite filter_app, len_app, IH, filter_map, len_map'.
  rewrite (filter_ext _ (if q x then PA else PB)) by (intros o; rewrite H; now destruct (q x)).
  cbn [filter]. destruct (q x); cbn [negb]; rewrite len_cons; lia.
Qed.

Lemma choose_none : forall n j, (n < j)%nat -> choose n j = 0.
Proof.
  induction n as [|n IH]; intros [|j] H; try lia; [reflexivity|]. cbn [choose]. rewrite !IH by lia. reflexivity.
Qed.

Lemma binomial n : forall j,
  len (filter (fun o => len (filter (N.leb 85) o) =? N.of_nat j) (outcomes 100 n)) = choose n j * 15 ^ N.of_nat j * 85 ^ N.of_nat (n - j).
Proof.
  induction n as [|n IH]; intros j; [destruct j; reflexivity|]. cbn [outcomes]. destruct j as [|j].
  - rewrite (len_split _ (fun _ => false) (fun o => len (filter (N.leb 85) o) =? N.of_nat 0) (N.leb 85)).
    + rewrite IH. assert (Z : forall os : list (list N), filter (fun _ => false) os = []) by (induction os; auto). rewrite Z.
      change (len (filter (fun x => negb (85 <=? x)) (from 0 100))) with 85.
      replace (choose (S n) 0) with 1 by reflexivity. replace (choose n 0) with 1 by (destruct n; reflexivity).
      rewrite Nat.sub_0_r, Nat.sub_0_r, Nat2N.inj_succ, N.pow_succ_r'. change (len (@nil (list N))) with 0. lia.
    + intros x o. cbn [filter]. destruct (85 <=? x); [|reflexivity]. rewrite len_cons. apply N.eqb_neq. lia.
  - rewrite (len_split _ (fun o => len (filter (N.leb 85) o) =? N.of_nat j) (fun o => len (filter (N.leb 85) o) =? N.of_nat (S j)) (N.leb 85)).
    + rewrite !IH. change (len (filter (fun x => negb (85 <=? x)) (from 0 100))) with 85. change (len (filter (N.leb 85) (from 0 100))) with 15.
      cbn [choose]. rewrite Nat.sub_succ. destruct (Nat.le_gt_cases (S j) n) as [L|L].
      * replace (n - j)%nat with (S (n - S j)) by lia. rewrite !Nat2N.inj_succ, !N.pow_succ_r'. lia.
      * rewrite (choose_none n (S j)) by lia. rewrite Nat2N.inj_succ, N.pow_succ_r'. lia.
    + intros x o. cbn [filter]. destruct (85 <=? x); [|reflexivity]. rewrite len_cons, Nat2N.inj_succ.
      destruct (N.eqb_spec (len (filter (N.leb 85) o)) (N.of_nat j)) as [Q|Q]; [apply N.eqb_eq|apply N.eqb_neq]; lia.
Qed.

(** And there is a decoy at [j] of the [n] ticks as often as [j] heads come of [n] tosses with a coin that shows heads 15 times in 100. *)
Theorem C107_how_many : forall (E : Env) (EL : EnvLaws E) fl p c k rest n j,
  decoy_strategy c = Random -> healthy (pw_writer p) -> counted k (pw_cipher p) ->
  (overflow_checks = true -> k + N.of_nat n < 2 ^ 32) ->
  yes (fun l => len (filter (N.ltb 0) l) =? N.of_nat j) (cover fl p c rest) (outcomes 100 n) =
  choose n j * 15 ^ N.of_nat j * 85 ^ N.of_nat (n - j).
Proof.
  intros E EL fl p c k rest n j Dc Hh Hc Hr. rewrite <- binomial.
  change (yes (fun l => len (filter (N.ltb 0) l) =? N.of_nat j) (cover fl p c rest) (outcomes 100 n) =
    yes (fun l => len (filter (N.leb 85) l) =? N.of_nat j) (fun o => o) (outcomes 100 n)).
  apply yes_ext. intros o I. rewrite (count_through (N.ltb 0)), (count_through (N.leb 85)), (cover_is fl p c k rest n o I Dc Hh Hc Hr). reflexivity.
Qed.
Print Assumptions C107_how_many.

(** "Sends decoy packets at random intervals" (traffic/README.md:38): only at multiples of 100 ms, if nothing delays the task. *)
Theorem C107_any_time_refuted :
  ~ forall (E : Env) (EL : EnvLaws E) start p c t, decoy_strategy c = Random -> healthy (pw_writer p) ->
      exists (G : Type) (R : Rng G) (g : G) es,
        punctual (timed_new start p (Shaper c g) []) es /\
        In (start + t) (decoy_times (tt_ticks (timed_run (timed_new start p (Shaper c g) []) es))).
Proof.
  intros H. destruct (H (toy true) (toy_laws true) 0 toy_writer (Config Disabled Random) 50 eq_refl) as (G & R & g & es & P & I).
  { split; constructor. }
  destruct (C107_task_grid (toy true) G R 0 toy_writer (Shaper (Config Disabled Random) g) [] es P) as [_ Q].
  destruct (Q _ I) as (i & Z). lia.
Qed.
Print Assumptions C107_any_time_refuted.

(** A task polled at 0, 100, 130 and 200 ms, with a command at 130: decoys at 0 and 200, and at 130 the command's bytes alone.
    Of ten ticks, a second, one in five is silent. *)
Example C107_example :
  let c := Config Disabled Random in
  let s0 := timed_new 0 toy_writer (Shaper c ([90; 10; 99], [4; 6])) [] in
  let run := @timed_run (toy true) _ dice in
  let size s := len (written (pw_writer (tk_writer (sp_task (tt_split s))))) in
  let es1 := [Happens (Ev (Poll false true)); Elapse 100; Happens (Ev (Poll false true)); Elapse 30] in
  let es2 := [Happens (Ev (Send (Command 1 (genuine [x01; x02])))); Happens (Ev (Poll false true))] in
  let es3 := [Elapse 70; Happens (Ev (Poll false true))] in
  @punctual (toy true) _ dice s0 (es1 ++ es2 ++ es3) /\ ~ @punctual (toy true) _ dice s0 [Elapse 10] /\
  map size [run s0 es1; run s0 (es1 ++ es2); run s0 (es1 ++ es2 ++ es3)] = [25; 47; 74] /\
  decoy_times (tt_ticks (run s0 (es1 ++ es2 ++ es3))) = [0; 200] /\
  @cover (toy true) Sync toy_writer c [4; 6] [90; 10; 99] = [25; 0; 27] /\
  @cover (toy true) Tokio toy_writer c [4; 6] [90; 10; 99] = [25; 0; 27] /\
  1000 * 85 ^ 10 / 100 ^ 10 = 196 /\ 1000 * (choose 10 1 * 15 ^ 1 * 85 ^ 9) / 100 ^ 10 = 347.
Proof. vm_compute. repeat split; try discriminate. intros [H _]. now apply H. Qed.

(** The thread: it wakes up at 100, 200 and 300 ms. *)
Example C107_thread_example :
  let s0 := timed_shared_new 0 toy_writer (Shaper (Config Disabled Random) ([90; 10; 99], [4; 6])) [] in
  let quiet := [Acts Thread; Later 100; Acts Thread; Acts Thread; Acts Thread] in
  let loud := quiet ++ [Acts Thread] in
  @punctual_thread (toy true) _ dice s0 (loud ++ quiet ++ loud) /\
  ~ @punctual_thread (toy true) _ dice s0 [Acts Thread; Later 101] /\
  match @timed_play (toy true) _ dice s0 (loud ++ quiet ++ loud) with Some s => ts_decoys s = [100; 300] | None => False end.
Proof. vm_compute. repeat split; try discriminate. intros [_ [H _]]. now apply H. Qed.
