(** * TrafficFuturesProofs: the writer task under every sequence of events *)
From Coq Require Import List NArith Bool Lia ZifyBool ZifyN.
From Coq.Strings Require Import Byte.
From Verif Require Import Base BaseFacts Env FsChacha Cipher CipherFacts Histories CipherProofs Handshake
  Transport Io Futures SpecIo Sessions TransportProofs SessionProofs EndpointProofs
  Traffic TrafficIo TrafficFutures SpecTraffic TrafficProofs TrafficIoProofs.
Import ListNotations.
Local Open Scope N_scope.

Definition is_open (es : list event) : bool :=
  forallb (fun e => match e with DropSenders => false | _ => true end) es.

Lemma accepted_snoc : forall es e,
  accepted (es ++ [e]) =
  accepted es ++ (if is_open es then match e with Send c => [c] | _ => [] end else []).
Proof.
  induction es as [|a es IH]; intros e; cbn [accepted app is_open forallb].
  - destruct e; reflexivity.
  - destruct a; cbn [andb]; rewrite ?IH; reflexivity.
Qed.

Lemma is_open_snoc es e : is_open (es ++ [e]) = is_open es && match e with DropSenders => false | _ => true end.
Proof. unfold is_open. rewrite forallb_app. cbn. now rewrite andb_true_r. Qed.

Section Task.
Context {E : Env} {EL : EnvLaws E} {G : Type} {R : Rng G} {RL : RngLaws G R}.

Implicit Types t : @task G.

(** The flags of the [select!]: only [recv] is ever disabled, and only when it has nothing more to give. *)
Definition sel_ok t : Prop :=
  sel t = [false; false] \/ (sel t = [true; false] /\ senders t = false /\ queue t = []).

Lemma poll_task_eq tick_first elapsed t :
  running t = true -> sel_ok t ->
  poll_task (order_of tick_first) elapsed t =
  if tick_first && elapsed then tick t
  else match queue t with
       | c :: q => handle t c q
       | [] => if elapsed then tick t
               else Task (tk_writer t) (tk_shaper t) [] (senders t)
                      (if senders t then sel t else [true; false]) true (tk_records t) (answers t)
       end.
Proof.
  intros Hr Hs. unfold poll_task. rewrite Hr. unfold poll_recv, poll_tick.
  destruct t as [w sh q sn sl ru rc an]. unfold sel_ok in Hs. cbn in *.
  destruct Hs as [->|(-> & -> & ->)].
  - destruct tick_first, elapsed, q, sn; reflexivity.
  - destruct tick_first, elapsed; reflexivity.
Qed.

(** The [else] arm is never taken. *)
Theorem else_never tick_first elapsed t : sel_ok t ->
  select (order_of tick_first) (sel t) [poll_recv t; poll_tick elapsed] <> Else.
Proof.
  unfold sel_ok, poll_recv, poll_tick. destruct t as [w sh q sn sl ru rc an]. cbn.
  intros [->|(-> & -> & ->)]; [|destruct tick_first, elapsed; discriminate].
  destruct tick_first, elapsed, q, sn; discriminate.
Qed.

Definition answers_of (cs : list command) (rs : list (payload * result perror unit)) : list (N * result perror unit) :=
  combine (map cmd_id cs) (map snd rs).

Lemma answers_of_snoc cs rs c x : length cs = length rs ->
  answers_of (cs ++ [c]) (rs ++ [(cmd_payload c, x)]) = answers_of cs rs ++ [(cmd_id c, x)].
Proof.
  unfold answers_of. revert rs. induction cs as [|a cs IH]; intros [|b rs] L; try discriminate; [reflexivity|].
  cbn [map combine app]. f_equal. apply IH. now injection L.
Qed.

Definition served (cfg : config) (p0 : pwriter) (recs0 : list N) (n : nat) (handled : list command) t : Prop :=
  exists rs bs, Forall (block_ok cfg) bs /\ serves Tokio p0 bs rs (tk_writer t) /\
    map fst rs = map cmd_payload handled /\ answers t = answers_of handled rs /\
    tk_records t = recs0 ++ flat_map block_sizes bs /\ (packets bs <= n)%nat.

Definition tinv (cfg : config) (p0 : pwriter) (recs0 : list N) (k : N) (es : list event) t : Prop :=
  sh_config (tk_shaper t) = cfg /\ counted k (pw_cipher (tk_writer t)) /\ senders t = is_open es /\
  sel_ok t /\ Forall (fun c => sound_payload (cmd_payload c)) (queue t) /\
  (alive es -> running t = true) /\
  exists handled rest, accepted es = handled ++ rest /\ (running t = true -> rest = queue t) /\
    served cfg p0 recs0 (2 * length es) handled t.

Lemma handle_spec cfg p0 recs0 n k t c q handled :
  sh_config (tk_shaper t) = cfg -> counted k (pw_cipher (tk_writer t)) ->
  (overflow_checks = true -> k + 2 < 2 ^ 32) -> sound_payload (cmd_payload c) ->
  served cfg p0 recs0 n handled t ->
  exists w sh recs x, handle t c q = turn t w sh q recs [(cmd_id c, x)] /\
    sh_config sh = cfg /\ counted (k + 2) (pw_cipher w) /\
    served cfg p0 recs0 (n + 2) (handled ++ [c]) (handle t c q).
Proof.
  intros C Hc Hr Sp (rs & bs & Fb & S & M & A & Rc & Pk). unfold handle.
  destruct (pad_total (tk_shaper t) _ Sp) as (d & sh' & rec' & SP). rewrite SP.
  destruct (shaper_pad_spec _ _ _ _ _ SP) as [C' Q]. rewrite C in C', Q.
  assert (L : length handled = length rs).
  { apply (f_equal (@length _)) in M. now rewrite !map_length in M. }
  destruct Sp as [v V].
  assert (room k) as R0 by (intros Ho; specialize (Hr Ho); lia).
  assert (room (k + 1)) as R1 by (intros Ho; specialize (Hr Ho); lia).
  destruct d as [d|].
  - destruct Q as (Q1 & Q2 & ->). destruct (decoy_sound d Q2) as [u U].
    destruct (write_any_total Tokio (tk_writer t) d k u Hc R0 U) as (x & w & W & Cw). cbn [write_any] in W.
    rewrite W. destruct x as [[]|e].
    + destruct (write_any_total Tokio w (cmd_payload c) (k + 1) v Cw R1 V) as (x & w2 & W2 & Cw2). cbn [write_any] in W2.
      rewrite W2. exists w2, sh', [size_of (cmd_payload c); size_of d], x.
      split; [reflexivity|]. split; [assumption|].
      split; [eapply counted_mono; [|eassumption]; lia|].
      exists (rs ++ [(cmd_payload c, x)]), (bs ++ [Padded d (cmd_payload c)]). unfold turn. cbn [tk_writer answers tk_records].
      split; [apply blocks_snoc; [assumption|split; assumption]|].
      split; [eapply serves_padded; [eassumption|exact W|exact W2]|].
      split; [rewrite !map_app, M; reflexivity|].
      split; [now rewrite A, answers_of_snoc|].
      split; [rewrite Rc, sizes_snoc; now rewrite app_assoc|]. rewrite packets_snoc. cbn [block_payloads length]. lia.
    + exists w, sh', [size_of (cmd_payload c); size_of d], (Err e).
      split; [reflexivity|]. split; [assumption|].
      split; [eapply counted_mono; [|eassumption]; lia|].
      exists (rs ++ [(cmd_payload c, Err e)]), (bs ++ [Padded d (cmd_payload c)]). unfold turn. cbn [tk_writer answers tk_records].
      split; [apply blocks_snoc; [assumption|split; assumption]|].
      split; [eapply serves_padding_failed; [eassumption|exact W]|].
      split; [rewrite !map_app, M; reflexivity|].
      split; [now rewrite A, answers_of_snoc|].
      split; [rewrite Rc, sizes_snoc; now rewrite app_assoc|]. rewrite packets_snoc. cbn [block_payloads length]. lia.
  - destruct Q as (Q1 & -> & ->).
    destruct (write_any_total Tokio (tk_writer t) (cmd_payload c) k v Hc R0 V) as (x & w2 & W2 & Cw2). cbn [write_any] in W2.
    rewrite W2. exists w2, (tk_shaper t), [size_of (cmd_payload c)], x.
    split; [reflexivity|]. split; [assumption|].
    split; [eapply counted_mono; [|eassumption]; lia|].
    exists (rs ++ [(cmd_payload c, x)]), (bs ++ [Bare (cmd_payload c)]). unfold turn. cbn [tk_writer answers tk_records].
    split; [apply blocks_snoc; [assumption|assumption]|].
    split; [eapply serves_bare; [eassumption|exact W2]|].
    split; [rewrite !map_app, M; reflexivity|].
    split; [now rewrite A, answers_of_snoc|].
    split; [rewrite Rc, sizes_snoc; now rewrite app_assoc|]. rewrite packets_snoc. cbn [block_payloads length]. lia.
Qed.

Lemma tick_spec cfg p0 recs0 n k t handled :
  sh_config (tk_shaper t) = cfg -> counted k (pw_cipher (tk_writer t)) ->
  (overflow_checks = true -> k + 2 < 2 ^ 32) -> served cfg p0 recs0 n handled t ->
  exists w sh recs, tick t = turn t w sh (queue t) recs [] /\
    sh_config sh = cfg /\ counted (k + 2) (pw_cipher w) /\ served cfg p0 recs0 (n + 2) handled (tick t).
Proof.
  intros C Hc Hr (rs & bs & Fb & S & M & A & Rc & Pk). unfold tick.
  destruct (shaper_decoy (tk_shaper t)) as [[d sh'] rec'] eqn:SD.
  destruct (shaper_decoy_spec _ _ _ _ SD) as (C' & Q & _). rewrite C in *.
  assert (room k) as R0 by (intros Ho; specialize (Hr Ho); lia).
  destruct d as [d|].
  - destruct Q as (Q1 & Q2 & ->). destruct (decoy_sound d Q2) as [u U].
    destruct (write_any_total Tokio (tk_writer t) d k u Hc R0 U) as (x & w & W & Cw). cbn [write_any] in W.
    rewrite W. exists w, sh', [size_of d].
    split; [reflexivity|]. split; [assumption|].
    split; [eapply counted_mono; [|eassumption]; lia|].
    exists rs, (bs ++ [Cover d]). unfold turn. cbn [tk_writer answers tk_records].
    split; [apply blocks_snoc; [assumption|split; assumption]|].
    split; [eapply serves_cover; [eassumption|exact W]|].
    split; [assumption|]. split; [now rewrite app_nil_r|].
    split; [rewrite Rc, sizes_snoc; now rewrite app_assoc|]. rewrite packets_snoc. cbn [block_payloads length]. lia.
  - subst rec'. exists (tk_writer t), sh', [].
    split; [reflexivity|]. split; [assumption|].
    split; [eapply counted_mono; [|eassumption]; lia|].
    exists rs, bs. unfold turn. cbn [tk_writer answers tk_records]. rewrite !app_nil_r. repeat split; try assumption. lia.
Qed.

Lemma alive_snoc es e : alive (es ++ [e]) <-> alive es /\ e <> Kill.
Proof.
  unfold alive. rewrite in_app_iff. cbn. split.
  - intros H. split; [tauto|]. intros ->. tauto.
  - intros [H1 H2] [H|[H|[]]]; congruence.
Qed.

Lemma tinv_step cfg p0 recs0 k es t e :
  tinv cfg p0 recs0 k es t -> (overflow_checks = true -> k + 2 < 2 ^ 32) -> event_sound e ->
  tinv cfg p0 recs0 (k + 2) (es ++ [e]) (task_step t e).
Proof.
  intros (C & Hc & Sn & Sl & Fq & Al & handled & rest & Ac & Rq & Sv) Hr Se.
  assert (counted (k + 2) (pw_cipher (tk_writer t))) as Hc2 by (eapply counted_mono; [|eassumption]; lia).
  unfold tinv. rewrite is_open_snoc, accepted_snoc, app_length. cbn [length].
  replace (2 * (length es + 1))%nat with (2 * length es + 2)%nat by lia.
  assert (Sv' : forall X, served cfg p0 recs0 (2 * length es) handled X -> served cfg p0 recs0 (2 * length es + 2) handled X).
  { intros X (rs & bs & Q1 & Q2 & Q3 & Q4 & Q5 & Q6). exists rs, bs. repeat split; try assumption. lia. }
  destruct e as [c| |tf el|]; cbn [task_step].
  - rewrite andb_true_r, Sn. destruct (is_open es) eqn:O; cbn [andb].
    + destruct (running t) eqn:Ru.
      * cbn [tk_shaper tk_writer senders sel queue running]. split; [assumption|]. split; [assumption|]. split; [reflexivity|].
        split. { left. destruct Sl as [?|(_ & ? & _)]; [assumption|congruence]. }
        split. { apply Forall_app. split; [assumption|]. repeat constructor. exact Se. }
        split; [auto|]. exists handled, (rest ++ [c]). rewrite Ac, app_assoc. split; [reflexivity|].
        split; [intros _; now rewrite Rq|]. exact (Sv' _ Sv).
      * split; [assumption|]. split; [assumption|]. split; [assumption|]. split; [assumption|]. split; [assumption|].
        split. { intros Q. apply alive_snoc in Q. try rewrite Ru in *. now apply Al. }
        exists handled, (rest ++ [c]). rewrite Ac, app_assoc. split; [reflexivity|]. rewrite Ru. split; [discriminate|exact (Sv' _ Sv)].
    + split; [assumption|]. split; [assumption|]. split; [assumption|]. split; [assumption|]. split; [assumption|].
      split. { intros Q. apply alive_snoc in Q. now apply Al. }
      exists handled, rest. rewrite app_nil_r. auto.
  - rewrite andb_false_r. cbn [tk_shaper tk_writer senders sel queue running].
    split; [assumption|]. split; [assumption|]. split; [reflexivity|].
    split. { destruct Sl as [?|(? & _ & ?)]; [now left|now right]. }
    split; [assumption|]. split. { intros Q. apply alive_snoc in Q. now apply Al. }
    exists handled, rest. split; [destruct (is_open es); now rewrite app_nil_r|]. auto.
  - rewrite andb_true_r.
    assert (accepted es ++ (if is_open es then [] else []) = handled ++ rest) as Ac'
      by (destruct (is_open es); now rewrite app_nil_r).
    rewrite Ac'. destruct (running t) eqn:Ru.
    2:{ unfold poll_task. rewrite Ru. split; [assumption|]. split; [assumption|]. split; [assumption|]. split; [assumption|].
        split; [assumption|]. split. { intros Q. apply alive_snoc in Q. try rewrite Ru in *. now apply Al. }
        exists handled, rest. rewrite Ru. auto. }
    specialize (Rq eq_refl). subst rest. rewrite poll_task_eq by assumption.
    assert (Tick : forall X, X = tick t ->
      sh_config (tk_shaper X) = cfg /\ counted (k + 2) (pw_cipher (tk_writer X)) /\ senders X = is_open es /\ sel_ok X /\
      Forall (fun c => sound_payload (cmd_payload c)) (queue X) /\ (alive (es ++ [Poll tf el]) -> running X = true) /\
      (exists handled' rest, handled ++ queue t = handled' ++ rest /\ (running X = true -> rest = queue X) /\ served cfg p0 recs0 (2 * length es + 2) handled' X)).
    { intros X ->. destruct (tick_spec _ _ _ _ _ _ _ C Hc Hr Sv) as (w & sh & recs & T & T1 & T2 & T3).
      rewrite T in *. cbn [turn tk_shaper tk_writer senders sel queue running].
      split; [assumption|]. split; [assumption|]. split; [assumption|]. split; [now left|]. split; [assumption|].
      split; [reflexivity|]. exists handled, (queue t). split; [reflexivity|]. split; [reflexivity|]. exact T3. }
    destruct (tf && el); [now apply Tick|].
    destruct (queue t) as [|c q] eqn:Qu.
    + destruct el; [now apply Tick|]. cbn [tk_shaper tk_writer senders sel queue running].
      split; [assumption|]. split; [assumption|]. split; [assumption|].
      split. { unfold sel_ok. cbn [sel senders queue]. destruct (senders t) eqn:St; [|auto].
               destruct Sl as [?|(_ & ? & _)]; [now left|congruence]. }
      split; [constructor|]. split; [reflexivity|]. exists handled, []. auto.
    + inversion Fq as [|? ? Sc Fq']; subst.
      destruct (handle_spec _ _ _ _ _ _ c q _ eq_refl Hc Hr Sc Sv) as (w & sh & recs & x & T & T1 & T2 & T3).
      rewrite T in *. cbn [turn tk_shaper tk_writer senders sel queue running].
      split; [assumption|]. split; [assumption|]. split; [assumption|]. split; [now left|]. split; [assumption|].
      split; [reflexivity|]. exists (handled ++ [c]), q. rewrite <- app_assoc. split; [reflexivity|]. split; [reflexivity|]. exact T3.
  - rewrite andb_true_r.
    assert (accepted es ++ (if is_open es then [] else []) = handled ++ rest) as Ac'
      by (destruct (is_open es); now rewrite app_nil_r).
    rewrite Ac'. assert (alive (es ++ [Kill]) -> forall b : bool, b = true) as Al'
      by (intros Q; apply alive_snoc in Q; tauto).
    destruct (running t) eqn:Ru.
    + cbn [stop tk_shaper tk_writer senders sel queue running].
      split; [assumption|]. split; [assumption|]. split; [assumption|].
      split. { unfold sel_ok. cbn [stop sel senders queue]. destruct Sl as [?|(? & ? & _)]; [now left|now right]. }
      split; [constructor|]. split; [auto|]. exists handled, rest. split; [reflexivity|]. split; [discriminate|]. exact (Sv' _ Sv).
    + split; [assumption|]. split; [assumption|]. split; [assumption|]. split; [assumption|]. split; [assumption|].
      split; [auto|]. exists handled, rest. rewrite Ru. auto.
Qed.

Lemma tinv_new p sh recs k : counted k (pw_cipher p) -> tinv (sh_config sh) p recs k [] (task_new p sh recs).
Proof.
  intros H. unfold tinv, task_new. cbn. split; [reflexivity|]. split; [assumption|]. split; [reflexivity|].
  split; [now left|]. split; [constructor|]. split; [reflexivity|]. exists [], []. split; [reflexivity|]. split; [reflexivity|].
  exists [], []. cbn. rewrite app_nil_r. repeat split; constructor.
Qed.

Lemma tinv_run cfg p0 recs0 : forall es2 k es1 t,
  tinv cfg p0 recs0 k es1 t -> (overflow_checks = true -> k + 2 * len es2 < 2 ^ 32) -> Forall event_sound es2 ->
  tinv cfg p0 recs0 (k + 2 * len es2) (es1 ++ es2) (task_run t es2).
Proof.
  induction es2 as [|e es2 IH]; intros k es1 t I Hr F.
  - cbn. rewrite app_nil_r. now replace (k + 0) with k by lia.
  - inversion F; subst. rewrite len_cons in *.
    replace (k + 2 * (len es2 + 1)) with (k + 2 + 2 * len es2) by lia.
    change (e :: es2) with ([e] ++ es2). rewrite app_assoc. cbn [task_run fold_left app].
    apply IH; [|intros Ho; specialize (Hr Ho); lia|assumption].
    apply tinv_step; [assumption|intros Ho; specialize (Hr Ho); lia|assumption].
Qed.

Theorem task_invariant p sh recs k es :
  counted k (pw_cipher p) -> (overflow_checks = true -> k + 2 * len es < 2 ^ 32) ->
  Forall event_sound es ->
  tinv (sh_config sh) p recs (k + 2 * len es) es (task_run (task_new p sh recs) es).
Proof. intros. now apply (tinv_run _ _ _ es k [] _ (tinv_new p sh recs k ltac:(assumption))). Qed.

(** Commands are served in order. *)
Theorem task_serves p sh recs k es :
  counted k (pw_cipher p) -> (overflow_checks = true -> k + 2 * len es < 2 ^ 32) ->
  Forall event_sound es ->
  let t := task_run (task_new p sh recs) es in
  exists handled rest rs bs,
    accepted es = handled ++ rest /\ (running t = true -> rest = queue t) /\
    Forall (block_ok (sh_config sh)) bs /\ serves Tokio p bs rs (tk_writer t) /\
    map fst rs = map cmd_payload handled /\
    answers t = combine (map cmd_id handled) (map snd rs) /\
    tk_records t = recs ++ flat_map block_sizes bs /\ (packets bs <= 2 * length es)%nat.
Proof.
  intros H Hr F t. destruct (task_invariant p sh recs k es H Hr F) as (_ & _ & _ & _ & _ & _ & handled & rest & Ac & Rq & rs & bs & Q).
  exists handled, rest, rs, bs. tauto.
Qed.

(** The task does not end by itself. *)
Theorem task_runs p sh recs k es :
  counted k (pw_cipher p) -> (overflow_checks = true -> k + 2 * len es < 2 ^ 32) ->
  Forall event_sound es -> alive es -> running (task_run (task_new p sh recs) es) = true.
Proof.
  intros H Hr F A. destruct (task_invariant p sh recs k es H Hr F) as (_ & _ & _ & _ & _ & Q & _). auto.
Qed.

(** A poll makes progress: it serves the next command or an elapsed tick. *)
Theorem task_progress p sh recs k es c q tick_first elapsed :
  counted k (pw_cipher p) -> (overflow_checks = true -> k + 2 * len es + 2 < 2 ^ 32) ->
  Forall event_sound es ->
  let t := task_run (task_new p sh recs) es in
  running t = true -> queue t = c :: q -> tick_first && elapsed = false ->
  exists x, queue (task_step t (Poll tick_first elapsed)) = q /\
    answers (task_step t (Poll tick_first elapsed)) = answers t ++ [(cmd_id c, x)].
Proof.
  intros H Hr F. cbn zeta.
  destruct (task_invariant p sh recs k es H) as (C & Hc & Sn & Sl & Fq & Al & handled & rest & Ac & Rq & Sv);
    [intros Ho; specialize (Hr Ho); lia|assumption|].
  set (t := task_run (task_new p sh recs) es) in *. clearbody t. intros Ru Qu Te.
  cbn [task_step]. rewrite poll_task_eq, Te, Qu by assumption. rewrite Qu in Fq. inversion Fq as [|? ? Sc Fq']; subst.
  assert (overflow_checks = true -> k + 2 * len es + 2 < 2 ^ 32) as Hr' by assumption.
  destruct (handle_spec _ _ _ _ _ _ c q _ C Hc Hr' Sc Sv) as (w & sh' & rec' & x & T & _).
  rewrite T. exists x. split; reflexivity.
Qed.

(** ** Answers *)

Lemma nodup_app_l {A} (l1 l2 : list A) : NoDup (l1 ++ l2) -> NoDup l1.
Proof.
  induction l1 as [|a l1 IH]; intros H; [constructor|]. inversion H as [|? ? N1 N2]; subst.
  constructor; [|now apply IH]. intros Q. apply N1. apply in_or_app. now left.
Qed.

Lemma find_combine (ids : list N) : forall (xs : list (result perror unit)) i id x,
  NoDup ids -> nth_error ids i = Some id -> nth_error xs i = Some x ->
  find (fun a => fst a =? id) (combine ids xs) = Some (id, x).
Proof.
  induction ids as [|a ids IH]; intros xs i id x Nd Hi Hx; [destruct i; discriminate|].
  inversion Nd as [|? ? N1 N2]; subst. destruct xs as [|y xs]; [destruct i; discriminate|].
  cbn [combine find fst]. destruct i as [|i]; cbn in Hi, Hx.
  - injection Hi as ->. injection Hx as ->. now rewrite N.eqb_refl.
  - assert (a <> id) as Ne by (intros ->; apply N1; eapply nth_error_In; eassumption).
    rewrite (proj2 (N.eqb_neq _ _)) by assumption. eapply IH; eassumption.
Qed.

Lemma find_combine_none (ids : list N) (xs : list (result perror unit)) id :
  ~ In id ids -> find (fun a => fst a =? id) (combine ids xs) = None.
Proof.
  revert xs. induction ids as [|a ids IH]; intros xs H; [reflexivity|]. destruct xs as [|y xs]; [reflexivity|].
  cbn [combine find fst]. rewrite (proj2 (N.eqb_neq _ _)) by (intros ->; apply H; now left).
  apply IH. intros Q. apply H. now right.
Qed.

(** Every caller gets the result of its own command; a caller whose command is not handled gets no answer, or
    the error for a task that is gone. *)
Theorem task_answers p sh recs k es :
  counted k (pw_cipher p) -> (overflow_checks = true -> k + 2 * len es < 2 ^ 32) ->
  Forall event_sound es -> NoDup (map cmd_id (accepted es)) ->
  let t := task_run (task_new p sh recs) es in
  exists handled rest rs bs,
    accepted es = handled ++ rest /\ serves Tokio p bs rs (tk_writer t) /\
    map fst rs = map cmd_payload handled /\
    (forall i c r, nth_error handled i = Some c -> nth_error rs i = Some r ->
       answer_to t (cmd_id c) = Some (snd r)) /\
    (forall c, In c rest -> answer_to t (cmd_id c) = if running t then None else Some (Err gone)).
Proof.
  intros H Hr F Nd t. destruct (task_serves p sh recs k es H Hr F) as (handled & rest & rs & bs & Ac & _ & _ & S & M & A & _).
  exists handled, rest, rs, bs. fold t in A, S. rewrite Ac, map_app in Nd. repeat split; try assumption.
  - intros i c r Hi Hx. unfold answer_to. rewrite A.
    rewrite (find_combine _ _ i (cmd_id c) (snd r)); [reflexivity| | |].
    + eapply nodup_app_l; eassumption.
    + now apply map_nth_error.
    + now apply map_nth_error.
  - intros c Hc. unfold answer_to. rewrite A. rewrite find_combine_none; [reflexivity|].
    intros Q. apply in_map with (f := cmd_id) in Hc.
    clear -Nd Q Hc. induction (map cmd_id handled) as [|a l IH]; [destruct Q|].
    cbn [app] in Nd. inversion Nd as [|? ? N1 N2]; subst. destruct Q as [->|Q]; [|now apply IH].
    apply N1. apply in_or_app. now right.
Qed.

(** ** Cover traffic without senders *)

Theorem task_emits : forall n t k,
  running t = true -> sel_ok t -> queue t = [] -> decoy_strategy (sh_config (tk_shaper t)) = Random ->
  (forall g, 85 <= fst (gen_range 0 99 g)) ->
  healthy (pw_writer (tk_writer t)) -> counted k (pw_cipher (tk_writer t)) ->
  (overflow_checks = true -> k + N.of_nat n < 2 ^ 32) ->
  let t' := task_run t (repeat (Poll false true) n) in
  running t' = true /\
  exists ds pkts, length ds = n /\ Forall shaper_decoy_payload ds /\
    send_all (pw_cipher (tk_writer t)) (wire_of ds) = Ret (pkts, pw_cipher (tk_writer t')) /\
    written (pw_writer (tk_writer t')) = written (pw_writer (tk_writer t)) ++ concat pkts.
Proof.
  induction n as [|n IH]; intros t k Ru Sl Qu Ds Hg Hh Hc Hr t'; subst t'.
  - split; [assumption|]. exists [], []. cbn. rewrite app_nil_r. repeat split; constructor.
  - cbn [repeat]. change (task_run t (Poll false true :: repeat (Poll false true) n))
      with (task_run (task_step t (Poll false true)) (repeat (Poll false true) n)).
    cbn [task_step]. rewrite poll_task_eq, Qu by assumption. cbn [andb].
    unfold tick. destruct (shaper_decoy (tk_shaper t)) as [[d sh'] rec'] eqn:SD.
    destruct (shaper_decoy_spec _ _ _ _ SD) as (C' & Q & _).
    destruct d as [d|].
    2:{ exfalso. unfold shaper_decoy in SD. rewrite Ds in SD. specialize (Hg (sh_rng (tk_shaper t))).
        destruct (gen_range 0 99 _) as [p g1]. cbn [fst] in Hg.
        rewrite (proj2 (N.ltb_ge _ _)) in SD by assumption. destruct (zero_decoy g1) as [[? ?] ?]. discriminate. }
    destruct Q as (_ & Q2 & ->). destruct (decoy_sound d Q2) as [u U].
    assert (room k) as R0 by (intros Ho; specialize (Hr Ho); lia).
    destruct (write_any_total Tokio (tk_writer t) d k u Hc R0 U) as (x & w & W & Cw).
    pose proof (write_any_healthy_any Tokio _ _ _ _ Hh W) as (-> & Hh' & pkt & En & Ww).
    cbn [write_any] in W. rewrite W.
    destruct (IH (turn t w sh' (queue t) [size_of d] []) (k + 1)) as (Ru' & ds & pkts & L & Fd & Sa & Wr).
    + reflexivity.
    + now left.
    + assumption.
    + cbn [turn tk_shaper]. now rewrite C'.
    + assumption.
    + assumption.
    + assumption.
    + intros Ho; specialize (Hr Ho); lia.
    + split; [assumption|]. exists (d :: ds), (pkt :: pkts). split; [cbn; now rewrite L|]. split; [now constructor|].
      cbn [turn tk_writer] in *. split.
      * cbn [wire_of map send_all as_msg m_contents m_type m_aad]. rewrite En. cbn [bind].
        unfold wire_of in Sa. rewrite Sa. reflexivity.
      * rewrite Wr, Ww. cbn [concat]. now rewrite app_assoc.
Qed.

(** ** Disabled shaping *)

Lemma task_shaper_unused t e :
  sh_config (tk_shaper t) = Config Disabled Disabled -> sel_ok t -> tk_shaper (task_step t e) = tk_shaper t.
Proof.
  intros C Sl. destruct e as [c| |tf el|]; cbn [task_step].
  - destruct (senders t && running t); reflexivity.
  - reflexivity.
  - destruct (running t) eqn:Ru; [|unfold poll_task; now rewrite Ru]. rewrite poll_task_eq by assumption.
    assert (tk_shaper (tick t) = tk_shaper t) as T.
    { unfold tick. destruct (shaper_decoy (tk_shaper t)) as [[d sh'] rec'] eqn:SD.
      destruct (shaper_decoy_spec _ _ _ _ SD) as (_ & _ & Q). rewrite C in Q. specialize (Q eq_refl). subst sh'.
      destruct d as [d|]; [|reflexivity]. destruct (tokio_write _ d) as [[? ?]| |]; reflexivity. }
    destruct (tf && el); [assumption|]. destruct (queue t) as [|c q]; [destruct el; [assumption|reflexivity]|].
    unfold handle. destruct (shaper_pad (tk_shaper t) (cmd_payload c)) as [[[d sh'] rec']| |] eqn:SP; [|reflexivity..].
    destruct (shaper_pad_spec _ _ _ _ _ SP) as [_ Q]. rewrite C in Q.
    destruct d as [d|]; [destruct Q; discriminate|]. destruct Q as (_ & -> & _).
    destruct (tokio_write _ (cmd_payload c)) as [[? ?]| |]; reflexivity.
  - destruct (running t); reflexivity.
Qed.

Theorem task_disabled p sh recs k es :
  sh_config sh = Config Disabled Disabled ->
  counted k (pw_cipher p) -> (overflow_checks = true -> k + 2 * len es < 2 ^ 32) ->
  Forall event_sound es ->
  let t := task_run (task_new p sh recs) es in
  tk_shaper t = sh /\
  exists handled rest xs, accepted es = handled ++ rest /\
    write_many Tokio p (map cmd_payload handled) = Ret (xs, tk_writer t) /\
    answers t = combine (map cmd_id handled) xs /\
    tk_records t = recs ++ map size_of (map cmd_payload handled).
Proof.
  intros C H Hr F t. split.
  - assert (Q : forall es2 es1 k t, tinv (sh_config sh) p recs k es1 t -> tk_shaper t = sh ->
       (overflow_checks = true -> k + 2 * len es2 < 2 ^ 32) -> Forall event_sound es2 -> tk_shaper (task_run t es2) = sh).
    { clear -C RL EL. induction es2 as [|e es2 IH]; intros es1 k t I S Hr F; [assumption|].
      inversion F; subst. rewrite len_cons in Hr. cbn [task_run fold_left].
      assert (sel_ok t) as Sl by apply I.
      eapply IH with (es1 := es1 ++ [e]) (k := k + 2).
      - apply tinv_step; [assumption| |assumption]. intros Ho. specialize (Hr Ho). lia.
      - apply task_shaper_unused; assumption.
      - intros Ho. specialize (Hr Ho). lia.
      - assumption. }
    eapply Q; [apply (tinv_new p sh recs k H)|reflexivity|assumption|assumption].
  - destruct (task_serves p sh recs k es H Hr F) as (handled & rest & rs & bs & Ac & _ & Fb & S & M & A & Rc & _).
    rewrite C in Fb. change (task_run (task_new p sh recs) es) with t in S, A, Rc.
    destruct (serves_plain _ _ _ _ _ S Fb) as [W ->].
    exists handled, rest, (map snd rs). rewrite <- M. repeat split; try assumption.
    rewrite Rc. f_equal. clear. induction (map fst rs) as [|x l IH]; [reflexivity|]. cbn. now rewrite IH.
Qed.

End Task.
