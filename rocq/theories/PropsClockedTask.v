(** * PropsClockedTask: a clock before 1970 and a writer task that is suspended inside its writes (C115) *)
From Coq Require Import List NArith Bool Lia.
From Coq.Strings Require Import Byte.
From Verif Require Import Base BaseFacts Env Toy FsChacha Cipher Histories CipherProofs Handshake Transport Io Futures SpecIo Sessions
  SessionProofs Traffic TrafficIo TrafficFutures SpecTraffic TrafficFuturesProofs PropsHandshake PropsIo PropsTraffic Clocked ClockedProofs
  TrafficTask SpecTask TrafficTaskProofs ClockedTask.
Import ListNotations.
Local Open Scope N_scope.

Section Sim.
Context {E : Env} {G : Type} {R : Rng G} {RL : RngLaws G R}.

Lemma step_at_cases (s : @split_task G) e t1 t2 :
  split_step_at s (e, (t1, t2)) = split_step s e \/
  ((t1 = BeforeEpoch \/ t2 = BeforeEpoch) /\ running (sp_task s) = true /\ sp_place s = AtSelect /\
   (exists tf el, e = Ev (Poll tf el)) /\
   exists sh recs, split_step_at s (e, (t1, t2)) = SplitTask (unwind (sp_task s) sh recs) AtSelect /\ (1 <= length recs <= 2)%nat).
Proof.
  unfold split_step_at, split_step. destruct e as [[c| |tf el|]|]; auto. unfold split_poll_at, split_poll.
  destruct s as [t pl]. cbn [sp_task sp_place]. destruct (running t) eqn:Rn; [|auto]. destruct pl; auto.
  destruct (select _ _ _) as [[|i]| |d]; auto.
  - destruct (queue t) as [|cmd q]; [auto|]. unfold split_handle_at, split_handle.
    destruct (pad_at (tk_shaper t) (cmd_payload cmd) t1 t2) as [[[d|] sh] recs] eqn:Q.
    + left. rewrite (pad_returned _ _ _ _ _ _ _ Q). reflexivity.
    + unfold pad_at, shaper_pad in *. destruct (payload_contents (cmd_payload cmd)) as [ct| |] eqn:Ct; cbn [bind].
      * right. destruct t1 as [|m1]; cbn [now_ms] in Q.
        -- injection Q as <- <-. repeat split; eauto. exists (tk_shaper t), [len ct]. split; [reflexivity|]. cbn. lia.
        -- destruct (padding_strategy (sh_config (tk_shaper t))); [discriminate|].
           destruct (zero_decoy (sh_rng (tk_shaper t))) as [[d0 z] g]. destruct t2; cbn [now_ms] in Q; [|discriminate].
           injection Q as <- <-. repeat split; eauto. eexists _, _. split; [reflexivity|]. cbn. lia.
      * left. injection Q as <- <-. unfold branch_panic, unwind, stop. now rewrite app_nil_r.
      * left. injection Q as <- <-. unfold branch_panic, unwind, stop. now rewrite app_nil_r.
  - unfold split_tick_at, split_tick.
    destruct (decoy_at (tk_shaper t) t1) as [[[d|] sh] recs] eqn:Q.
    + left. rewrite (decoy_returned _ _ _ _ _ Q). reflexivity.
    + right. destruct (decoy_unwound _ _ _ _ Q) as [-> L]. repeat split; eauto. exists sh, recs. split; [reflexivity|].
      unfold decoy_at in Q. destruct (decoy_strategy _); [discriminate|]. destruct (gen_range 0 99 _) as [q g].
      destruct (q <? 85); [discriminate|]. destruct (zero_decoy g) as [[d0 z] g']. cbn [now_ms] in Q. injection Q as _ <-. cbn. lia.
Qed.

Lemma gone_at : forall es (s : @split_task G), running (sp_task s) = false -> let s' := split_run_at s es in
  running (sp_task s') = false /\ sp_place s' = sp_place s /\ tk_writer (sp_task s') = tk_writer (sp_task s) /\
  tk_records (sp_task s') = tk_records (sp_task s) /\ answers (sp_task s') = answers (sp_task s).
Proof.
  induction es as [|[e [t1 t2]] es IH]; intros s H; [auto|]. unfold split_run_at in *. cbn [fold_left]. cbn zeta in *.
  assert (let s' := split_step_at s (e, (t1, t2)) in
    running (sp_task s') = false /\ sp_place s' = sp_place s /\ tk_writer (sp_task s') = tk_writer (sp_task s) /\
    tk_records (sp_task s') = tk_records (sp_task s) /\ answers (sp_task s') = answers (sp_task s)) as (Q0 & Q1 & Q2 & Q3 & Q4).
  { destruct e as [[c| |tf el|]|]; cbn; unfold split_poll_at; rewrite ?H, ?andb_false_r; cbn; auto. }
  destruct (IH _ Q0) as (I1 & I2 & I3 & I4 & I5). repeat split; congruence.
Qed.

(** Either the clock has made no difference, or the task has been unwound at its [select!]. *)
Lemma run_at_cases : forall es (s : @split_task G),
  split_run_at s es = split_run s (map fst es) \/
  exists pre tf el t1 t2 post unsent, es = pre ++ (Ev (Poll tf el), (t1, t2)) :: post /\ (t1 = BeforeEpoch \/ t2 = BeforeEpoch) /\
    let s0 := split_run s (map fst pre) in let s' := split_run_at s es in
    split_run_at s pre = s0 /\ running (sp_task s0) = true /\ sp_place s0 = AtSelect /\
    running (sp_task s') = false /\ sp_place s' = AtSelect /\ tk_writer (sp_task s') = tk_writer (sp_task s0) /\
    answers (sp_task s') = answers (sp_task s0) /\
    tk_records (sp_task s') = tk_records (sp_task s0) ++ unsent /\ (1 <= length unsent <= 2)%nat.
Proof.
  induction es as [|[e [t1 t2]] es IH]; intros s; [now left|].
  destruct (step_at_cases s e t1 t2) as [Q|(B & Rn & Pl & (tf & el & ->) & sh & recs & Q & L)].
  - destruct (IH (split_step s e)) as [I|(pre & tf & el & u1 & u2 & post & un & -> & B & I)].
    + left. unfold split_run_at, split_run in *. cbn [fold_left map fst]. rewrite Q. exact I.
    + right. exists ((e, (t1, t2)) :: pre), tf, el, u1, u2, post, un. split; [reflexivity|]. split; [exact B|].
      unfold split_run_at, split_run in *. cbn [fold_left map fst app] in *. rewrite Q. exact I.
  - right. exists [], tf, el, t1, t2, es, recs. split; [reflexivity|]. split; [exact B|]. cbn zeta.
    assert (split_run_at s ((Ev (Poll tf el), (t1, t2)) :: es) = split_run_at (SplitTask (unwind (sp_task s) sh recs) AtSelect) es) as ->.
    { unfold split_run_at. cbn [fold_left]. now rewrite Q. }
    destruct (gone_at es (SplitTask (unwind (sp_task s) sh recs) AtSelect) eq_refl) as (I1 & I2 & I3 & I4 & I5).
    cbn [split_run split_run_at map fold_left]. rewrite I1, I2, I3, I4, I5. cbn [sp_task sp_place unwind tk_writer answers tk_records]. auto 10.
Qed.
End Sim.

(** ** C115 *)

(** A suspended task does not read the clock, and neither do its callers; a clock after 1970 makes no difference. *)
Theorem C115_not_read : forall (E : Env) (G : Type) (R : Rng G) (RL : RngLaws G R),
  (forall (s : @split_task G) e ts, sp_place s <> AtSelect -> split_step_at s (e, ts) = split_step s e) /\
  (forall (s : @split_task G) es, Forall (fun e => fst (snd e) <> BeforeEpoch /\ snd (snd e) <> BeforeEpoch) es ->
     split_run_at s es = split_run s (map fst es)).
Proof.
  intros E G R RL. split.
  - intros s e [t1 t2] Pl. destruct (step_at_cases s e t1 t2) as [Q|(_ & _ & P & _)]; [exact Q|contradiction].
  - intros s es F. destruct (run_at_cases es s) as [Q|(pre & tf & el & t1 & t2 & post & un & -> & B & _)]; [exact Q|].
    apply Forall_app in F. destruct F as [_ F]. inversion F as [|? ? [F1 F2] _]; subst. cbn [fst snd] in *. destruct B; contradiction.
Qed.
Print Assumptions C115_not_read.

(** The clock ends the task where it stands at its [select!], with the packets before it whole and nothing after it; an event with a
    reading before 1970 is needed for it. *)
Theorem C115_ends_at_select : forall (E : Env) (G : Type) (R : Rng G) (RL : RngLaws G R) (s : @split_task G) es,
  let s' := split_run_at s es in
  s' = split_run s (map fst es) \/
  exists pre tf el t1 t2 post unsent, es = pre ++ (Ev (Poll tf el), (t1, t2)) :: post /\ (t1 = BeforeEpoch \/ t2 = BeforeEpoch) /\
    let s0 := split_run s (map fst pre) in
    split_run_at s pre = s0 /\ running (sp_task s0) = true /\ sp_place s0 = AtSelect /\
    running (sp_task s') = false /\ sp_place s' = AtSelect /\ tk_writer (sp_task s') = tk_writer (sp_task s0) /\
    answers (sp_task s') = answers (sp_task s0) /\
    tk_records (sp_task s') = tk_records (sp_task s0) ++ unsent /\ (1 <= length unsent <= 2)%nat.
Proof. intros E G R RL s es. apply run_at_cases. Qed.
Print Assumptions C115_ends_at_select.

(** Whatever the clock says and wherever the task is suspended or killed: what is on the wire is a prefix of complete
    blocks for the first commands in order.  If the task is gone and nobody killed it, the blocks are complete, and every command that
    is answered with [UnexpectedEof] has no byte on the wire. *)
Theorem C115_wire : forall (E : Env) (EL : EnvLaws E) (G : Type) (R : Rng G) (RL : RngLaws G R) p (sh : shaper G) recs k es,
  counted k (pw_cipher p) -> (overflow_checks = true -> k + 2 * len es < 2 ^ 32) ->
  Forall event_sound (events_of (map fst es)) ->
  let s := split_run_at (split_new p sh recs) es in
  let t := sp_task s in
  exists handled rest rs bs p' tail ans unsent,
    accepted (events_of (map fst es)) = handled ++ rest /\
    Forall (block_ok (sh_config sh)) bs /\ serves Tokio p bs rs p' /\
    map fst rs = map cmd_payload handled /\
    tk_records t = recs ++ flat_map block_sizes bs ++ unsent /\ (length unsent <= 2)%nat /\ (running t = true -> unsent = []) /\
    written (pw_writer p') = written (pw_writer (tk_writer t)) ++ tail /\
    combine (map cmd_id handled) (map snd rs) = answers t ++ ans /\ map fst ans = waiting (sp_place s) /\
    (sp_place s = AtSelect -> p' = tk_writer t) /\
    (alive (events_of (map fst es)) -> running t = false ->
       sp_place s = AtSelect /\
       forall id, ~ In id (map cmd_id handled) -> answer_to t id = Some (Err (Io UnexpectedEof Abort))).
Proof.
  intros E EL G R RL p sh recs k es C Hr F. cbn zeta.
  assert (Hl : forall es' : list (split_event * (clock * clock)), (length es' <= length es)%nat -> overflow_checks = true -> k + 2 * len (map fst es') < 2 ^ 32).
  { intros es' L Ho. specialize (Hr Ho). unfold len in *. rewrite map_length. lia. }
  destruct (run_at_cases es (split_new p sh recs)) as [Q|(pre & tf & el & t1 & t2 & post & un & Q & _ & I)].
  - rewrite Q.
    destruct (split_serves p sh recs k (map fst es) C (Hl es (le_n _)) F) as (handled & rest & rs & bs & p' & tail & ans & A).
    cbn zeta in A. destruct A as (A1 & A2 & A3 & A4 & A5 & A6 & A7 & A8 & A9 & A10 & A11).
    exists handled, rest, rs, bs, p', tail, ans, []. rewrite app_nil_r.
    repeat match goal with |- _ /\ _ => split end; try assumption; [cbn; lia|reflexivity|].
    intros Al Rn. destruct (split_is_task p sh recs k (map fst es) C (Hl es (le_n _)) F Al) as (Ru & _). congruence.
  - cbn zeta in I. destruct I as (I1 & I2 & I3 & I4 & I5 & I6 & I7 & I8 & I9). rewrite I4, I5, I6, I7, I8. clear I1.
    set (s' := split_run_at (split_new p sh recs) es) in *. clearbody s'.
    assert (Eq : events_of (map fst es) = events_of (map fst pre) ++ events_of (Ev (Poll tf el) :: map fst post)).
    { rewrite Q, map_app. cbn [map fst]. unfold events_of. now rewrite flat_map_app. }
    assert (L : (length pre <= length es)%nat) by (rewrite Q, app_length; lia).
    rewrite Eq in F. apply Forall_app in F. destruct F as [F _].
    destruct (accepted_prefix (events_of (map fst pre)) (events_of (Ev (Poll tf el) :: map fst post))) as (x & Ax).
    destruct (split_serves p sh recs k (map fst pre) C (Hl pre L) F) as (handled & rest & rs & bs & p' & tail & ans & A).
    cbn zeta in A. destruct A as (A1 & A2 & A3 & A4 & A5 & A6 & A7 & A8 & A9 & A10 & A11).
    exists handled, (rest ++ x), rs, bs, p', tail, ans, un. rewrite Eq, Ax, A1, A6.
    rewrite I3 in A10. cbn [waiting] in *. destruct ans; [|discriminate].
    repeat match goal with |- _ /\ _ => split end; try assumption; try reflexivity.
    + now rewrite app_assoc.
    + now rewrite app_assoc.
    + lia.
    + discriminate.
    + intros _. now apply A11.
    + intros _ _. split; [reflexivity|]. intros id Ni. unfold answer_to. rewrite I4, I7. rewrite app_nil_r in A9. rewrite <- A9.
      replace (find (fun a => fst a =? id) (combine (map cmd_id handled) (map snd rs))) with (@None (N * result perror unit)); [reflexivity|].
      clear -Ni. symmetry. generalize (map snd rs) as l. revert Ni. generalize (map cmd_id handled) as h.
      induction h as [|i h IH]; intros Ni l; [reflexivity|]. destruct l as [|y l]; [reflexivity|]. cbn [combine find fst].
      destruct (N.eqb_spec i id) as [->|_]; [exfalso; apply Ni; now left|]. apply IH. intros X. apply Ni. now right.
Qed.
Print Assumptions C115_wire.

(** With the clock before 1970 at every reading but those of the first command: its padding is held up in the middle of the packet while
    the clock goes back, and is still completed, the payload after it; the caller of the second command gets [UnexpectedEof] and
    nothing of it is on the wire, though its size has been recorded. *)
Example C115_example :
  let fine := (AtMillis 5, AtMillis 6) in
  let early := (BeforeEpoch, BeforeEpoch) in
  let s := @split_run_at (toy true) _ draws
    (split_new (PWriter toy_in (Writer [Accept 5; WPending; Accept 9] [] [])) (Shaper (Config Random Disabled) [2; 1]) [])
    [(Ev (Send (Command 7 (genuine [x01]))), fine); (Ev (Poll false false), fine);
     (Ev (Send (Command 8 (genuine [x02; x02]))), early); (Ev (Poll true true), early)] in
  let s1 := @split_run_at (toy true) _ draws s [(Ev (Poll false false), early)] in
  running (sp_task s) = true /\ sp_place s = AtSelect /\ answers (sp_task s) = [(7, Ok tt)] /\
  len (written (pw_writer (tk_writer (sp_task s)))) = 44 /\
  running (sp_task s1) = false /\ tk_records (sp_task s1) = [1; 3; 2] /\
  answer_to (sp_task s1) 7 = Some (Ok tt) /\ answer_to (sp_task s1) 8 = Some (Err (Io UnexpectedEof Abort)) /\
  match @read_many (toy true) 3 (RTokio (TReader toy_in (TokioReader [] 0 [Chunk (written (pw_writer (tk_writer (sp_task s1))))])
          init_reading_length)) with
  | Ret (xs, _) => xs = map Ok [Decrypted (x80 :: zeros 3); Decrypted [x00; x01]] ++ [Err (from_io ConnectionAborted)]
  | _ => False
  end.
Proof. vm_compute. repeat split. Qed.
Print Assumptions C115_example.
