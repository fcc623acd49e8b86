(** * Property C105: how much padding hides, counted over the outcomes of the random draws *)
From Coq Require Import List NArith Bool Lia.
From Coq.Strings Require Import Byte.
From Verif Require Import Base BaseFacts Env Toy FsChacha Cipher CipherProofs Handshake Transport Io Futures Sessions SessionProofs
  Traffic TrafficIo TrafficFutures SpecTraffic TrafficProofs TrafficIoProofs TrafficFuturesProofs DuplexProofs
  PropsHandshake PropsTraffic PropsShape PropsVolume SpecObserver ObserverProofs.
Import ListNotations.
Local Open Scope N_scope.

(** ** What somebody sees who counts the bytes that each payload puts on the wire *)
Section Seen.
Context {E : Env}.

(** The blocking writer: each payload written by one call, the decoy thread idle. *)
Fixpoint counts (s : shared) (pls : list payload) : list N :=
  match pls with
  | [] => []
  | pl :: pls =>
    match @play E (list N) draws s [CallWrite pl; App; App; App; App] with
    | Some s' => (len (written (pw_writer (st_writer s'))) - len (written (pw_writer (st_writer s)))) :: counts s' pls
    | None => []
    end
  end.

(** The task: each payload sent to it and handled before the next. *)
Fixpoint task_counts (t : task) (pls : list payload) : list N :=
  match pls with
  | [] => []
  | pl :: pls =>
    let t' := @task_run E (list N) draws t [Send (Command 0 pl); Poll false false] in
    (len (written (pw_writer (tk_writer t'))) - len (written (pw_writer (tk_writer t)))) :: task_counts t' pls
  end.

(** Of an outcome of the draws. *)
Definition view (fl : flavor) (p : pwriter) (c : config) (pls : list payload) (o : list N) : list N :=
  match fl with
  | Sync => counts (shared_new p (Shaper c o) []) pls
  | Tokio => task_counts (task_new p (Shaper c o) []) pls
  end.

Context {EL : EnvLaws E}.

Lemma tokio_write_fine w pl k : healthy (pw_writer w) -> counted k (pw_cipher w) -> room k -> sound_payload pl ->
  exists w' out, tokio_write w pl = Ret (Ok tt, w') /\ counted (k + 1) (pw_cipher w') /\ healthy (pw_writer w') /\
    written (pw_writer w') = written (pw_writer w) ++ out /\ len out = size_of pl + 20.
Proof.
  intros Hh Hc Hr (v & V). destruct (write_any_total Tokio w pl k v Hc Hr V) as (x & w' & W & Hc').
  destruct (write_any_healthy_any Tokio w pl x w' Hh W) as (-> & Hh' & pkt & En & Wr).
  exists w', pkt. split; [exact W|]. split; [assumption|]. split; [assumption|]. split; [assumption|].
  apply encrypt_vec_len in En. exact En.
Qed.

Lemma draw_is' x o : x < 1024 -> draw 1 1024 (x :: o) = (1 + x, o).
Proof. intros H. cbn [draw]. rewrite N.mod_small by lia. reflexivity. Qed.

Lemma counts_are c : forall pls o w n rc rt th,
  length o = length pls -> Forall (fun x => x < 1024) o -> padding_strategy c = Random -> Forall sound_payload pls ->
  healthy (pw_writer w) -> counted n (pw_cipher w) -> (overflow_checks = true -> n + 2 * len pls < 2 ^ 32) ->
  counts (Shared w (Shaper c o) Free false false AppOut th rc rt) pls = masked 41 (map size_of pls) o.
Proof.
  induction pls as [|pl pls IH]; intros [|x o] w n rc rt th L F Pd So Hh Hc Hr; try discriminate; [reflexivity|].
  injection L as L. apply Forall_cons_iff in F. destruct F as [Fx F]. apply Forall_cons_iff in So. destruct So as [Sp So].
  rewrite len_cons in Hr.
  destruct (pads_one (G := list N) (R := draws) (RL := draws_laws) c (x :: o) o (1 + x) pl w n rc rt th
    (draw_is' x o Fx) Pd Sp Hh Hc ltac:(intros Ho; specialize (Hr Ho); lia)) as (w' & P & H' & C' & o1 & O1 & L1).
  cbn [counts map masked]. rewrite P. cbn [st_writer]. f_equal.
  - rewrite O1, len_app, L1. lia.
  - apply (IH o w' (n + 2)); try assumption. intros Ho. specialize (Hr Ho). lia.
Qed.

Lemma task_counts_are c : forall pls o w n rc an,
  length o = length pls -> Forall (fun x => x < 1024) o -> padding_strategy c = Random -> Forall sound_payload pls ->
  healthy (pw_writer w) -> counted n (pw_cipher w) -> (overflow_checks = true -> n + 2 * len pls < 2 ^ 32) ->
  task_counts (Task w (Shaper c o) [] true no_branch_disabled true rc an) pls = masked 41 (map size_of pls) o.
Proof.
  induction pls as [|pl pls IH]; intros [|x o] w n rc an L F Pd So Hh Hc Hr; try discriminate; [reflexivity|].
  injection L as L. apply Forall_cons_iff in F. destruct F as [Fx F]. apply Forall_cons_iff in So. destruct So as [Sp So].
  rewrite len_cons in Hr.
  destruct (tokio_write_fine w (decoy (zeros (1 + x))) n Hh Hc) as (w1 & o1 & W1 & C1 & H1 & O1 & L1).
  { intros Ho. specialize (Hr Ho). lia. }
  { eexists. reflexivity. }
  destruct (tokio_write_fine w1 pl (n + 1) H1 C1) as (w2 & o2 & W2 & C2 & H2 & O2 & L2).
  { intros Ho. specialize (Hr Ho). lia. }
  { exact Sp. }
  pose proof (C64_pad E (list N) draws draws_laws (Shaper c (x :: o)) pl) as Q. cbn [sh_rng sh_config] in Q.
  change (gen_range 1 1024 (x :: o)) with (draw 1 1024 (x :: o)) in Q. rewrite (draw_is' x o Fx) in Q.
  destruct Q as [Q _]. specialize (Q Sp). rewrite Pd in Q.
  cbn [task_counts map masked].
  set (t1 := task_run (Task w (Shaper c (x :: o)) [] true no_branch_disabled true rc an) [Send (Command 0 pl); Poll false false]).
  assert (exists rc' an', t1 = Task w2 (Shaper c o) [] true no_branch_disabled true rc' an') as (rc' & an' & ->).
  { eexists. eexists. subst t1. unfold task_run. cbn [fold_left task_step senders running andb tk_writer tk_shaper queue sel tk_records answers app].
    rewrite poll_task_eq; [|reflexivity|left; reflexivity]. cbn [andb queue]. unfold handle. cbn [tk_shaper cmd_payload tk_writer].
    rewrite Q, W1, W2. reflexivity. }
  cbn [tk_writer]. f_equal.
  - rewrite O2, O1, !len_app, L1, L2, size_of_decoy, len_zeros. lia.
  - apply (IH o w2 (n + 1 + 1)); try assumption. intros Ho. specialize (Hr Ho). lia.
Qed.

Lemma view_is fl p c n pls o :
  In o (outcomes 1024 (length pls)) -> padding_strategy c = Random -> Forall sound_payload pls ->
  healthy (pw_writer p) -> counted n (pw_cipher p) -> (overflow_checks = true -> n + 2 * len pls < 2 ^ 32) ->
  view fl p c pls o = masked 41 (map size_of pls) o.
Proof.
  intros I Pd So Hh Hc Hr. apply in_outcomes in I. destruct I as [L F]. change (N.of_nat 1024) with 1024 in F.
  destruct fl; [eapply counts_are|eapply task_counts_are]; eassumption.
Qed.

Lemma yes_ext test test' v v' os : (forall o, In o os -> test (v o) = test' (v' o)) -> yes test v os = yes test' v' os.
Proof. intros H. unfold yes. f_equal. apply filter_ext_in. exact H. Qed.

End Seen.

(** ** C105 *)
(** The outcomes are the lists of draws, each once. *)
Theorem C105_outcomes : forall k,
  len (outcomes 1024 k) = 1024 ^ N.of_nat k /\ forall o, In o (outcomes 1024 k) <-> length o = k /\ Forall (fun x => x < 1024) o.
Proof. intros k. split; [apply (len_outcomes 1024)|apply (in_outcomes 1024)]. Qed.
Print Assumptions C105_outcomes.

(** Whatever test is made of the counts: for two lists of payloads it says yes for about as many outcomes; the share
    of the outcomes differs by at most the distance of the sizes, in 1024ths. *)
Theorem C105_advantage : forall (E : Env) (EL : EnvLaws E) fl p c n pls pls' test,
  padding_strategy c = Random -> healthy (pw_writer p) -> counted n (pw_cipher p) ->
  (overflow_checks = true -> n + 2 * len pls < 2 ^ 32) ->
  Forall sound_payload pls -> Forall sound_payload pls' -> length pls = length pls' ->
  let os := outcomes 1024 (length pls) in
  1024 * yes test (view fl p c pls) os <=
  1024 * yes test (view fl p c pls') os + 1024 ^ len pls * apart (map size_of pls) (map size_of pls').
Proof.
  intros E EL fl p c n pls pls' test Pd Hh Hc Hr So So' L os.
  rewrite (yes_ext test test (view fl p c pls) (masked 41 (map size_of pls)) os).
  2:{ intros o I. f_equal. now apply (view_is fl p c n). }
  rewrite (yes_ext test test (view fl p c pls') (masked 41 (map size_of pls')) os).
  2:{ intros o I. f_equal. apply (view_is fl p c n); try assumption; [now rewrite <- L|]. unfold len in *. now rewrite <- L. }
  pose proof (advantage 41 1024 (map size_of pls) (map size_of pls') test) as A. rewrite !map_length in A.
  unfold len in *. rewrite !map_length in A. apply A; [assumption|discriminate].
Qed.
Print Assumptions C105_advantage.

(** The same payload [k] times, against one that is larger by [d]: the test "some count is too small for the larger one"
    never errs for the larger, and says yes for all but [(1024 - d)^k] of the [1024^k] outcomes for the smaller.
    For [k = 1] this is the most that [C105_advantage] leaves. *)
Theorem C105_repeats : forall (E : Env) (EL : EnvLaws E) fl p c n pl pl' k,
  padding_strategy c = Random -> healthy (pw_writer p) -> counted n (pw_cipher p) ->
  (overflow_checks = true -> n + 2 * N.of_nat k < 2 ^ 32) -> sound_payload pl -> sound_payload pl' ->
  size_of pl <= size_of pl' <= size_of pl + 1024 ->
  let d := size_of pl' - size_of pl in
  let test := existsb (fun count => count <? size_of pl' + 41) in
  yes test (view fl p c (repeat pl k)) (outcomes 1024 k) = 1024 ^ N.of_nat k - (1024 - d) ^ N.of_nat k /\
  yes test (view fl p c (repeat pl' k)) (outcomes 1024 k) = 0.
Proof.
  intros E EL fl p c n pl pl' k Pd Hh Hc Hr Sp Sp' Q d test.
  assert (forall q, sound_payload q -> size_of q <= size_of pl' <= size_of q + 1024 ->
    yes test (view fl p c (repeat q k)) (outcomes 1024 k) = 1024 ^ N.of_nat k - (1024 - (size_of pl' - size_of q)) ^ N.of_nat k) as U.
  { intros q Sq Lq.
    rewrite (yes_ext test (fun l => negb (forallb (fun x => size_of pl' + 41 <=? x) l)) _ (masked 41 (repeat (size_of q) k))).
    - rewrite yes_not, yes_all, len_outcomes. change (N.of_nat 1024) with 1024. f_equal. f_equal.
      rewrite (filter_ext _ (fun x => (size_of pl' - size_of q) <=? x)).
      + rewrite many_from; [reflexivity|lia|]. change (N.of_nat 1024) with 1024. lia.
      + intros x. destruct (_ <=? x) eqn:T; [apply N.leb_le in T; apply N.leb_le|apply N.leb_gt in T; apply N.leb_gt]; lia.
    - intros o I. rewrite (view_is fl p c n); try assumption.
      + assert (map size_of (repeat q k) = repeat (size_of q) k) as -> by (clear; induction k; cbn; congruence). subst test. cbn beta. induction (masked 41 (repeat (size_of q) k) o) as [|y l IH]; [reflexivity|].
        cbn [existsb forallb]. rewrite IH, negb_andb. f_equal. rewrite N.ltb_antisym. reflexivity.
      + rewrite repeat_length. exact I.
      + clear -Sq. induction k; constructor; assumption.
      + intros Ho. unfold len. rewrite repeat_length. now apply Hr. }
  split.
  - now apply U.
  - rewrite U; [|assumption|lia]. rewrite N.sub_diag, N.sub_0_r. apply N.sub_diag.
Qed.
Print Assumptions C105_repeats.

(** "hiding the genuine packet size" (traffic/README.md:23) wears off: eight payloads of 100 bytes are told from eight empty
    ones more often than not. *)
Theorem C105_however_often_refuted :
  ~ forall (E : Env) (EL : EnvLaws E) fl p c n pl pl' k test,
      padding_strategy c = Random -> healthy (pw_writer p) -> counted n (pw_cipher p) ->
      (overflow_checks = true -> n + 2 * N.of_nat k < 2 ^ 32) -> sound_payload pl -> sound_payload pl' ->
      size_of pl <= size_of pl' <= size_of pl + 100 ->
      2 * yes test (view fl p c (repeat pl k)) (outcomes 1024 k) <=
      2 * yes test (view fl p c (repeat pl' k)) (outcomes 1024 k) + 1024 ^ N.of_nat k.
Proof.
  intros H. pose (pl := genuine []). pose (pl' := genuine (zeros 100)). pose (c := Config Random Disabled).
  assert (size_of pl' = 100) as Z by (vm_compute; reflexivity).
  assert (@counted (toy true) 0 (pw_cipher toy_writer)) as C by (intros _; vm_compute; repeat split; discriminate).
  assert (@overflow_checks (toy true) = true -> 0 + 2 * N.of_nat 8 < 2 ^ 32) as Ho by (intros _; reflexivity).
  assert (healthy (pw_writer toy_writer)) as Hh by (split; constructor).
  assert (sound_payload pl /\ sound_payload pl') as [Sp Sp'] by (split; eexists; reflexivity).
  destruct (C105_repeats (toy true) (toy_laws true) Sync toy_writer c 0 pl pl' 8 eq_refl Hh C Ho Sp Sp') as [Y Y'].
  { rewrite Z. change (size_of pl) with 0. lia. }
  specialize (H (toy true) (toy_laws true) Sync toy_writer c 0 pl pl' 8%nat (existsb (fun count => count <? size_of pl' + 41))
    eq_refl Hh C Ho Sp Sp').
  rewrite Y, Y', Z in H. change (size_of pl) with 0 in H.
  assert (0 <= 100 <= 0 + 100) as I by lia. specialize (H I). vm_compute in H. now apply H.
Qed.
Print Assumptions C105_however_often_refuted.

(** Two payloads with two draws; an empty payload with draws next to the boundary: a count below 141 gives it away against one
    of 100 bytes.  And in thousandths how many outcomes hide eight, twenty and seventy payloads from the test. *)
Example C105_example :
  let c := Config Random Disabled in
  let small := existsb (fun count => count <? 141) in
  let shows fl q := yes small (@view (toy true) fl toy_writer c [genuine (zeros q)]) [[0]; [99]; [100]; [1023]] in
  shows Sync 0 = 2 /\ shows Tokio 0 = 2 /\ shows Sync 100 = 0 /\ shows Tokio 100 = 0 /\
  @view (toy true) Sync toy_writer c [genuine (zeros 5); genuine (zeros 9)] [3; 1023] = [49; 1073] /\
  @view (toy true) Tokio toy_writer c [genuine (zeros 5); genuine (zeros 9)] [3; 1023] = [49; 1073] /\
  let hidden k := 1000 * (1024 - 100) ^ k / 1024 ^ k in
  hidden 8 = 439 /\ hidden 20 = 128 /\ hidden 70 = 0.
Proof. vm_compute. repeat split. Qed.
