(** * TrafficFailProofs: write errors of cover traffic *)
From Coq Require Import List NArith Bool Lia ZifyBool ZifyN.
From Coq.Strings Require Import Byte.
From Verif Require Import Base BaseFacts Env FsChacha Cipher CipherFacts Histories CipherProofs Handshake
  Transport Io Futures SpecIo Sessions TransportProofs SessionProofs EndpointProofs
  Traffic TrafficIo TrafficFutures SpecTraffic TrafficProofs TrafficIoProofs TrafficFuturesProofs.
Import ListNotations.
Local Open Scope N_scope.

Lemma broken_flush fl n k w more bs :
  w_script w = fail_after n k more -> n < len bs -> k <> Interrupted ->
  write_flush fl w bs = (Err k, Writer more (flushes w) (written w ++ take n bs)).
Proof.
  intros S L K. unfold write_flush, write_all. rewrite S. unfold fail_after.
  assert (F : forall l, l <> [] -> write_script fl (WFail k :: more) l = (Err k, more, [])).
  { intros [|b l] H; [easy|]. cbn [write_script]. destruct fl, k; try reflexivity; congruence. }
  revert F. generalize (WFail k :: more) as tl. intros tl F.
  assert (bs <> []) as Ne by (intros ->; cbn in L; lia).
  destruct (N.eqb_spec n 0) as [->|Nz].
  - cbn [app]. rewrite F by assumption. now rewrite take_0.
  - cbn [app]. destruct bs as [|b bs]; [easy|]. cbn [write_script].
    rewrite (proj2 (N.eqb_neq _ _) Nz), (proj2 (N.leb_gt _ _) L). rewrite F; [now rewrite app_nil_r|].
    intros Q. apply (f_equal (@len _)) in Q. rewrite len_drop in Q. change (len []) with 0 in Q. lia.
Qed.

Section Fail.
Context {E : Env} {EL : EnvLaws E}.

(** A write cut after [n] bytes of its packet. *)
Lemma broken_write fl p pl n k more pkt c' :
  encrypt_to_vec (pw_cipher p) (snd (seen pl)) (fst (seen pl)) None = Ret (pkt, c') ->
  sound_payload pl -> w_script (pw_writer p) = fail_after n k more -> n < len pkt -> k <> Interrupted ->
  write_any fl p pl = Ret (Err (from_io k), PWriter c' (Writer more (flushes (pw_writer p)) (written (pw_writer p) ++ take n pkt))).
Proof.
  intros En [v V] S L K.
  assert (payload_contents pl = Ret (snd (seen pl)) /\ payload_type pl = Ret (fst (seen pl))) as [C T].
  { destruct v as [t ct]. pose proof (view_seen _ _ V) as Q. rewrite Q. unfold payload_view in V.
    apply bind_ret_inv in V. destruct V as (t' & T & V). apply bind_ret_inv in V. destruct V as (ct' & C & V).
    injection V as -> ->. auto. }
  destruct fl; cbn [write_any].
  - unfold sync_write. rewrite C, T. cbn [bind]. rewrite En. cbn [bind].
    rewrite (broken_flush Sync n k _ more) by assumption. reflexivity.
  - unfold tokio_write. rewrite C, T. cbn [bind].
    change (encryption_buffer_len (len (snd (seen pl)))) with (len (snd (seen pl)) + 20).
    rewrite encrypt_exact, En. cbn [bind].
    rewrite (broken_flush Tokio n k _ more) by assumption. reflexivity.
Qed.

Context {G : Type} {R : Rng G} {RL : RngLaws G R}.

(** The decoy thread goes on as if nothing had happened, and so does the application. *)
Theorem thread_swallows (s : @shared G) d pl n k more pk1 c1 pk2 c2 :
  thread_at s = ThWrite d -> app_at s = AppOut -> poisoned s = false ->
  padding_strategy (sh_config (st_shaper s)) = Disabled ->
  sound_payload d -> sound_payload pl ->
  encrypt_to_vec (pw_cipher (st_writer s)) (snd (seen d)) (fst (seen d)) None = Ret (pk1, c1) ->
  encrypt_to_vec c1 (snd (seen pl)) (fst (seen pl)) None = Ret (pk2, c2) ->
  w_script (pw_writer (st_writer s)) = fail_after n k more -> n < len pk1 -> k <> Interrupted ->
  healthy (Writer more (flushes (pw_writer (st_writer s))) []) ->
  exists s', play s [Thread; CallWrite pl; App; App; App] = Some s' /\
    returned s' = returned s ++ [(pl, Ok tt)] /\
    written (pw_writer (st_writer s')) = written (pw_writer (st_writer s)) ++ take n pk1 ++ pk2.
Proof.
  intros T A P Pd Sd Sp E1 E2 W L K Hh. cbn [play do_move].
  unfold thread_step at 1. rewrite T.
  pose proof (broken_write Sync (st_writer s) d n k more pk1 c1 E1 Sd W L K) as B. cbn [write_any] in B. rewrite B.
  destruct s as [w sh lk po sd a t rc rt]. cbn [app_at poisoned st_shaper st_writer thread_at returned] in *. subst.
  cbn [set_thread set_lock set_writer app_at set_app app_step lock poisoned st_writer st_shaper shutdown thread_at records returned].
  destruct (pad_total sh pl Sp) as (q & sh' & rec' & SP). rewrite SP.
  destruct (shaper_pad_spec _ _ _ _ _ SP) as [_ Q].
  destruct q as [q|]; [destruct Q; congruence|].
  cbn [set_shaper set_app app_step app_at st_writer st_shaper lock poisoned shutdown thread_at records returned].
  set (p1 := PWriter c1 (Writer more (flushes (pw_writer w)) (written (pw_writer w) ++ take n pk1))) in *.
  assert (exists x p2, write_any Sync p1 pl = Ret (x, p2)) as (x & p2 & W2).
  { destruct Sp as [[ty ct] V]. pose proof (view_seen _ _ V) as Vs. rewrite Vs in E2. cbn [fst snd] in E2.
    unfold payload_view in V. apply bind_ret_inv in V. destruct V as (t' & Ty & V).
    apply bind_ret_inv in V. destruct V as (ct' & Ct & V). injection V as -> ->.
    cbn [write_any]. unfold sync_write. rewrite Ct, Ty. cbn [bind]. cbn [p1 pw_cipher]. rewrite E2. cbn [bind].
    destruct (write_flush Sync _ pk2) as [x w2]. eauto. }
  assert (healthy (pw_writer p1)) as Hp by exact Hh.
  pose proof (write_any_healthy_any Sync p1 pl x p2 Hp W2) as (-> & _ & pkt & En & Wr).
  assert (pkt = pk2) as -> by (cbn [p1 pw_cipher] in En; congruence).
  cbn [write_any] in W2.
  match goal with |- context [sync_write ?a pl] => change a with p1 end. rewrite W2. eexists. split; [reflexivity|].
  cbn [app_return set_writer returned st_writer]. split; [reflexivity|]. rewrite Wr. cbn [p1 pw_writer written].
  now rewrite app_assoc.
Qed.

Theorem task_swallows (t : @task G) d sh' rec' c n k more pk1 c1 pk2 c2 :
  running t = true -> senders t = true -> queue t = [] -> sel t = [false; false] ->
  shaper_decoy (tk_shaper t) = (Some d, sh', rec') ->
  padding_strategy (sh_config (tk_shaper t)) = Disabled -> sound_payload (cmd_payload c) ->
  encrypt_to_vec (pw_cipher (tk_writer t)) (snd (seen d)) (fst (seen d)) None = Ret (pk1, c1) ->
  encrypt_to_vec c1 (snd (seen (cmd_payload c))) (fst (seen (cmd_payload c))) None = Ret (pk2, c2) ->
  w_script (pw_writer (tk_writer t)) = fail_after n k more -> n < len pk1 -> k <> Interrupted ->
  healthy (Writer more (flushes (pw_writer (tk_writer t))) []) ->
  let t' := task_run t [Poll false true; Send c; Poll false false] in
  running t' = true /\ answers t' = answers t ++ [(cmd_id c, Ok tt)] /\
  written (pw_writer (tk_writer t')) = written (pw_writer (tk_writer t)) ++ take n pk1 ++ pk2.
Proof.
  intros Ru Sn Qu Sl SD Pd Sp E1 E2 W L K Hh.
  destruct (shaper_decoy_spec _ _ _ _ SD) as (C' & (_ & Sd & _) & _). apply decoy_sound in Sd.
  pose proof (broken_write Tokio (tk_writer t) d n k more pk1 c1 E1 Sd W L K) as B. cbn [write_any] in B.
  set (p1 := PWriter c1 (Writer more (flushes (pw_writer (tk_writer t))) (written (pw_writer (tk_writer t)) ++ take n pk1))) in *.
  assert (task_step t (Poll false true) = turn t p1 sh' [] rec' []) as T1.
  { cbn [task_step]. rewrite poll_task_eq, Qu by (assumption || now left). cbn [andb]. unfold tick. rewrite SD, B, Qu. reflexivity. }
  cbn [task_run fold_left]. rewrite T1.
  assert (task_step (turn t p1 sh' [] rec' []) (Send c) = turn t p1 sh' [c] rec' []) as T2.
  { unfold task_step, turn. cbn. rewrite Sn. reflexivity. }
  rewrite T2. cbn [task_step]. rewrite poll_task_eq by (reflexivity || now left). cbn [andb turn queue]. unfold handle. cbn [turn tk_shaper tk_writer].
  destruct (pad_total sh' (cmd_payload c) Sp) as (q & sh2 & rec2 & SP). rewrite SP.
  destruct (shaper_pad_spec _ _ _ _ _ SP) as [_ Q].
  destruct q as [q|]; [destruct Q; congruence|].
  assert (exists x p2, write_any Tokio p1 (cmd_payload c) = Ret (x, p2)) as (x & p2 & W2).
  { destruct Sp as [[ty ct] V]. pose proof (view_seen _ _ V) as Vs. rewrite Vs in E2. cbn [fst snd] in E2.
    unfold payload_view in V. apply bind_ret_inv in V. destruct V as (t' & Ty & V).
    apply bind_ret_inv in V. destruct V as (ct' & Ct & V). injection V as -> ->.
    cbn [write_any]. unfold tokio_write. rewrite Ct, Ty. cbn [bind].
    change (encryption_buffer_len (len ct)) with (len ct + 20). cbn [p1 pw_cipher].
    rewrite encrypt_exact, E2. cbn [bind].
    destruct (write_flush Tokio _ pk2) as [x w2]. eauto. }
  assert (healthy (pw_writer p1)) as Hp by exact Hh.
  pose proof (write_any_healthy_any Tokio p1 (cmd_payload c) x p2 Hp W2) as (-> & _ & pkt & En & Wr).
  assert (pkt = pk2) as -> by (cbn [p1 pw_cipher] in En; congruence).
  cbn [write_any] in W2. rewrite W2. cbn [turn running answers tk_writer].
  split; [reflexivity|]. split; [now rewrite app_nil_r|]. rewrite Wr. cbn [p1 pw_writer written].
  now rewrite app_assoc.
Qed.

(** ** Readers that get nothing *)

Definition is_err {A B} (x : result A B) : Prop := match x with Err _ => True | Ok _ => False end.

Lemma dry_reader c : forall n xs r,
  read_many n (RSync (SyncReader c (ChainReader [] true []))) = Ret (xs, r) -> Forall is_err xs.
Proof.
  induction n as [|n IH]; intros xs r H; cbn [read_many] in H.
  - injection H as <- <-. constructor.
  - apply bind_ret_inv in H. destruct H as ([x r1] & Q & H). cbn in Q. injection Q as <- <-.
    apply bind_ret_inv in H. destruct H as ([ys r2] & Q & H). injection H as <- <-.
    constructor; [exact I|]. eapply IH; eassumption.
Qed.

Lemma never_reads c : forall m r ys,
  read_many m r = Ret (ys, RSync (SyncReader c (ChainReader [] true []))) -> Forall is_err ys ->
  forall n xs r', read_many n r = Ret (xs, r') -> Forall is_err xs.
Proof.
  induction m as [|m IH]; intros r ys H F n xs r' Hn; cbn [read_many] in H.
  - inversion H; subst. eapply dry_reader; eassumption.
  - destruct n as [|n]; cbn [read_many] in Hn; [injection Hn as <- <-; constructor|].
    apply bind_ret_inv in H. destruct H as ([x r1] & Q & H). rewrite Q in Hn. cbn [bind] in Hn.
    apply bind_ret_inv in H. destruct H as ([zs r2] & Q2 & H). injection H as <- ->. inversion F; subst.
    apply bind_ret_inv in Hn. destruct Hn as ([xs' r3] & Q3 & Hn). injection Hn as <- <-.
    constructor; [assumption|]. eapply IH; eassumption.
Qed.

End Fail.
