(** * AwaitProofs: asynchronous shaped endpoints over pipes of bounded capacity *)
From Coq Require Import List NArith Bool Lia Wf_nat PeanoNat ZifyBool ZifyN.
From Coq.Strings Require Import Byte.
From Verif Require Import Base BaseFacts Env FsChacha Cipher CipherFacts Histories CipherProofs Handshake
  Transport TransportProofs Io Futures SpecIo Sessions SessionProofs EndpointProofs HsSteps
  Traffic TrafficIo TrafficFutures SpecTraffic TrafficProofs TrafficIoProofs TrafficFuturesProofs TrafficTask SpecTask
  TrafficTaskProofs TrafficSessionProofs SpecDuplex DuplexProofs SpecAwait.
Import ListNotations.
Local Open Scope N_scope.

(** ** A transport with room *)

Definition sc (n : nat) : list wev := repeat (Accept 1) n ++ [WPending].

Lemma poll_room : forall n rest,
  poll_write_script (sc n) rest =
  if Nat.leb (length rest) n then (Ready (Ok tt), sc (n - length rest)%nat, rest, [])
  else (NotReady, [], firstn n rest, skipn n rest).
Proof.
  induction n as [|n IH]; intros [|b rest]; try reflexivity.
  change (sc (S n)) with (Accept 1 :: sc n). cbn [poll_write_script].
  change (1 =? 0) with false. cbv iota.
  destruct (len (b :: rest) <=? 1) eqn:L.
  - destruct rest as [|b' rest]; [|rewrite !len_cons in L; lia]. cbn. now rewrite Nat.sub_0_r.
  - change (drop 1 (b :: rest)) with rest. rewrite IH. change (take 1 (b :: rest)) with [b].
    change (Nat.leb (length (b :: rest)) (S n)) with (Nat.leb (length rest) n).
    destruct (Nat.leb (length rest) n); reflexivity.
Qed.

Section WithLaws.
Context {E : Env} {EL : EnvLaws E} {G : Type} {R : Rng G} {RL : RngLaws G R}.
Implicit Types (t : @task G) (s : @split_task G).

Lemma go_on_room c n wr rest :
  go_on (Writing rest) (PWriter c (Writer (sc n) [] wr)) =
  if Nat.leb (length rest) n then (Done (Ok tt), PWriter c (Writer (sc (n - length rest)%nat) [] (wr ++ rest)))
  else (Blocked (Writing (skipn n rest)), PWriter c (Writer [] [] (wr ++ firstn n rest))).
Proof.
  unfold go_on, poll_write. cbn [pw_writer pw_cipher w_script flushes written]. rewrite poll_room.
  destruct (Nat.leb (length rest) n); reflexivity.
Qed.

Lemma begin_any p pl r : begin_write p pl = Ret r ->
  exists pkt c', encrypt_to_vec (pw_cipher p) (snd (seen pl)) (fst (seen pl)) None = Ret (pkt, c') /\
    r = go_on (Writing pkt) (PWriter c' (pw_writer p)).
Proof.
  unfold begin_write, start_write. intros H.
  apply bind_ret_inv in H. destruct H as ([x p'] & H & Q).
  apply bind_ret_inv in H. destruct H as (ct & Hc & H).
  apply bind_ret_inv in H. destruct H as (ty & Ht & H). cbn zeta in H.
  apply bind_ret_inv in H. destruct H as ([[y c'] pkt] & He & H).
  assert (V : payload_view pl = Ret (ty, ct)) by (unfold payload_view; rewrite Ht; cbn [bind]; rewrite Hc; reflexivity).
  apply view_seen in V. rewrite V. cbn [fst snd].
  unfold encryption_buffer_len in He. change NUM_PACKET_OVERHEAD_BYTES with 20 in He. rewrite encrypt_exact in He.
  apply bind_ret_inv in He. destruct He as ([pkt' c1] & Hv & He). injection He as Q1 Q2 Q3; subst y c' pkt.
  injection H as <- <-. injection Q as <-. exists pkt', c1. split; [exact Hv|reflexivity].
Qed.

Lemma begin_fine p pl k : counted k (pw_cipher p) -> room k -> sound_payload pl ->
  exists pkt c', encrypt_to_vec (pw_cipher p) (snd (seen pl)) (fst (seen pl)) None = Ret (pkt, c') /\
    counted (k + 1) c' /\ len pkt = size_of pl + 20 /\
    begin_write p pl = Ret (go_on (Writing pkt) (PWriter c' (pw_writer p))).
Proof.
  intros Hc Hr (v & V). destruct v as [ty ct].
  destruct (encrypt_vec_ret k (pw_cipher p) ct ty None Hc Hr) as (pkt & c' & En & Hc').
  pose proof V as V'. apply view_seen in V'. unfold size_of. rewrite V'. cbn [fst snd].
  exists pkt, c'. split; [exact En|]. split; [exact Hc'|]. split; [exact (encrypt_vec_len _ _ _ _ _ _ En)|].
  unfold payload_view in V. apply bind_ret_inv in V. destruct V as (t' & T & V).
  apply bind_ret_inv in V. destruct V as (ct' & C & V). injection V as -> ->.
  unfold begin_write, start_write. rewrite T, C. cbn [bind]. cbn zeta.
  change (encryption_buffer_len (len ct)) with (len ct + 20). rewrite encrypt_exact, En. reflexivity.
Qed.

(** ** What is on its way *)

Definition left_over (pl : place) : bytes :=
  match pl with AtSelect => [] | InPad f _ | InPayload f _ | InDecoy f => match f with Writing rest => rest | Flushing => [] end end.

(** The command taken from the queue and not answered yet; the payload of it that is encrypted. *)
Definition at_hand (pl : place) : list command :=
  match pl with InPad _ c | InPayload _ c => [c] | AtSelect | InDecoy _ => [] end.
Definition encrypted (pl : place) : list command := match pl with InPayload _ c => [c] | _ => [] end.

Definition plain_place (pl : place) : Prop :=
  match pl with AtSelect => True | InPad f _ | InPayload f _ | InDecoy f => exists b rest, f = Writing (b :: rest) end.

Definition fine_payload (pl : payload) : Prop := sound_payload pl /\ size_of pl + 1 <= 4000014.

Definition told (c0 : cipher) (sent : list command) s : Prop :=
  let t := sp_task s in
  let pl := sp_place s in
  exists pls pkts handled,
    send_all c0 (wire_of pls) = Ret (pkts, pw_cipher (tk_writer t)) /\
    concat pkts = put_out s ++ left_over pl /\
    sent = handled ++ at_hand pl ++ queue t /\
    answers t = map (fun c => (cmd_id c, Ok tt)) handled /\
    genuine_only (map seen pls) = genuine_only (map seen (map cmd_payload (handled ++ encrypted pl))) /\
    Forall fine_payload pls /\ plain_place pl.

Definition steady (c0 : cipher) (sent : list command) s : Prop :=
  flushes (pw_writer (tk_writer (sp_task s))) = [] /\ Forall (fun c => fine_payload (cmd_payload c)) sent /\
  (running (sp_task s) = true -> sel_ok (sp_task s) /\ told c0 sent s).

Lemma genuine_app a b : genuine_only (a ++ b) = genuine_only a ++ genuine_only b.
Proof. apply filter_app. Qed.

Lemma decoy_fine d : shaper_decoy_payload d -> fine_payload d /\ genuine_only [seen d] = [].
Proof.
  intros (n & L & ->). split; [|reflexivity]. split; [eexists; reflexivity|].
  unfold size_of. cbn [seen decoy snd]. rewrite len_zeros. lia.
Qed.

Lemma skipn_more {A} n (l : list A) : Nat.leb (length l) n = false -> exists x l', skipn n l = x :: l'.
Proof.
  intros H. apply Nat.leb_gt in H. destruct (skipn n l) as [|x l'] eqn:Q; [|eauto].
  apply (f_equal (@length _)) in Q. rewrite skipn_length in Q. cbn in Q. lia.
Qed.

Lemma send_more c0 pls pkts c pl pkt c' : send_all c0 (wire_of pls) = Ret (pkts, c) ->
  encrypt_to_vec c (snd (seen pl)) (fst (seen pl)) None = Ret (pkt, c') ->
  send_all c0 (wire_of (pls ++ [pl])) = Ret (pkts ++ [pkt], c').
Proof.
  intros H Q. rewrite wire_of_app. cbn [wire_of map]. eapply send_all_snoc; [exact H|exact Q].
Qed.

(** A write goes on: the decoy. *)
Lemma decoy_steady c0 sent t n c wr rest pls pkts handled :
  running t = true -> sel_ok t -> Forall (fun c => fine_payload (cmd_payload c)) sent ->
  send_all c0 (wire_of pls) = Ret (pkts, c) -> concat pkts = wr ++ rest ->
  sent = handled ++ queue t -> answers t = map (fun c => (cmd_id c, Ok tt)) handled ->
  genuine_only (map seen pls) = genuine_only (map seen (map cmd_payload handled)) -> Forall fine_payload pls ->
  steady c0 sent (decoy_wrote t (go_on (Writing rest) (PWriter c (Writer (sc n) [] wr)))).
Proof.
  intros Ru So Fs Sa Co Sn An Ge Fp. rewrite go_on_room. destruct (Nat.leb (length rest) n) eqn:L; cbn [decoy_wrote].
  - split; [reflexivity|]. split; [exact Fs|]. intros _. split; [left; reflexivity|].
    exists pls, pkts, handled. unfold put_out.
    cbn [branch_end sp_task sp_place turn tk_writer pw_cipher pw_writer written left_over at_hand encrypted queue answers].
    rewrite !app_nil_r. cbn [app plain_place]. auto 10.
  - destruct (skipn_more _ _ L) as (b & l & Q).
    split; [reflexivity|]. split; [exact Fs|]. intros _. split; [exact So|].
    exists pls, pkts, handled. unfold put_out.
    cbn [sp_task sp_place with_writer tk_writer pw_cipher pw_writer written left_over at_hand encrypted queue answers app plain_place].
    rewrite !app_nil_r, <- app_assoc, firstn_skipn, Q. split; [exact Sa|]. split; [exact Co|]. eauto 10.
Qed.

Lemma payload_steady c0 sent t cmd n c wr rest pls pkts handled :
  running t = true -> sel_ok t -> Forall (fun c => fine_payload (cmd_payload c)) sent ->
  send_all c0 (wire_of pls) = Ret (pkts, c) -> concat pkts = wr ++ rest ->
  sent = handled ++ cmd :: queue t -> answers t = map (fun c => (cmd_id c, Ok tt)) handled ->
  genuine_only (map seen pls) = genuine_only (map seen (map cmd_payload (handled ++ [cmd]))) -> Forall fine_payload pls ->
  steady c0 sent (payload_wrote t cmd (go_on (Writing rest) (PWriter c (Writer (sc n) [] wr)))).
Proof.
  intros Ru So Fs Sa Co Sn An Ge Fp. rewrite go_on_room. destruct (Nat.leb (length rest) n) eqn:L; cbn [payload_wrote].
  - split; [reflexivity|]. split; [exact Fs|]. intros _. split; [left; reflexivity|].
    exists pls, pkts, (handled ++ [cmd]). unfold put_out.
    cbn [branch_end sp_task sp_place turn tk_writer pw_cipher pw_writer written left_over at_hand encrypted queue answers].
    rewrite map_app, !app_nil_r, <- app_assoc, An. cbn [app plain_place map]. auto 10.
  - destruct (skipn_more _ _ L) as (b & l & Q).
    split; [reflexivity|]. split; [exact Fs|]. intros _. split; [exact So|].
    exists pls, pkts, handled. unfold put_out.
    cbn [sp_task sp_place with_writer tk_writer pw_cipher pw_writer written left_over at_hand encrypted queue answers app plain_place].
    rewrite <- app_assoc, firstn_skipn, Q. split; [exact Sa|]. split; [exact Co|]. eauto 10.
Qed.

Lemma panic_steady c0 sent t : flushes (pw_writer (tk_writer t)) = [] -> Forall (fun c => fine_payload (cmd_payload c)) sent ->
  steady c0 sent (branch_panic t).
Proof. intros H F. split; [exact H|]. split; [exact F|]. discriminate. Qed.

Lemma write_steady c0 sent t cmd n c wr pls pkts handled :
  running t = true -> sel_ok t -> Forall (fun c => fine_payload (cmd_payload c)) sent ->
  tk_writer t = PWriter c (Writer (sc n) [] wr) ->
  send_all c0 (wire_of pls) = Ret (pkts, c) -> concat pkts = wr ->
  sent = handled ++ cmd :: queue t -> answers t = map (fun c => (cmd_id c, Ok tt)) handled ->
  genuine_only (map seen pls) = genuine_only (map seen (map cmd_payload handled)) -> Forall fine_payload pls ->
  steady c0 sent (write_payload t cmd).
Proof.
  intros Ru So Fs W Sa Co Sn An Ge Fp. unfold write_payload.
  destruct (begin_write _ _) as [r| |] eqn:B; [|apply panic_steady; [rewrite W; reflexivity|exact Fs]..].
  apply begin_any in B. destruct B as (pkt & c' & En & ->). rewrite W in En |- *. cbn [pw_cipher pw_writer] in *.
  eapply payload_steady with (pls := pls ++ [cmd_payload cmd]) (pkts := pkts ++ [pkt]) (handled := handled); try eassumption.
  - eapply send_more; eassumption.
  - rewrite concat_app, Co. cbn [concat]. now rewrite app_nil_r.
  - rewrite !map_app, !genuine_app, Ge. reflexivity.
  - apply Forall_app. split; [exact Fp|]. constructor; [|constructor].
    rewrite Sn in Fs. apply Forall_app in Fs. exact (Forall_inv (proj2 Fs)).
Qed.

Lemma pad_steady c0 sent t cmd n c wr rest pls pkts handled :
  running t = true -> sel_ok t -> Forall (fun c => fine_payload (cmd_payload c)) sent ->
  send_all c0 (wire_of pls) = Ret (pkts, c) -> concat pkts = wr ++ rest ->
  sent = handled ++ cmd :: queue t -> answers t = map (fun c => (cmd_id c, Ok tt)) handled ->
  genuine_only (map seen pls) = genuine_only (map seen (map cmd_payload handled)) -> Forall fine_payload pls ->
  steady c0 sent (pad_wrote t cmd (go_on (Writing rest) (PWriter c (Writer (sc n) [] wr)))).
Proof.
  intros Ru So Fs Sa Co Sn An Ge Fp. rewrite go_on_room. destruct (Nat.leb (length rest) n) eqn:L; cbn [pad_wrote].
  - eapply write_steady; try eassumption; reflexivity.
  - destruct (skipn_more _ _ L) as (b & l & Q).
    split; [reflexivity|]. split; [exact Fs|]. intros _. split; [exact So|].
    exists pls, pkts, handled. unfold put_out.
    cbn [sp_task sp_place with_writer tk_writer pw_cipher pw_writer written left_over at_hand encrypted queue answers app plain_place].
    rewrite app_nil_r, <- app_assoc, firstn_skipn, Q. split; [exact Sa|]. split; [exact Co|]. eauto 10.
Qed.

(** One poll. *)
Lemma poll_steady c0 sent s n tf el : steady c0 sent s -> w_script (pw_writer (tk_writer (sp_task s))) = sc n ->
  steady c0 sent (split_poll (order_of tf) el s).
Proof.
  intros (F & Fs & H) Sc. destruct s as [t pl]. cbn [sp_task sp_place] in *. unfold split_poll. cbn [sp_task sp_place].
  destruct (running t) eqn:Ru; [|split; [exact F|]; split; [exact Fs|]; cbn [sp_task]; rewrite Ru; discriminate].
  destruct (H eq_refl) as (So & pls & pkts & handled & Sa & Co & Sn & An & Ge & Fp & Pp). clear H.
  unfold put_out in Co. cbn [sp_task sp_place] in *.
  destruct (tk_writer t) as [c [ws fs wr]] eqn:W. cbn [pw_writer pw_cipher w_script flushes written] in *. subst ws fs.
  destruct pl as [|f cmd|f cmd|f]; cbn [left_over at_hand encrypted plain_place app] in *.
  - rewrite !app_nil_r in *. destruct (select _ _ _) as [[|i]| |d] eqn:Se.
    + destruct (queue t) as [|cmd q] eqn:Qu.
      { split; [cbn; rewrite ?W; reflexivity|]. split; [exact Fs|]. intros _. split; [exact So|].
        exists pls, pkts, handled. unfold put_out. cbn [sp_task sp_place left_over at_hand encrypted plain_place app].
        rewrite ?W, Qu. rewrite !app_nil_r in *. auto 10. }
      assert (So' : sel t = [false; false]) by (destruct So as [So|(_ & _ & So)]; [exact So|congruence]).
      unfold split_handle. destruct (shaper_pad _ _) as [[[d sh] recs]| |] eqn:Sp;
        [|apply panic_steady; [cbn; rewrite ?W; reflexivity|exact Fs]..].
      destruct (shaper_pad_spec _ _ _ _ _ Sp) as [_ Z].
      set (t' := Task (tk_writer t) sh q (senders t) (sel t) true (tk_records t ++ recs) (answers t)).
      destruct d as [d|].
      * destruct Z as (_ & Z & _). destruct (decoy_fine d Z) as [Z1 Z2].
        destruct (begin_write _ _) as [r| |] eqn:B; [|apply panic_steady; [unfold t'; cbn [tk_writer]; cbn; rewrite ?W; reflexivity|exact Fs]..].
        apply begin_any in B. destruct B as (pkt & c' & En & ->). rewrite W in En |- *. cbn [pw_cipher pw_writer] in *.
        eapply pad_steady with (pls := pls ++ [d]) (pkts := pkts ++ [pkt]) (handled := handled); try eassumption;
          first [reflexivity|left; exact So'|eapply send_more; eassumption|rewrite concat_app, Co; cbn [concat]; now rewrite app_nil_r
            |rewrite map_app, genuine_app, Ge; change (map seen [d]) with [seen d]; rewrite Z2; now rewrite app_nil_r|apply Forall_app; split; [exact Fp|]; constructor; [exact Z1|constructor]].
      * eapply write_steady with (pls := pls) (pkts := pkts) (handled := handled); try eassumption;
          first [reflexivity|left; exact So'|exact W].
    + unfold split_tick. destruct (shaper_decoy _) as [[d sh] recs] eqn:Sp.
      destruct (shaper_decoy_spec _ _ _ _ Sp) as (_ & Z & _).
      set (t' := Task (tk_writer t) sh (queue t) (senders t) (sel t) true (tk_records t ++ recs) (answers t)).
      destruct d as [d|].
      * destruct Z as (_ & Z & _). destruct (decoy_fine d Z) as [Z1 Z2].
        destruct (begin_write _ _) as [r| |] eqn:B; [|apply panic_steady; [unfold t'; cbn [tk_writer]; cbn; rewrite ?W; reflexivity|exact Fs]..].
        apply begin_any in B. destruct B as (pkt & c' & En & ->). rewrite W in En |- *. cbn [pw_cipher pw_writer] in *.
        eapply decoy_steady with (pls := pls ++ [d]) (pkts := pkts ++ [pkt]) (handled := handled); try eassumption;
          first [reflexivity|exact So|eapply send_more; eassumption|rewrite concat_app, Co; cbn [concat]; now rewrite app_nil_r
            |rewrite map_app, genuine_app, Ge; change (map seen [d]) with [seen d]; rewrite Z2; now rewrite app_nil_r|apply Forall_app; split; [exact Fp|]; constructor; [exact Z1|constructor]].
      * split; [cbn; rewrite ?W; reflexivity|]. split; [exact Fs|]. intros _. split; [left; reflexivity|].
        exists pls, pkts, handled. unfold put_out, t'.
        cbn [branch_end sp_task sp_place turn tk_writer left_over at_hand encrypted queue answers app plain_place].
        rewrite ?W. rewrite !app_nil_r. auto 10.
    + split; [cbn; rewrite ?W; reflexivity|]. split; [exact Fs|]. discriminate.
    + split; [cbn; rewrite ?W; reflexivity|]. split; [exact Fs|]. intros _.
      split.
      { unfold sel_ok in *. cbn [sp_task sel senders queue]. destruct t as [w sh q sn sl ru rc an]. cbn in *.
        destruct So as [->|(-> & -> & ->)]; [destruct tf, el, q, sn|destruct tf, el]; cbn in Se; try discriminate; injection Se as <-; auto. }
      exists pls, pkts, handled. unfold put_out.
      cbn [sp_task sp_place tk_writer left_over at_hand encrypted queue answers app plain_place].
      rewrite ?W. rewrite !app_nil_r. auto 10.
  - destruct Pp as (b & l & ->). rewrite app_nil_r in Ge. eapply pad_steady; eassumption.
  - destruct Pp as (b & l & ->). eapply payload_steady; eassumption.
  - destruct Pp as (b & l & ->). rewrite app_nil_r in Ge. eapply decoy_steady; eassumption.
Qed.

Lemma script_steady c0 sent s l : steady c0 sent s -> steady c0 sent (with_script s l).
Proof.
  destruct s as [[[c [ws fs wr]] sh q sn sl ru rc an] pl]. exact (fun H => H).
Qed.

Lemma polled_steady c0 sent s room tf el : steady c0 sent s -> steady c0 sent (polled room tf el s).
Proof.
  intros H. unfold polled. apply script_steady. cbn [split_step].
  eapply poll_steady with (n := N.to_nat room); [now apply script_steady|reflexivity].
Qed.

Lemma send_steady c0 sent s c : steady c0 sent s -> senders (sp_task s) = true -> fine_payload (cmd_payload c) ->
  steady c0 (sent ++ [c]) (split_step s (Ev (Send c))).
Proof.
  intros (F & Fs & H) Se Fc. destruct s as [t pl]. cbn [sp_task split_step sp_place task_step] in *. rewrite Se.
  assert (F2 : Forall (fun c => fine_payload (cmd_payload c)) (sent ++ [c])) by (apply Forall_app; auto).
  destruct (running t) eqn:Ru; cbn [andb].
  - split; [exact F|]. split; [exact F2|]. intros _. destruct (H eq_refl) as (So & pls & pkts & handled & Sa & Co & Sn & Z).
    split.
    + destruct So as [So|(_ & So & _)]; [left; exact So|congruence].
    + exists pls, pkts, handled. cbn [sp_task sp_place tk_writer queue answers] in *. split; [exact Sa|]. split; [exact Co|].
      split; [rewrite Sn, <- !app_assoc; reflexivity|exact Z].
  - split; [exact F|]. split; [exact F2|]. cbn [sp_task]. rewrite Ru. discriminate.
Qed.

Lemma close_steady c0 sent s : steady c0 sent s -> steady c0 sent (split_step s (Ev DropSenders)).
Proof.
  intros (F & Fs & H). destruct s as [t pl]. split; [exact F|]. split; [exact Fs|]. intros Ru.
  destruct (H Ru) as (So & T). split; [|exact T]. destruct So as [So|(So & _ & Q)]; [left; exact So|right].
  split; [exact So|]. split; [reflexivity|exact Q].
Qed.

(** The pipe holds the rest of what has been written. *)
Definition sound_current (c0 : cipher) (st : @current G) : Prop :=
  steady c0 (cu_sent st) (cu_task st) /\ cu_taken st ++ cu_pipe st = put_out (cu_task st).

Lemma goes_sound c0 cap st st' : current_goes cap st st' -> sound_current c0 st -> sound_current c0 st'.
Proof.
  intros H. destruct H as [tf el s s' sent p out taken P O|s sent b p taken]; intros (S & T);
    unfold sound_current in *; cbn [cu_task cu_sent cu_pipe cu_taken] in *.
  - split; [rewrite <- P; now apply polled_steady|]. now rewrite O, <- T, app_assoc.
  - split; [exact S|]. now rewrite <- T, <- app_assoc.
Qed.

Lemma step_sound c0 cap st st' : current_step cap st st' -> sound_current c0 st -> sound_current c0 st'.
Proof.
  intros H. destruct H as [st st' H|c s sent p taken Se Sp Sz|s sent p taken].
  - exact (goes_sound c0 cap st st' H).
  - intros (S & T). unfold sound_current in *. cbn [cu_task cu_sent cu_pipe cu_taken] in *. split.
    + apply send_steady; [exact S|exact Se|]. split; assumption.
    + rewrite T. destruct s as [t pl]. unfold put_out. cbn [split_step sp_task task_step]. now destruct (senders t && running t).
  - intros (S & T). unfold sound_current in *. cbn [cu_task cu_sent cu_pipe cu_taken] in *. split; [now apply close_steady|exact T].
Qed.

Lemma run_sound c0 cap st st' : current_run (current_step cap) st st' -> sound_current c0 st -> sound_current c0 st'.
Proof. intros H. induction H as [st|st st1 st2 H _ IH]; intros S; [exact S|]. apply IH. eapply step_sound; eassumption. Qed.

Lemma goes_run_sound c0 cap st st' : current_run (current_goes cap) st st' -> sound_current c0 st -> sound_current c0 st'.
Proof. intros H. induction H as [st|st st1 st2 H _ IH]; intros S; [exact S|]. apply IH. eapply goes_sound; eassumption. Qed.

Lemma new_sound out sh recs : sound_current out (current_new out sh recs).
Proof.
  split; [|reflexivity]. split; [reflexivity|]. split; [constructor|]. intros _. split; [left; reflexivity|].
  exists [], [], []. repeat split; constructor.
Qed.

(** ** The task gets on *)

Lemma current_trans cap x y z : current_run (current_goes (G := G) cap) x y -> current_run (current_goes cap) y z ->
  current_run (current_goes cap) x z.
Proof. intros H. induction H; intros; [assumption|]. eapply current_more; eauto. Qed.

Lemma takes_all cap s sent : forall p taken, current_run (current_goes cap) (Current s sent p taken) (Current s sent [] (taken ++ p)).
Proof.
  induction p as [|b p IH]; intros taken; [rewrite app_nil_r; constructor|].
  eapply current_more; [apply current_take|]. replace (taken ++ b :: p) with ((taken ++ [b]) ++ p) by (now rewrite <- app_assoc).
  apply IH.
Qed.

(** What a poll adds to the output. *)
Lemma split_poll_grows order el s : exists out, put_out (split_poll order el s) = put_out s ++ out.
Proof.
  assert (Go : forall f p r p', go_on f p = (r, p') -> exists out, written (pw_writer p') = written (pw_writer p) ++ out).
  { intros f p r p'. unfold go_on, poll_write. destruct f as [rest|].
    - destruct (poll_write_script _ _) as [[[x l] o] rest']. destruct x as [[u|e]|].
      + cbn [flushes]. destruct (flushes (pw_writer p)) as [|[|k|] fs]; unfold flush;
          cbn [flush_script flushes w_script written]; intros Q; injection Q as <- <-; cbn [pw_writer written]; eauto.
      + intros Q; injection Q as <- <-. cbn [pw_writer written]. eauto.
      + intros Q; injection Q as <- <-. cbn [pw_writer written]. eauto.
    - exists []. rewrite app_nil_r. revert H. destruct (flushes (pw_writer p)) as [|[|k|] fs] eqn:F; unfold flush;
        rewrite ?F; cbn [flush_script]; intros Q; injection Q as <- <-; reflexivity. }
  assert (Be : forall p pl r p', begin_write p pl = Ret (r, p') -> exists out, written (pw_writer p') = written (pw_writer p) ++ out).
  { intros p pl r p' B. apply begin_any in B. destruct B as (pkt & c' & _ & Q). symmetry in Q. apply Go in Q. exact Q. }
  assert (Nil : forall w : bytes, exists out, w = w ++ out) by (intros w; exists []; now rewrite app_nil_r).
  assert (Wp : forall t c, exists out, put_out (write_payload t c) = written (pw_writer (tk_writer t)) ++ out).
  { intros t c. unfold write_payload. destruct (begin_write _ _) as [[[f|x] p']| |] eqn:B; [apply Be in B; exact B..| |];
      apply Nil. }
  assert (Pa : forall t c f p r p', go_on f p = (r, p') ->
    exists out, put_out (pad_wrote t c (r, p')) = written (pw_writer p) ++ out).
  { intros t c f p r p' Q. apply Go in Q. destruct Q as [o1 Q]. destruct r as [f'|[u|e]]; cbn [pad_wrote].
    - exists o1. exact Q.
    - destruct (Wp (with_writer t p') c) as [o2 W]. rewrite W. cbn [with_writer tk_writer]. rewrite Q, <- app_assoc. eauto.
    - exists o1. exact Q. }
  destruct s as [t pl]. unfold split_poll. cbn [sp_task sp_place].
  destruct (running t); [|apply Nil].
  destruct pl as [|f c|f c|f].
  - destruct (select _ _ _) as [[|i]| |d]; [| |apply Nil..].
    + destruct (queue t) as [|c q]; [apply Nil|]. unfold split_handle.
      destruct (shaper_pad _ _) as [[[d sh] recs]| |]; [|apply Nil..].
      destruct d as [d|]; [|apply (Wp (Task (tk_writer t) sh q _ _ _ _ _))].
      destruct (begin_write _ _) as [r| |] eqn:B; [|apply Nil..].
      apply begin_any in B. destruct B as (pkt & c' & _ & ->). cbn [tk_writer].
      destruct (go_on _ _) as [r p'] eqn:Q. eapply Pa in Q. exact Q.
    + unfold split_tick. destruct (shaper_decoy _) as [[d sh] recs]. destruct d as [d|]; [|apply Nil].
      destruct (begin_write _ _) as [[[f|x] p']| |] eqn:B; [apply Be in B; exact B..| |]; apply Nil.
  - destruct (go_on _ _) as [r p'] eqn:Q. eapply Pa in Q. exact Q.
  - destruct (go_on _ _) as [[f'|x] p'] eqn:Q; apply Go in Q; exact Q.
  - destruct (go_on _ _) as [[f'|x] p'] eqn:Q; apply Go in Q; exact Q.
Qed.

Lemma put_out_script s l : put_out (with_script s l) = put_out s.
Proof. reflexivity. Qed.

Lemma polled_grows room tf el s : exists out, put_out (polled room tf el s) = put_out s ++ out.
Proof.
  unfold polled. rewrite put_out_script. cbn [split_step].
  destruct (split_poll_grows (order_of tf) el (with_script s (repeat (Accept 1) (N.to_nat room) ++ [WPending]))) as [out Q].
  exists out. exact Q.
Qed.

(** With the pipe emptied, a poll with all the room there is. *)
Lemma empties_and_polls cap tf el s sent p taken :
  exists p' taken', current_run (current_goes cap) (Current s sent p taken) (Current (polled cap tf el s) sent p' taken').
Proof.
  destruct (polled_grows cap tf el s) as [out O]. exists out, (taken ++ p).
  eapply current_trans; [apply takes_all|]. eapply current_more; [|constructor].
  change out with ([] ++ out) at 1. eapply current_poll with (tick_first := tf) (elapsed := el); [|exact O].
  rewrite len_nil, N.sub_0_r. reflexivity.
Qed.

Definition in_last (pl : place) (rest : bytes) : Prop :=
  pl = InDecoy (Writing rest) \/ exists c, pl = InPayload (Writing rest) c.

(** The state between two polls. *)
Definition on (k : N) s : Prop :=
  running (sp_task s) = true /\ flushes (pw_writer (tk_writer (sp_task s))) = [] /\ counted k (pw_cipher (tk_writer (sp_task s))).

Lemma script_on k s l : on k s -> on k (with_script s l).
Proof. exact (fun H => H). Qed.

Lemma polled_eq cap tf el c ws fs wr sh q sn sl ru rc an pl :
  polled cap tf el (SplitTask (Task (PWriter c (Writer ws fs wr)) sh q sn sl ru rc an) pl) =
  with_script (split_poll (order_of tf) el
    (SplitTask (Task (PWriter c (Writer (sc (N.to_nat cap)) fs wr)) sh q sn sl ru rc an) pl)) [].
Proof. reflexivity. Qed.

Lemma last_leg cap tf el s k b l : 1 <= cap -> on k s -> in_last (sp_place s) (b :: l) ->
  let s' := polled cap tf el s in
  on k s' /\ queue (sp_task s') = queue (sp_task s) /\
  (sp_place s' = AtSelect \/ exists b' l', in_last (sp_place s') (b' :: l') /\ (length l' < length l)%nat).
Proof.
  intros Hk (Ru & F & C) Pl. destruct s as [[[c [ws fs wr]] sh q sn sl ru rc an] pl].
  cbn [sp_task sp_place running tk_writer pw_writer pw_cipher flushes] in *. subst ru fs.
  cbv zeta. rewrite polled_eq. unfold split_poll. cbn [sp_task sp_place running tk_writer].
  assert (Hn : (length (skipn (N.to_nat cap) (b :: l)) <= length l)%nat) by (rewrite skipn_length; cbn [length]; lia).
  destruct Pl as [->|(cmd & ->)]; rewrite go_on_room; destruct (Nat.leb (length (b :: l)) (N.to_nat cap)) eqn:L.
  - split; [split; [reflexivity|split; [reflexivity|exact C]]|]. split; [reflexivity|]. left. reflexivity.
  - split; [split; [reflexivity|split; [reflexivity|exact C]]|]. split; [reflexivity|]. right. destruct (skipn_more _ _ L) as (b' & l' & Q).
    exists b', l'. rewrite Q in Hn. split; [left; cbn; now rewrite Q|]. cbn [length] in Hn. lia.
  - split; [split; [reflexivity|split; [reflexivity|exact C]]|]. split; [reflexivity|]. left. reflexivity.
  - split; [split; [reflexivity|split; [reflexivity|exact C]]|]. split; [reflexivity|]. right. destruct (skipn_more _ _ L) as (b' & l' & Q).
    exists b', l'. rewrite Q in Hn. split; [right; eexists; cbn; now rewrite Q|]. cbn [length] in Hn. lia.
Qed.

(** What a command comes to behind its padding. *)
Lemma payload_starts k t c n cmd wr : tk_writer t = PWriter c (Writer (sc n) [] wr) -> running t = true ->
  counted k c -> room k -> sound_payload (cmd_payload cmd) ->
  let s' := write_payload t cmd in
  on (k + 1) s' /\ queue (sp_task s') = queue t /\
  (sp_place s' = AtSelect \/ exists b l, in_last (sp_place s') (b :: l)).
Proof.
  intros W Ru Hc Hr Sp. unfold write_payload.
  destruct (begin_fine (tk_writer t) (cmd_payload cmd) k) as (pkt & c' & _ & Hc' & _ & ->); [now rewrite W|assumption..|].
  rewrite W. cbn [pw_writer]. rewrite go_on_room. destruct (Nat.leb (length pkt) n) eqn:L; cbn [payload_wrote].
  - split; [split; [reflexivity|split; [reflexivity|exact Hc']]|]. split; [reflexivity|]. left. reflexivity.
  - split; [split; [exact Ru|split; [reflexivity|exact Hc']]|]. split; [reflexivity|]. right. destruct (skipn_more _ _ L) as (b' & l' & Q).
    exists b', l'. right. exists cmd. cbn. now rewrite Q.
Qed.

Lemma pad_goes k t cmd c n wr rest : running t = true -> counted k c -> room k -> sound_payload (cmd_payload cmd) ->
  let s' := pad_wrote t cmd (go_on (Writing rest) (PWriter c (Writer (sc n) [] wr))) in
  (exists k', k <= k' <= k + 1 /\ on k' s') /\ queue (sp_task s') = queue t /\
  (sp_place s' = AtSelect \/ (exists b l, in_last (sp_place s') (b :: l)) \/
   exists b' l', sp_place s' = InPad (Writing (b' :: l')) cmd /\ on k s' /\ skipn n rest = b' :: l').
Proof.
  intros Ru Hc Hr Sp. rewrite go_on_room. destruct (Nat.leb (length rest) n) eqn:L; cbn [pad_wrote].
  - destruct (payload_starts k (with_writer t (PWriter c (Writer (sc (n - length rest)) [] (wr ++ rest)))) c
      (n - length rest) cmd (wr ++ rest) eq_refl Ru Hc Hr Sp) as (A1 & A2 & A3).
    split; [exists (k + 1); split; [lia|exact A1]|]. split; [exact A2|]. destruct A3 as [A3|A3]; auto.
  - destruct (skipn_more _ _ L) as (b' & l' & Q).
    assert (O : on k (SplitTask (with_writer t (PWriter c (Writer [] [] (wr ++ firstn n rest)))) (InPad (Writing (skipn n rest)) cmd)))
      by (split; [assumption|split; [first [assumption|reflexivity]|assumption]]).
    split; [exists k; split; [lia|exact O]|]. split; [reflexivity|]. right. right. exists b', l'.
    split; [cbn; now rewrite Q|]. split; [exact O|exact Q].
Qed.

Lemma pad_leg cap tf el s k cmd b l : 1 <= cap -> on k s -> room k -> sound_payload (cmd_payload cmd) ->
  sp_place s = InPad (Writing (b :: l)) cmd ->
  let s' := polled cap tf el s in
  (exists k', k <= k' <= k + 1 /\ on k' s') /\ queue (sp_task s') = queue (sp_task s) /\
  (sp_place s' = AtSelect \/ (exists b l, in_last (sp_place s') (b :: l)) \/
   exists b' l', sp_place s' = InPad (Writing (b' :: l')) cmd /\ on k s' /\ (length l' < length l)%nat).
Proof.
  intros Hk (Ru & F & C) Hr Sp Pl. destruct s as [[[c [ws fs wr]] sh q sn sl ru rc an] pl].
  cbn [sp_task sp_place running tk_writer pw_writer pw_cipher flushes] in *. subst ru fs pl.
  cbv zeta. rewrite polled_eq. unfold split_poll. cbn [sp_task sp_place running tk_writer].
  destruct (pad_goes k (Task (PWriter c (Writer (sc (N.to_nat cap)) [] wr)) sh q sn sl true rc an) cmd c (N.to_nat cap) wr (b :: l)
    eq_refl C Hr Sp) as (A1 & A2 & A3).
  split; [exact A1|]. split; [exact A2|]. destruct A3 as [A3|[A3|(b' & l' & A3 & A4 & A5)]]; [auto..|].
  right. right. exists b', l'. split; [exact A3|]. split; [exact A4|].
  apply (f_equal (@length _)) in A5. rewrite skipn_length in A5. cbn [length] in A5. lia.
Qed.

(** The branch comes to its end. *)
Lemma last_ends cap sent k : 1 <= cap -> forall m s p taken b l, (length l <= m)%nat -> on k s -> in_last (sp_place s) (b :: l) ->
  exists s' p' taken', current_run (current_goes cap) (Current s sent p taken) (Current s' sent p' taken') /\
    on k s' /\ queue (sp_task s') = queue (sp_task s) /\ sp_place s' = AtSelect.
Proof.
  intros Hk. induction m as [m IH] using lt_wf_ind. intros s p taken b l L O Pl.
  destruct (empties_and_polls cap false false s sent p taken) as (p1 & t1 & R1).
  destruct (last_leg cap false false s k b l Hk O Pl) as (O1 & Q1 & [P1|(b' & l' & P1 & L1)]).
  - exists (polled cap false false s), p1, t1. auto.
  - destruct (IH (length l') ltac:(lia) (polled cap false false s) p1 t1 b' l' (le_n _) O1 P1) as (s2 & p2 & t2 & R2 & O2 & Q2 & P2).
    exists s2, p2, t2. split; [eapply current_trans; eassumption|]. rewrite Q2. auto.
Qed.

Lemma pad_ends cap sent k cmd : 1 <= cap -> room k -> sound_payload (cmd_payload cmd) ->
  forall m s p taken b l, (length l <= m)%nat -> on k s -> sp_place s = InPad (Writing (b :: l)) cmd ->
  exists k' s' p' taken', current_run (current_goes cap) (Current s sent p taken) (Current s' sent p' taken') /\
    k <= k' <= k + 1 /\ on k' s' /\ queue (sp_task s') = queue (sp_task s) /\ sp_place s' = AtSelect.
Proof.
  intros Hk Hr Sp. induction m as [m IH] using lt_wf_ind. intros s p taken b l L O Pl.
  destruct (empties_and_polls cap false false s sent p taken) as (p1 & t1 & R1).
  destruct (pad_leg cap false false s k cmd b l Hk O Hr Sp Pl) as ((k' & Lk & O1) & Q1 & [P1|[(b' & l' & P1)|(b' & l' & P1 & O1' & L1)]]).
  - exists k', (polled cap false false s), p1, t1. auto.
  - destruct (last_ends cap sent k' Hk _ _ p1 t1 _ _ (le_n _) O1 P1) as (s2 & p2 & t2 & R2 & O2 & Q2 & P2).
    exists k', s2, p2, t2. split; [eapply current_trans; eassumption|]. rewrite Q2. auto.
  - destruct (IH (length l') ltac:(lia) (polled cap false false s) p1 t1 b' l' (le_n _) O1' P1) as (k2 & s2 & p2 & t2 & R2 & Lk2 & O2 & Q2 & P2).
    exists k2, s2, p2, t2. split; [eapply current_trans; eassumption|]. rewrite Q2. auto.
Qed.

(** A command is taken from the queue. *)
Lemma command_leg cap s k cmd q : on k s -> (overflow_checks = true -> k + 2 < 2 ^ 32) -> sel_ok (sp_task s) ->
  sound_payload (cmd_payload cmd) -> sp_place s = AtSelect -> queue (sp_task s) = cmd :: q ->
  let s' := polled cap false false s in
  exists k', k <= k' <= k + 2 /\ on k' s' /\ queue (sp_task s') = q /\
    (sp_place s' = AtSelect \/ (exists b l, in_last (sp_place s') (b :: l)) \/
     exists b l, sp_place s' = InPad (Writing (b :: l)) cmd /\ k' <= k + 1).
Proof.
  intros (Ru & F & C) Hr So Sp Pl Qu. destruct s as [[[c [ws fs wr]] sh q0 sn sl ru rc an] pl].
  unfold sel_ok in So. cbn [sp_task sp_place running tk_writer pw_writer pw_cipher flushes queue sel senders] in *. subst ru fs pl q0.
  assert (sl = [false; false]) as -> by (destruct So as [So|(_ & _ & So)]; [exact So|discriminate]). clear So.
  cbv zeta. rewrite polled_eq. unfold split_poll. cbn [sp_task sp_place running tk_writer].
  match goal with |- context [select ?a ?b ?d] => change (select a b d) with (Taken 0) end. cbv iota. cbn [queue].
  unfold split_handle. cbn [tk_shaper tk_writer senders sel running tk_records answers].
  destruct (pad_total sh _ Sp) as (d & sh' & recs & SP). rewrite SP. destruct (shaper_pad_spec _ _ _ _ _ SP) as [_ Z].
  set (t' := Task (PWriter c (Writer (sc (N.to_nat cap)) [] wr)) sh' q sn [false; false] true (rc ++ recs) an).
  assert (R0 : room k) by (intros Ho; specialize (Hr Ho); lia). assert (R1 : room (k + 1)) by (intros Ho; specialize (Hr Ho); lia).
  destruct d as [d|].
  - destruct Z as (_ & Z & _). destruct (decoy_fine d Z) as [[Z1 _] _].
    destruct (begin_fine (PWriter c (Writer (sc (N.to_nat cap)) [] wr)) d k C R0 Z1) as (pkt & c' & _ & Hc' & _ & ->).
    cbn [pw_writer].
    destruct (pad_goes (k + 1) t' cmd c' (N.to_nat cap) wr pkt eq_refl Hc' R1 Sp) as ((k' & Lk & A1) & A2 & A3).
    destruct A3 as [A3|[A3|(b' & l' & A3 & A4 & _)]].
    + exists k'. split; [lia|]. split; [exact A1|]. split; [exact A2|]. auto.
    + exists k'. split; [lia|]. split; [exact A1|]. split; [exact A2|]. auto.
    + exists (k + 1). split; [lia|]. split; [exact A4|]. split; [exact A2|]. right. right. exists b', l'. split; [exact A3|lia].
  - destruct (payload_starts k t' c (N.to_nat cap) cmd wr eq_refl eq_refl C R0 Sp) as (A1 & A2 & A3).
    exists (k + 1). split; [lia|]. split; [exact A1|]. split; [exact A2|]. destruct A3; auto.
Qed.

Lemma queue_ends cap c0 sent : 1 <= cap -> forall q s k p taken, on k s -> (overflow_checks = true -> k + 2 * len q < 2 ^ 32) ->
  sound_current c0 (Current s sent p taken) -> sp_place s = AtSelect -> queue (sp_task s) = q ->
  exists s' p' taken', current_run (current_goes cap) (Current s sent p taken) (Current s' sent p' taken') /\
    running (sp_task s') = true /\ queue (sp_task s') = [] /\ sp_place s' = AtSelect.
Proof.
  intros Hk. induction q as [|cmd q IH]; intros s k p taken O Hr Inv Pl Qu.
  - exists s, p, taken. split; [constructor|]. split; [apply O|]. auto.
  - rewrite len_cons in Hr.
    pose proof Inv as (I & _). cbn [cu_sent cu_task] in I. destruct I as (_ & Fs & I). destruct (I (proj1 O)) as (So & I'). clear I.
    assert (Sp : sound_payload (cmd_payload cmd)).
    { destruct I' as (pls & pkts & handled & _ & _ & Sn & _). rewrite Sn, Qu in Fs.
      apply Forall_app in Fs. destruct Fs as [_ Fs]. apply Forall_app in Fs. exact (proj1 (Forall_inv (proj2 Fs))). }
    assert (Hr2 : overflow_checks = true -> k + 2 < 2 ^ 32) by (intros Ho; specialize (Hr Ho); lia).
    destruct (empties_and_polls cap false false s sent p taken) as (p1 & t1 & R1).
    destruct (command_leg cap s k cmd q O Hr2 So Sp Pl Qu) as (k1 & L1 & O1 & Q1 & P1).
    assert (X : exists k2 s2 p2 ta2, current_run (current_goes cap) (Current s sent p taken) (Current s2 sent p2 ta2) /\
      k2 <= k + 2 /\ on k2 s2 /\ queue (sp_task s2) = q /\ sp_place s2 = AtSelect).
    { destruct P1 as [P1|[(b & l & P1)|(b & l & P1 & L2)]].
      - exists k1, (polled cap false false s), p1, t1. split; [exact R1|]. split; [lia|]. auto.
      - destruct (last_ends cap sent k1 Hk _ _ p1 t1 _ _ (le_n _) O1 P1) as (s2 & p2 & t2 & R2 & O2 & Q2 & P2).
        exists k1, s2, p2, t2. split; [eapply current_trans; eassumption|]. split; [lia|]. rewrite Q2. auto.
      - assert (Rm : room k1) by (intros Ho; specialize (Hr Ho); lia).
        destruct (pad_ends cap sent k1 cmd Hk Rm Sp _ _ p1 t1 _ _ (le_n _) O1 P1) as (k2 & s2 & p2 & t2 & R2 & Lk & O2 & Q2 & P2).
        exists k2, s2, p2, t2. split; [eapply current_trans; eassumption|]. split; [lia|]. rewrite Q2. auto. }
    destruct X as (k2 & s2 & p2 & t2 & R2 & L2 & O2 & Q2 & P2).
    destruct (IH s2 k2 p2 t2 O2) as (s3 & p3 & t3 & R3 & Z).
    + intros Ho. specialize (Hr Ho). lia.
    + eapply goes_run_sound; eassumption.
    + exact P2.
    + exact Q2.
    + exists s3, p3, t3. split; [eapply current_trans; eassumption|exact Z].
Qed.

Theorem gets_done cap c0 st k : 1 <= cap -> sound_current c0 st -> running (sp_task (cu_task st)) = true ->
  counted k (pw_cipher (tk_writer (sp_task (cu_task st)))) ->
  (overflow_checks = true -> k + 2 * len (queue (sp_task (cu_task st))) + 2 < 2 ^ 32) ->
  exists st', current_run (current_goes cap) st st' /\
    sp_place (cu_task st') = AtSelect /\ running (sp_task (cu_task st')) = true /\ queue (sp_task (cu_task st')) = [] /\ cu_pipe st' = [] /\
    cu_sent st' = cu_sent st /\ sound_current c0 st'.
Proof.
  intros Hk Inv Ru Hc Hr. destruct st as [s sent p taken]. cbn [cu_task] in *.
  pose proof Inv as (I & _). cbn [cu_sent cu_task] in I. destruct I as (F & Fs & I). destruct (I Ru) as (_ & I'). clear I.
  assert (O : on k s) by (split; [assumption|split; [first [assumption|reflexivity]|assumption]]).
  assert (X : exists k2 s2 p2 ta2, current_run (current_goes cap) (Current s sent p taken) (Current s2 sent p2 ta2) /\
    k2 <= k + 1 /\ on k2 s2 /\ queue (sp_task s2) = queue (sp_task s) /\ sp_place s2 = AtSelect).
  { destruct I' as (pls & pkts & handled & _ & _ & Sn & _ & _ & _ & Pp). destruct (sp_place s) as [|f c|f c|f] eqn:Pl.
    - exists k, s, p, taken. split; [constructor|]. split; [lia|]. auto.
    - destruct Pp as (b & l & ->).
      assert (Sp : sound_payload (cmd_payload c)).
      { rewrite Sn in Fs. apply Forall_app in Fs. exact (proj1 (Forall_inv (proj2 Fs))). }
      assert (Rm : room k) by (intros Ho; specialize (Hr Ho); lia).
      destruct (pad_ends cap sent k c Hk Rm Sp _ _ p taken _ _ (le_n _) O Pl) as (k2 & s2 & p2 & t2 & R2 & Lk & O2 & Q2 & P2).
      exists k2, s2, p2, t2. split; [exact R2|]. split; [lia|]. auto.
    - destruct Pp as (b & l & ->).
      destruct (last_ends cap sent k Hk _ s p taken b l (le_n _) O ltac:(right; exists c; exact Pl)) as (s2 & p2 & t2 & R2 & O2 & Q2 & P2).
      exists k, s2, p2, t2. split; [exact R2|]. split; [lia|]. auto.
    - destruct Pp as (b & l & ->).
      destruct (last_ends cap sent k Hk _ s p taken b l (le_n _) O ltac:(left; exact Pl)) as (s2 & p2 & t2 & R2 & O2 & Q2 & P2).
      exists k, s2, p2, t2. split; [exact R2|]. split; [lia|]. auto. }
  destruct X as (k2 & s2 & p2 & t2 & R2 & L2 & O2 & Q2 & P2).
  destruct (queue_ends cap c0 sent Hk (queue (sp_task s)) s2 k2 p2 t2 O2) as (s3 & p3 & t3 & R3 & A1 & A2 & A3).
  - intros Ho. specialize (Hr Ho). lia.
  - eapply goes_run_sound; eassumption.
  - exact P2.
  - exact Q2.
  - assert (R4 : current_run (current_goes cap) (Current s sent p taken) (Current s3 sent [] (t3 ++ p3)))
      by (eapply current_trans; [exact R2|]; eapply current_trans; [exact R3|apply takes_all]).
    exists (Current s3 sent [] (t3 ++ p3)). split; [exact R4|]. repeat (split; [first [assumption|reflexivity]|]).
    eapply goes_run_sound; eassumption.
Qed.

(** What the peer makes of it. *)
Lemma current_read c0 st k : sound_current c0 st -> sp_place (cu_task st) = AtSelect -> running (sp_task (cu_task st)) = true ->
  queue (sp_task (cu_task st)) = [] -> cu_pipe st = [] -> counted k c0 ->
  answers (sp_task (cu_task st)) = map (fun c => (cmd_id c, Ok tt)) (cu_sent st) /\
  exists pls, genuine_only (map seen pls) = genuine_only (map seen (map cmd_payload (cu_sent st))) /\
    forall fl l e, flatten fl l = (cu_taken st, e) -> (overflow_checks = true -> k + len pls < 2 ^ 32) ->
      exists qs r', read_many (length pls) (established fl c0 (session_reader fl [] l)) = Ret (map Ok qs, r') /\
        map seen qs = map seen pls /\ reader_stream r' = ([], e).
Proof.
  intros ((_ & _ & I) & T) Pl Ru Qu Pi Hc. destruct (I Ru) as (_ & pls & pkts & handled & Sa & Co & Sn & An & Ge & Fp & _).
  rewrite Pl in *. cbn [left_over at_hand encrypted app] in *. rewrite Qu in Sn. rewrite !app_nil_r in *.
  rewrite Pi, app_nil_r in T. rewrite <- Sn in *. split; [exact An|]. exists pls. split; [exact Ge|].
  intros fl l e Fl Hr. rewrite T, <- Co in Fl.
  assert (Rd : Forall (readable fl) (map seen pls)).
  { apply Forall_map. eapply Forall_impl; [|exact Fp]. intros pl (_ & Sz). unfold size_of in Sz.
    destruct fl; cbn [readable]; [exact Sz|]. change (2 ^ 24) with 16777216. lia. }
  assert (Sz : Forall (fun p => len (snd p) < 2 ^ 24) (map seen pls)) by (eapply Forall_impl; [|exact Rd]; apply readable_24).
  pose proof (recv_sent_msgs _ _ _ _ Sz Sa) as Rc.
  pose proof (established_start fl c0 l _ _ Fl) as At.
  destruct (read_many_packets (map seen pls) _ c0 _ e (pw_cipher (tk_writer (sp_task (cu_task st)))) [] k At Hc) as (qs & r' & R1 & R2 & R3).
  - unfold len in *. rewrite map_length. exact Hr.
  - exact Rc.
  - rewrite established_flavor. exact Rd.
  - rewrite map_length in R1. exists qs, r'. split; [exact R1|]. split; [now apply payload_views|]. now apply at_packet_end in R3.
Qed.

(** ** Decoys until the pipe is full *)

Inductive alone (cap : N) : split_task -> bytes -> split_task -> bytes -> Prop :=
| alone_here s o : alone cap s o s o
| alone_more s o tf el s1 out s2 o2 : polled (cap - len o) tf el s = s1 -> put_out s1 = put_out s ++ out ->
    alone cap s1 (o ++ out) s2 o2 -> alone cap s o s2 o2.

Lemma alone_trans cap s o s1 o1 s2 o2 : alone cap s o s1 o1 -> alone cap s1 o1 s2 o2 -> alone cap s o s2 o2.
Proof. intros H. induction H; intros; [assumption|]. eapply alone_more; eauto. Qed.

Lemma tick_selected sl sn an rc sh w : sl = [false; false] ->
  select (order_of true) sl [poll_recv (Task w sh [] sn sl true rc an : @task G); poll_tick true] = Taken 1.
Proof. intros ->. reflexivity. Qed.

Lemma tick_leg room c wr sh sn rc an k :
  decoy_strategy (sh_config sh) = Random -> counted k c -> CipherProofs.room k ->
  let s := SplitTask (Task (PWriter c (Writer [] [] wr)) sh [] sn [false; false] true rc an) AtSelect in
  let '(p, g) := gen_range 0 99 (sh_rng sh) in
  exists rc', if p <? 85
  then polled room true true s =
       SplitTask (Task (PWriter c (Writer [] [] wr)) (Shaper (sh_config sh) g) [] sn [false; false] true rc' an) AtSelect
  else exists pkt c' g', 21 <= len pkt /\ counted (k + 1) c' /\ polled room true true s =
    if Nat.leb (length pkt) (N.to_nat room)
    then SplitTask (Task (PWriter c' (Writer [] [] (wr ++ pkt))) (Shaper (sh_config sh) g') [] sn [false; false] true rc' an) AtSelect
    else SplitTask (Task (PWriter c' (Writer [] [] (wr ++ firstn (N.to_nat room) pkt))) (Shaper (sh_config sh) g') [] sn
           [false; false] true rc' an) (InDecoy (Writing (skipn (N.to_nat room) pkt))).
Proof.
  intros C Hc Hr s. destruct (gen_range 0 99 (sh_rng sh)) as [p g] eqn:Q. unfold s. rewrite polled_eq.
  unfold split_poll. cbn [sp_task sp_place running tk_writer queue sel].
  rewrite (tick_selected _ _ _ _ _ _ eq_refl). unfold split_tick, shaper_decoy. cbn [tk_shaper]. rewrite C, Q.
  destruct (p <? 85).
  - exists rc. unfold with_script, branch_end, turn, with_writer. cbn. rewrite !app_nil_r. reflexivity.
  - unfold zero_decoy. change MAX_DECOY_SIZE_BYTES with 1024. destruct (gen_range 1 1024 g) as [size g'] eqn:Z.
    pose proof (gen_range_in 1 1024 g ltac:(lia)) as B. rewrite Z in B. cbn [fst] in B.
    cbn [tk_writer queue senders sel running tk_records answers].
    destruct (begin_fine (PWriter c (Writer (sc (N.to_nat room)) [] wr)) (decoy (zeros size)) k Hc Hr) as (pkt & c' & _ & Hc' & L & ->).
    { eexists. reflexivity. }
    cbn [pw_writer]. rewrite go_on_room. unfold size_of in L. cbn [seen decoy snd] in L. rewrite len_zeros in L.
    destruct (Nat.leb (length pkt) (N.to_nat room)) eqn:Lb.
    + eexists. exists pkt, c', g'. split; [lia|]. split; [exact Hc'|]. rewrite Lb.
      unfold with_script, decoy_wrote, branch_end, turn, with_writer. cbn. rewrite !app_nil_r. reflexivity.
    + eexists. exists pkt, c', g'. split; [lia|]. split; [exact Hc'|]. rewrite Lb. cbn. reflexivity.
Qed.

(** The task inside of a decoy, the pipe being full. *)
Definition jammed s (an : list (N * result perror unit)) (sn : bool) : Prop :=
  exists c wr sh sl rc b l,
    s = SplitTask (Task (PWriter c (Writer [] [] wr)) sh [] sn sl true rc an) (InDecoy (Writing (b :: l))).

Lemma one_decoy cap n : forall c wr sh sn rc an k o,
  decoy_strategy (sh_config sh) = Random -> counted k c -> CipherProofs.room k -> len o <= cap ->
  85 <= fst (gen_range 0 99 (Nat.iter n (fun g => snd (gen_range 0 99 g)) (sh_rng sh))) ->
  let s := SplitTask (Task (PWriter c (Writer [] [] wr)) sh [] sn [false; false] true rc an) AtSelect in
  (exists s' o', alone cap s o s' o' /\ len o' = cap /\ jammed s' an sn) \/
  exists c' wr' sh' rc' o', alone cap s o (SplitTask (Task (PWriter c' (Writer [] [] wr')) sh' [] sn [false; false] true rc' an) AtSelect) o' /\
    sh_config sh' = sh_config sh /\ counted (k + 1) c' /\ len o + 21 <= len o' <= cap.
Proof.
  induction n as [|n IH]; intros c wr sh sn rc an k o C Hc Hr Lo H s;
    pose proof (tick_leg (cap - len o) c wr sh sn rc an k C Hc Hr) as T; cbn zeta in T; fold s in T;
    destruct (gen_range 0 99 (sh_rng sh)) as [p g] eqn:Q; destruct T as (rc' & T);
    (destruct (p <? 85) eqn:L; [apply N.ltb_lt in L|]).
  1:{ exfalso. cbn [Nat.iter nat_rect] in H. rewrite Q in H. cbn [fst] in H. lia. }
  2:{ destruct (IH c wr (Shaper (sh_config sh) g) sn rc' an k o C Hc Hr Lo) as [(s' & o' & A & B)|(c' & wr' & sh' & rc2 & o' & A & B)].
      - rewrite iter_in, Q in H. exact H.
      - left. exists s', o'. split; [|exact B]. eapply alone_more with (out := []); [exact T|now rewrite app_nil_r|].
        rewrite app_nil_r. exact A.
      - right. exists c', wr', sh', rc2, o'. split; [|exact B].
        eapply alone_more with (out := []); [exact T|now rewrite app_nil_r|]. rewrite app_nil_r. exact A. }
  all: clear H; destruct T as (pkt & c' & g' & Lp & Hc' & T);
    destruct (Nat.leb (length pkt) (N.to_nat (cap - len o))) eqn:Lb;
    [apply Nat.leb_le in Lb; right; exists c', (wr ++ pkt), (Shaper (sh_config sh) g'), rc', (o ++ pkt);
     split; [eapply alone_more with (out := pkt); [exact T|reflexivity|constructor]|];
     split; [reflexivity|]; split; [exact Hc'|]; rewrite len_app; unfold len in *; lia
    |left; exists (SplitTask (Task (PWriter c' (Writer [] [] (wr ++ firstn (N.to_nat (cap - len o)) pkt)))
        (Shaper (sh_config sh) g') [] sn [false; false] true rc' an) (InDecoy (Writing (skipn (N.to_nat (cap - len o)) pkt)))),
       (o ++ firstn (N.to_nat (cap - len o)) pkt);
     split; [eapply alone_more; [exact T|reflexivity|constructor]|];
     split; [apply Nat.leb_gt in Lb; rewrite len_app; unfold len in *; rewrite firstn_length; lia|];
     destruct (skipn_more _ _ Lb) as (b & l & ->); do 7 eexists; reflexivity].
Qed.

Lemma fills cap : restless R -> forall m c wr sh sn rc an k o, (N.to_nat (cap - len o) <= m)%nat ->
  decoy_strategy (sh_config sh) = Random -> counted k c -> (overflow_checks = true -> k + (cap - len o) + 1 < 2 ^ 32) -> len o <= cap ->
  exists s' o', alone cap (SplitTask (Task (PWriter c (Writer [] [] wr)) sh [] sn [false; false] true rc an) AtSelect) o s' o' /\
    len o' = cap /\ jammed s' an sn.
Proof.
  intros Rs. induction m as [m IH] using lt_wf_ind. intros c wr sh sn rc an k o Lm C Hc Hr Lo.
  destruct (Rs (sh_rng sh)) as (n & H).
  assert (Rm : CipherProofs.room k) by (intros Ho; specialize (Hr Ho); lia).
  destruct (one_decoy cap n c wr sh sn rc an k o C Hc Rm Lo H) as [X|(c' & wr' & sh' & rc' & o' & A & C' & Hc' & Lo')]; [exact X|].
  destruct (IH (N.to_nat (cap - len o')) ltac:(lia) c' wr' sh' sn rc' an (k + 1) o' (le_n _)) as (s2 & o2 & A2 & Z).
  - now rewrite C'.
  - exact Hc'.
  - intros Ho. specialize (Hr Ho). lia.
  - lia.
  - exists s2, o2. split; [eapply alone_trans; eassumption|exact Z].
Qed.

(** A full pipe: polls change nothing. *)
Lemma polled_full tf el c wr sh q sn sl rc an b l :
  let s := SplitTask (Task (PWriter c (Writer [] [] wr)) sh q sn sl true rc an) (InDecoy (Writing (b :: l))) in
  polled 0 tf el s = s.
Proof.
  intros s. unfold s. rewrite polled_eq. change (N.to_nat 0) with O. unfold split_poll. cbn [sp_task sp_place running tk_writer].
  rewrite go_on_room. cbn [Nat.leb length firstn skipn]. unfold decoy_wrote, with_script, with_writer. cbn. now rewrite app_nil_r.
Qed.

Lemma alone_one cap s o s' o' n w r f todo sd hd b inc : alone cap s o s' o' ->
  meeting_run cap (Meeting (Party s n w r f todo sd hd) b o inc) (Meeting (Party s' n w r f todo sd hd) b o' inc).
Proof.
  intros H. induction H as [s o|s o tf el s1 out s2 o2 P O _ IH]; [constructor|].
  eapply meeting_more; [|exact IH]. apply one_acts. eapply task_polled; eassumption.
Qed.

Lemma alone_other cap s o s' o' n w r f todo sd hd a inc : alone cap s o s' o' ->
  meeting_run cap (Meeting a (Party s n w r f todo sd hd) inc o) (Meeting a (Party s' n w r f todo sd hd) inc o').
Proof.
  intros H. induction H as [s o|s o tf el s1 out s2 o2 P O _ IH]; [constructor|].
  eapply meeting_more; [|exact IH]. apply other_acts. eapply task_polled; eassumption.
Qed.

Lemma meeting_trans cap x y z : meeting_run (G := G) cap x y -> meeting_run cap y z -> meeting_run cap x z.
Proof. intros H. induction H; intros; [assumption|]. eapply meeting_more; eauto. Qed.

(** An application that awaits an answer the jammed task does not give. *)
Definition hopeless (d : @party G) : Prop :=
  exists s an n r f pl todo sd hd, jammed s an true /\ Forall (fun a => fst a < n) an /\
    d = Party (split_step s (Ev (Send (Command n pl)))) (n + 1) true r f (Say pl :: todo) sd hd.

Lemma hopeless_acts d inc d' inc' out : hopeless d -> acts inc 0 d d' inc' out -> d' = d /\ inc' = inc /\ out = [].
Proof.
  intros (s & an & n & r & f & pl & todo & sd & hd & (c & wr & sh & sl & rc & b & l & ->) & Fa & Q) H.
  cbn [split_step sp_task sp_place task_step senders running andb tk_writer tk_shaper queue sel tk_records answers app] in Q.
  destruct H as [tf el s s' n' w r' f' todo' sd' hd' out P O| |x pl' s n' r' f' todo' sd' hd' An| |]; try discriminate.
  - injection Q as Q1 -> -> -> -> -> -> ->. rewrite Q1 in P. rewrite polled_full in P. rewrite <- Q1 in P. subst s'.
    split; [reflexivity|]. split; [reflexivity|]. apply (f_equal (@length _)) in O. rewrite app_length in O. destruct out; [reflexivity|].
    cbn in O. lia.
  - injection Q as Q1 -> -> -> -> -> -> ->. subst s. unfold answer_to in An. cbn [sp_task answers running] in An.
    destruct (find _ an) as [[i y]|] eqn:Fi; [|discriminate]. apply find_some in Fi. destruct Fi as [In Eq]. cbn [fst] in Eq.
    rewrite Forall_forall in Fa. specialize (Fa _ In). cbn [fst] in Fa. lia.
Qed.

Lemma becomes_hopeless cap d inc o k pl todo : restless R -> at_ease d ->
  decoy_strategy (sh_config (tk_shaper (sp_task (pa_task d)))) = Random -> pa_todo d = Say pl :: todo ->
  counted k (pw_cipher (tk_writer (sp_task (pa_task d)))) -> (overflow_checks = true -> k + cap + 1 < 2 ^ 32) -> len o <= cap ->
  exists d' o', hopeless d' /\ len o' = cap /\ pa_todo d' <> [] /\
    (forall b, meeting_run cap (Meeting d b o inc) (Meeting d' b o' inc)) /\
    (forall a, meeting_run cap (Meeting a d inc o) (Meeting a d' inc o')).
Proof.
  intros Rs (P & Ru & Se & Qu & Sl & Ws & Fl & An & Wa & Re) C Td Hc Hr Lo.
  destruct d as [[[[c [ws fs wr]] sh q sn sl ru rc an] place] n w r f td sd hd].
  cbn [pa_task sp_task sp_place running senders queue sel tk_writer pw_writer w_script flushes answers pa_calls pa_waits pa_reading
    tk_shaper pw_cipher pa_todo] in *. subst.
  destruct (fills cap Rs _ c wr sh true rc an k o (le_n _) C Hc) as (s' & o' & Al & Lo' & J);
    [intros Ho; specialize (Hr Ho); lia|exact Lo|].
  exists (Party (split_step s' (Ev (Send (Command n pl)))) (n + 1) true r FreshFuture (Say pl :: todo) sd hd), o'.
  split; [exists s', an, n, r, FreshFuture, pl, todo, sd, hd; auto|]. split; [exact Lo'|]. split; [discriminate|].
  split; intros x.
  - eapply meeting_trans; [eapply alone_one; exact Al|]. eapply meeting_more; [|constructor].
    rewrite <- (app_nil_r o') at 2. apply one_acts. apply write_called.
  - eapply meeting_trans; [eapply alone_other; exact Al|]. eapply meeting_more; [|constructor].
    rewrite <- (app_nil_r o') at 2. apply other_acts. apply write_called.
Qed.

Theorem stalls cap a b lr rl ka kb pla ta plb tb : restless R -> at_ease a -> at_ease b ->
  decoy_strategy (sh_config (tk_shaper (sp_task (pa_task a)))) = Random ->
  decoy_strategy (sh_config (tk_shaper (sp_task (pa_task b)))) = Random ->
  pa_todo a = Say pla :: ta -> pa_todo b = Say plb :: tb -> len lr <= cap -> len rl <= cap ->
  counted ka (pw_cipher (tk_writer (sp_task (pa_task a)))) -> (overflow_checks = true -> ka + cap + 1 < 2 ^ 32) ->
  counted kb (pw_cipher (tk_writer (sp_task (pa_task b)))) -> (overflow_checks = true -> kb + cap + 1 < 2 ^ 32) ->
  exists st, meeting_run cap (Meeting a b lr rl) st /\ stalled cap st /\ ~ is_through (one st) /\ ~ is_through (other st).
Proof.
  intros Rs Ea Eb Ca Cb Ta Tb La Lb Ka Oa Kb Ob.
  destruct (becomes_hopeless cap a rl lr ka pla ta Rs Ea Ca Ta Ka Oa La) as (a' & lr' & Ha & Fa & Na & Ra & _).
  destruct (becomes_hopeless cap b lr' rl kb plb tb Rs Eb Cb Tb Kb Ob Lb) as (b' & rl' & Hb & Fb & Nb & _ & Rb).
  exists (Meeting a' b' lr' rl'). split; [eapply meeting_trans; [apply Ra|apply Rb]|]. split; [|split; assumption].
  intros st' S. remember (Meeting a' b' lr' rl') as st eqn:Q. destruct S as [x x' y p q q' out A|x y y' p q p' out A];
    injection Q as -> -> -> ->.
  - rewrite Fa, N.sub_diag in A. destruct (hopeless_acts _ _ _ _ _ Ha A) as (-> & -> & ->). now rewrite app_nil_r.
  - rewrite Fb, N.sub_diag in A. destruct (hopeless_acts _ _ _ _ _ Hb A) as (-> & -> & ->). now rewrite app_nil_r.
Qed.

End WithLaws.
