(** * Property C71: two blocking endpoints in use over transports of bounded capacity *)
From Coq Require Import List NArith Bool Lia.
From Coq.Strings Require Import Byte.
From Verif Require Import Base BaseFacts Env FsChacha Cipher Histories CipherProofs Handshake Transport Io SpecIo Sessions
  Toy PropsHandshake PropsIo Traffic TrafficIo SpecTraffic SpecIntegrity PropsTraffic SpecDuplex DuplexProofs.
Import ListNotations.
Local Open Scope N_scope.

(** ** C71 *)
(** Without shaping, two programs that come to their end with unlimited pipes do so with pipes that hold what either of
    them says: whatever has happened, both can go on to their end, and each hears what the other says, in order. *)
Theorem C71_unshaped : forall (E : Env) (EL : EnvLaws E) (G : Type) (R : Rng G) oca ocb (sha shb : shaper G) reca recb ra rb ta tb
    ka kb capacity st,
  sh_config sha = Config Disabled Disabled -> sh_config shb = Config Disabled Disabled ->
  sr_cipher ra = ocb -> sr_cipher rb = oca ->
  session_leftover (sr_reader ra) = [] -> session_leftover (sr_reader rb) = [] ->
  Forall (fun pl => sound_payload pl /\ size_of pl + 1 <= 4000014) (said ta ++ said tb) ->
  load (said ta) <= capacity -> load (said tb) <= capacity -> concert ta tb 0 0 ->
  counted ka oca -> (overflow_checks = true -> ka + len (said ta) + 1 < 2 ^ 32) ->
  counted kb ocb -> (overflow_checks = true -> kb + len (said tb) + 1 < 2 ^ 32) ->
  duplex_run capacity (Duplex (side_new oca sha reca ra ta) (side_new ocb shb recb rb tb) [] []) st ->
  exists st' la lb, duplex_run capacity st st' /\ is_done (left st') /\ is_done (right st') /\
    sd_heard (left st') = map Ok la /\ map seen la = map seen (firstn (hearings ta) (said tb)) /\
    sd_heard (right st') = map Ok lb /\ map seen lb = map seen (firstn (hearings tb) (said ta)).
Proof.
  intros E EL G R oca ocb sha shb reca recb ra rb ta tb ka kb K st Ca Cb Xa Xb La Lb F Fa Fb Co Ka Oa Kb Ob Run.
  apply Forall_app in F. destruct F as [F1 F2].
  assert (I : inv K (map seen (said ta)) (map seen (said tb)) (hearings ta) (hearings tb)
    (side_new oca sha reca ra ta) (side_new ocb shb recb rb tb) [] []).
  { assert (Q : forall oc (sh : shaper G) rec r t k, sh_config sh = Config Disabled Disabled -> counted k oc ->
      (overflow_checks = true -> k + len (said t) + 1 < 2 ^ 32) ->
      Forall (fun pl => sound_payload pl /\ size_of pl + 1 <= 4000014) (said t) -> able (side_new oc sh rec r t)).
    { intros oc sh rec r t k C Hc Ho Ft. split; [repeat split; try assumption; constructor|]. split; [exact Ft|].
      exists k. split; [exact Hc|]. intros Q. exact (Ho Q). }
    assert (L : forall oc (sh : shaper G) rec r t oc' (sh' : shaper G) rec' r' t', sr_cipher r' = oc -> session_leftover (sr_reader r') = [] ->
      load (said t) <= K -> link K (side_new oc sh rec r t) (side_new oc' sh' rec' r' t') [] 0 (map seen (said t))).
    { intros oc sh rec r t oc' sh' rec' r' t' C Lo Fi. exists [], [], [], [].
      cbn [side_new sd_reader sd_got sd_shared shared_new st_writer sd_sent pw_cipher send_all]. rewrite C, Lo.
      repeat split; try constructor; try reflexivity; [split; reflexivity|].
      unfold todo_of. cbn [side_new sd_shared shared_new app_at sd_todo]. rewrite len_nil. rewrite N.add_0_l, N.add_0_r. exact Fi. }
    split; [eapply Q; eassumption|]. split; [eapply Q; eassumption|]. split; [reflexivity|]. split; [reflexivity|].
    exists O, O. split; [now apply L|]. split; [now apply L|]. exact Co. }
  pose proof (run_inv _ _ _ _ _ _ _ Run I) as I1.
  destruct (goes_on _ _ _ _ _ _ _ _ _ _ (le_n _) I1) as (st' & R1 & D1 & D2).
  replace (Duplex (left st) (right st) (to_right st) (to_left st)) with st in R1 by (now destruct st).
  pose proof (run_inv _ _ _ _ _ _ _ R1 I1) as (_ & _ & H1 & H2 & ca & cb & L1 & L2 & _).
  destruct D1 as [T1 A1]. destruct D2 as [T2 A2].
  assert (Fin : forall (a b : @side G) p n all, link K a b p n all -> sd_todo a = [] -> app_at (sd_shared a) = AppOut -> sd_todo b = [] ->
    exists l, sd_heard b = map Ok l /\ map seen l = firstn (length (sd_heard b) + hearings (sd_todo b)) all).
  { intros a b p n all (ms & pkts & part & hs & _ & _ & _ & _ & _ & _ & Hh & All) Ta Aa Tb. exists hs. split; [exact Hh|].
    rewrite <- All, Hh, Tb, map_length. unfold todo_of. rewrite Aa, Ta. cbn.
    rewrite firstn_app, map_length. replace (length hs + 0 - length hs)%nat with 0%nat by lia.
    rewrite firstn_all2 by (rewrite map_length; lia). now rewrite app_nil_r. }
  destruct (Fin _ _ _ _ _ L2 T2 A2 T1) as (la & Qa & Ea). destruct (Fin _ _ _ _ _ L1 T1 A1 T2) as (lb & Qb & Eb).
  rewrite H1 in Ea. rewrite H2 in Eb. rewrite firstn_map in Ea, Eb.
  exists st', la, lb. repeat split; assumption.
Qed.
Print Assumptions C71_unshaped.

(** With decoys a thread of the endpoint writes too, and it has the mutex while it does.  Whatever the capacity, the
    decoys alone can fill both pipes; if both applications then say something, however short, nobody ever does anything
    again. *)
Theorem C71_decoys_deadlock : forall (E : Env) (EL : EnvLaws E) (G : Type) (R : Rng G) (RL : RngLaws G R) (a b : @side G)
    pla ta plb tb ka kb capacity lr rl,
  restless R -> at_rest a -> at_rest b ->
  decoy_strategy (sh_config (st_shaper (sd_shared a))) = Random ->
  decoy_strategy (sh_config (st_shaper (sd_shared b))) = Random ->
  sd_todo a = Say pla :: ta -> sd_todo b = Say plb :: tb ->
  len lr <= capacity -> len rl <= capacity ->
  counted ka (pw_cipher (st_writer (sd_shared a))) -> (overflow_checks = true -> ka + capacity + 1 < 2 ^ 32) ->
  counted kb (pw_cipher (st_writer (sd_shared b))) -> (overflow_checks = true -> kb + capacity + 1 < 2 ^ 32) ->
  exists st, duplex_run capacity (Duplex a b lr rl) st /\
    deadlocked capacity st /\ ~ is_done (left st) /\ ~ is_done (right st).
Proof.
  intros E EL G R RL [sa na ra ga qa ha] [sb nb rb gb qb hb] pla ta plb tb ka kb K lr rl Rs
    (A1 & A2 & A3 & A4 & A5 & A6 & A7) (B1 & B2 & B3 & B4 & B5 & B6 & B7) Ca Cb Qa Qb La Lb Ka Oa Kb Ob.
  cbn [sd_shared sd_sent sd_todo] in *. subst.
  eapply deadlock_ahead; try eassumption; repeat split; try assumption; first [apply A7|apply B7].
Qed.
Print Assumptions C71_decoys_deadlock.

Lemma high_restless : restless high.
Proof. intros g. exists O. cbn. lia. Qed.

(** One message each way that fits ten times: with decoys it is not certain to arrive. *)
Theorem C71_small_messages_arrive_refuted :
  ~ forall (E : Env) (EL : EnvLaws E) (G : Type) (R : Rng G) (RL : RngLaws G R) oca ocb (sha shb : shaper G) ra rb ta tb capacity st,
      sr_cipher ra = ocb -> sr_cipher rb = oca ->
      session_leftover (sr_reader ra) = [] -> session_leftover (sr_reader rb) = [] ->
      Forall sound_payload (said ta ++ said tb) ->
      10 * load (said ta) <= capacity -> 10 * load (said tb) <= capacity -> concert ta tb 0 0 ->
      counted 0 oca -> counted 0 ocb -> capacity < 2 ^ 31 ->
      duplex_run capacity (Duplex (side_new oca sha [] ra ta) (side_new ocb shb [] rb tb) [] []) st ->
      exists st', duplex_run capacity st st' /\ is_done (left st') /\ is_done (right st').
Proof.
  intros H.
  set (oca := outbound (session_new sample_km Initiator)).
  set (ocb := outbound (session_new sample_km Responder)).
  set (ra := SyncReader ocb (ChainReader [] false [])). set (rb := SyncReader oca (ChainReader [] false [])).
  set (sh := Shaper (Config Disabled Random) tt). set (prog := [Say (genuine [x01]); Hear]).
  assert (Ca : @counted (toy true) 0 oca) by apply session_counted.
  assert (Cb : @counted (toy true) 0 ocb) by apply session_counted.
  destruct (C71_decoys_deadlock (toy true) (toy_laws true) unit high high_laws (side_new oca sh [] ra prog) (side_new ocb sh [] rb prog)
    (genuine [x01]) [Hear] (genuine [x01]) [Hear] 0 0 1000 [] []) as (st & Run & D & _ & N).
  - exact high_restless.
  - repeat split; constructor.
  - repeat split; constructor.
  - reflexivity.
  - reflexivity.
  - reflexivity.
  - reflexivity.
  - vm_compute. discriminate.
  - vm_compute. discriminate.
  - exact Ca.
  - intros _. vm_compute. reflexivity.
  - exact Cb.
  - intros _. vm_compute. reflexivity.
  - destruct (H (toy true) (toy_laws true) unit high high_laws oca ocb sh sh ra rb prog prog 1000 st) as (st' & R1 & _ & Z).
    + reflexivity.
    + reflexivity.
    + reflexivity.
    + reflexivity.
    + constructor; [eexists; reflexivity|]. constructor; [eexists; reflexivity|constructor].
    + vm_compute. discriminate.
    + vm_compute. discriminate.
    + apply left_says, right_says, left_hears, right_hears, concert_end.
    + exact Ca.
    + exact Cb.
    + vm_compute. reflexivity.
    + exact Run.
    + inversion R1 as [|? ? ? S1 _]; subst; [contradiction|exact (D _ S1)].
Qed.
Print Assumptions C71_small_messages_arrive_refuted.

(** The same two programs without decoys, over pipes that hold exactly one packet. *)
Example C71_example : forall st,
  let oca := outbound (session_new sample_km Initiator) in
  let ocb := outbound (session_new sample_km Responder) in
  let sh := Shaper (Config Disabled Disabled) tt in
  let prog := [Say (genuine [x01]); Hear] in
  duplex_run (E := toy true) (R := high) 21
    (Duplex (side_new oca sh [] (SyncReader ocb (ChainReader [] false [])) prog)
            (side_new ocb sh [] (SyncReader oca (ChainReader [] false [])) prog) [] []) st ->
  (exists st' p q, duplex_run (E := toy true) (R := high) 21 st st' /\ is_done (left st') /\ is_done (right st') /\
     sd_heard (left st') = [Ok p] /\ seen p = (Genuine, [x01]) /\ sd_heard (right st') = [Ok q] /\ seen q = (Genuine, [x01])) /\
  load (said prog) = 21 /\ concert prog prog 0 0 /\ ~ concert (List.rev prog) (List.rev prog) 0 0.
Proof.
  intros st oca ocb sh prog Run. split; [|split; [reflexivity|split]].
  - destruct (C71_unshaped (toy true) (toy_laws true) unit high oca ocb sh sh [] []
      (SyncReader ocb (ChainReader [] false [])) (SyncReader oca (ChainReader [] false [])) prog prog 0 0 21 st)
      as (st' & la & lb & R1 & D1 & D2 & Ha & Sa & Hb & Sb); try reflexivity; try assumption; try apply session_counted;
      try (intros _; vm_compute; reflexivity).
    + constructor; [split; [eexists; reflexivity|vm_compute; discriminate]|].
      constructor; [split; [eexists; reflexivity|vm_compute; discriminate]|constructor].
    + apply left_says, right_says, left_hears, right_hears, concert_end.
    + destruct la as [|p [|? ?]]; try discriminate. destruct lb as [|q [|? ?]]; try discriminate.
      apply (f_equal (hd (seen p))) in Sa. apply (f_equal (hd (seen q))) in Sb. exists st', p, q. auto 10.
  - apply left_says, right_says, left_hears, right_hears, concert_end.
  - intros C. inversion C.
Qed.
