(** * EndpointProofs: both drivers, two endpoints, oversized packets, lost parts of packets *)
From Coq Require Import List NArith Bool Lia ZArith.
From Coq.Strings Require Import Byte.
From Coq Require Import ZifyBool ZifyNat ZifyN.
From Verif Require Import Base BaseFacts Env FsChacha Spec FsChachaProofs Cipher CipherFacts
  Histories CipherProofs Handshake SpecHandshake HsDriver HandshakeProofs HsRunProofs
  Transport Io SpecIo Futures Sessions TransportProofs NoFuel IoProofs FuturesProofs IoRunProofs
  SessionProofs.
Import ListNotations.
Local Open Scope N_scope.

(** ** Writers that are never interrupted *)

Lemma write_script_flavor : forall s bs,
  Forall (fun ev => ev <> WFail Interrupted) s ->
  write_script Sync s bs = write_script Tokio s bs /\
  forall r s' out, write_script Tokio s bs = (r, s', out) ->
    Forall (fun ev => ev <> WFail Interrupted) s'.
Proof.
  induction s as [|ev s IH]; intros bs H; destruct bs as [|b bs]; cbn [write_script].
  - split; [reflexivity|]. intros ? ? ? Q; now injection Q as <- <- <-.
  - split; [reflexivity|]. intros ? ? ? Q; now injection Q as <- <- <-.
  - split; [reflexivity|]. intros ? ? ? Q; now injection Q as <- <- <-.
  - inversion H as [|? ? H1 H2]; subst. destruct ev as [n|k|].
    + destruct (n =? 0). { split; [reflexivity|]. intros ? ? ? Q; now injection Q as <- <- <-. }
      destruct (len (b :: bs) <=? n). { split; [reflexivity|]. intros ? ? ? Q; now injection Q as <- <- <-. }
      destruct (IH (drop n (b :: bs)) H2) as [-> IH2]. split; [reflexivity|].
      destruct (write_script Tokio s (drop n (b :: bs))) as [[r0 s0] o0]. intros ? ? ? Q.
      injection Q as <- <- <-. eapply IH2; reflexivity.
    + split; [|destruct k; intros ? ? ? Q; now injection Q as <- <- <-].
      destruct k; try reflexivity. now contradict H1.
    + apply IH. assumption.
Qed.

Lemma write_flush_flavor w bs :
  uninterrupted w ->
  write_flush Sync w bs = write_flush Tokio w bs /\
  uninterrupted (snd (write_flush Tokio w bs)).
Proof.
  intros H. unfold write_flush, write_all. destruct (write_script_flavor (w_script w) bs H) as [-> Q].
  destruct (write_script Tokio (w_script w) bs) as [[r s'] out]. specialize (Q _ _ _ eq_refl).
  split; [reflexivity|]. destruct r as [[]|k]; [|exact Q].
  unfold flush. cbn [flushes]. destruct (flush_script (flushes w)) as [x f]. exact Q.
Qed.

Section WithLaws.
Context {E : Env} {EL : EnvLaws E}.

Lemma pure_handshake_flavor magic r rnd g d c e w :
  uninterrupted w ->
  pure_handshake Sync magic r rnd g d c e w = pure_handshake Tokio magic r rnd g d c e w.
Proof.
  intros H. unfold pure_handshake. destruct (hs_new magic r rnd) as [[h|y]| |]; [|reflexivity..]. cbn [bind].
  unfold pure_hs. destruct (send_key h g _) as [[[h1|y] kb]| |]; [|reflexivity..]. cbn [bind].
  destruct (write_flush_flavor w kb H) as [-> U]. destruct (write_flush Tokio w kb) as [[[]|k] w1]; [|reflexivity].
  cbn [snd] in U. destruct (len c <? 64); [reflexivity|].
  destruct (receive_key h1 _) as [[h2|y]| |]; [|reflexivity..]. cbn [bind].
  destruct (send_version h2 _ _) as [[[h3|y] vb]| |]; [|reflexivity..]. cbn [bind].
  destruct (write_flush_flavor w1 vb U) as [-> _]. reflexivity.
Qed.

(** ** What the handshake writes *)

Lemma pure_handshake_writes fl magic r rnd g d c e w x w' a h fa :
  healthy w -> party_start magic r rnd g = Ret (Ok (h, fa)) ->
  pure_handshake fl magic r rnd g d c e w = Ret (x, w', a) ->
  (len c < 64 -> written w' = written w ++ fa) /\
  (64 <= len c -> forall h' wa, party_key h (take 64 c) d = Ret (Ok (h', wa)) ->
     written w' = written w ++ fa ++ wa) /\
  (64 <= len c -> forall y, party_key h (take 64 c) d = Ret (Err y) -> written w' = written w ++ fa).
Proof.
  intros Hw Hs H. apply start_inv in Hs. destruct Hs as (h0 & N & SK).
  unfold pure_handshake, pure_hs in H. rewrite N in H. cbn [bind] in H. rewrite SK in H. cbn [bind] in H.
  destruct (write_flush_healthy fl w fa Hw) as (w1 & W1 & Hw1 & Hwr1). rewrite W1 in H.
  split; [|split].
  - intros L. rewrite (proj2 (N.ltb_lt _ _) L) in H. injection H as <- <- <-. assumption.
  - intros L h' wa K. apply key_inv in K. destruct K as (h2 & RK & SV).
    rewrite (proj2 (N.ltb_ge _ _) L), RK in H. cbn [bind] in H. rewrite SV in H. cbn [bind] in H.
    destruct (write_flush_healthy fl w1 wa Hw1) as (w2 & W2 & Hw2 & Hwr2). rewrite W2 in H.
    cbn zeta in H.
    assert (w' = w2) as ->.
    { destruct (len (drop 64 c) <? 16); [now injection H as <- <- <-|].
      apply bind_ret_inv in H. destruct H as ([[h4 n|h4]|y] & _ & H); try now injection H as <- <- <-.
      apply bind_ret_inv in H. destruct H as ([z b] & _ & H). now injection H as <- <- <-. }
    now rewrite Hwr2, Hwr1, app_assoc.
  - intros L y K. rewrite (proj2 (N.ltb_ge _ _) L) in H. unfold party_key in K.
    apply bind_ret_inv in K. destruct K as ([h2|y'] & RK & K).
    + rewrite RK in H. cbn [bind] in H.
      apply bind_ret_inv in K. destruct K as ([[h3|y'] vb] & SV & K); [discriminate|].
      rewrite SV in H. cbn [bind] in H. injection H as <- <- <-. assumption.
    + rewrite RK in H. cbn [bind] in H. injection H as <- <- <-. assumption.
Qed.

(** The first flight is written before anything is read. *)
Lemma pure_handshake_first fl magic r rnd g d c e w x w' a h fa :
  healthy w -> party_start magic r rnd g = Ret (Ok (h, fa)) ->
  pure_handshake fl magic r rnd g d c e w = Ret (x, w', a) ->
  exists more, written w' = written w ++ fa ++ more.
Proof.
  intros Hw Hs H. apply start_inv in Hs. destruct Hs as (h0 & N & SK).
  unfold pure_handshake, pure_hs in H. rewrite N in H. cbn [bind] in H. rewrite SK in H. cbn [bind] in H.
  destruct (write_flush_healthy fl w fa Hw) as (w1 & W1 & Hw1 & Hwr1). rewrite W1 in H.
  assert (exists more, written w' = written w1 ++ more) as (more & ->).
  2:{ exists more. now rewrite Hwr1, app_assoc. }
  destruct (len c <? 64); [injection H as <- <- <-; exists []; now rewrite app_nil_r|].
  apply bind_ret_inv in H. destruct H as ([h2|y] & _ & H); [|injection H as <- <- <-; exists []; now rewrite app_nil_r].
  apply bind_ret_inv in H. destruct H as ([[h3|y] vb] & _ & H);
    [|injection H as <- <- <-; exists []; now rewrite app_nil_r].
  destruct (write_flush fl w1 vb) as [z w2] eqn:W2. apply write_flush_prefix in W2.
  destruct W2 as [(n & W2) _].
  assert (w' = w2) as ->; [|eauto].
  destruct z as [[]|k]; [|now injection H as <- <- <-]. cbn zeta in H.
  destruct (len (drop 64 c) <? 16); [now injection H as <- <- <-|].
  apply bind_ret_inv in H. destruct H as ([[h4 m|h4]|y] & _ & H); try now injection H as <- <- <-.
  apply bind_ret_inv in H. destruct H as ([z b] & _ & H). now injection H as <- <- <-.
Qed.

Lemma view_ret fl magic r rnd g d s w c e o :
  len magic = 4 -> flatten fl s = (c, e) -> calm fl s ->
  io_handshake fl magic r rnd g d s w = Ret o ->
  pure_handshake fl magic r rnd g d c e w = Ret (hs_view fl o).
Proof.
  intros Hm F C H. pose proof (handshake_stream fl magic r rnd g d s w c e Hm F C) as Q.
  rewrite H in Q. cbn [run_map bind] in Q. now symmetry.
Qed.

Lemma ret_view fl magic r rnd g d s w c e v :
  len magic = 4 -> flatten fl s = (c, e) -> calm fl s ->
  pure_handshake fl magic r rnd g d c e w = Ret v ->
  exists o, io_handshake fl magic r rnd g d s w = Ret o /\ hs_view fl o = v.
Proof.
  intros Hm F C H. pose proof (handshake_stream fl magic r rnd g d s w c e Hm F C) as Q.
  rewrite H in Q. destruct (io_handshake fl magic r rnd g d s w) as [o| |]; try discriminate.
  cbn [run_map bind] in Q. injection Q as Q. eauto.
Qed.

Lemma view_ok fl o i oc rest e w a :
  hs_view fl o = (Ok (i, oc, (rest, e)), w, a) ->
  exists sr, ho_result o = Ok (i, oc, sr) /\ session_stream fl sr = (rest, e) /\ ho_writer o = w /\
    ho_allocs o = a.
Proof.
  unfold hs_view. intros H. injection H as H <- <-.
  destruct (ho_result o) as [[[i' o'] sr]|]; cbn [stream_view] in H; [|discriminate].
  injection H as <- <- H. eauto.
Qed.

(** ** Two endpoints *)

(** After its handshake a reader stands at the beginning of a packet. *)
Lemma established_at fl c sr wire e magic r rnd g d s w o i oc :
  io_handshake fl magic r rnd g d s w = Ret o -> ho_result o = Ok (i, oc, sr) ->
  session_stream fl sr = (wire, e) -> at_packet (established fl c sr) c wire e.
Proof.
  intros H R S. destruct fl; cbn [established at_packet].
  - split; [reflexivity|assumption].
  - assert (exists l pos s', sr = TokioReader l pos s') as Sh.
    { clear S. unfold io_handshake in H. apply bind_ret_inv in H. destruct H as ([h|y] & _ & H).
      2:{ injection H as <-. discriminate. }
      unfold io_handshake_with in H.
      apply bind_ret_inv in H. destruct H as ([[h1|y] kb] & _ & H); [|injection H as <-; discriminate].
      destruct (write_flush Tokio w kb) as [[[]|k] w1]; [|injection H as <-; discriminate].
      destruct (read_exact Tokio s _ _) as [[their|k] s1]; [|injection H as <-; discriminate].
      apply bind_ret_inv in H. destruct H as ([h2|y] & _ & H); [|injection H as <-; discriminate].
      apply bind_ret_inv in H. destruct H as ([[h3|y] vb] & _ & H); [|injection H as <-; discriminate].
      destruct (write_flush Tokio w1 vb) as [[[]|k] w2]; [|injection H as <-; discriminate].
      destruct (read_exact Tokio s1 _ _) as [[gb|k] s2]; [|injection H as <-; discriminate].
      apply bind_ret_inv in H. destruct H as ([[x s3] reads] & _ & H).
      destruct x as [[[h4 consumed] gb']|y]; [|injection H as <-; discriminate].
      apply bind_ret_inv in H. destruct H as (lo & _ & H). cbn zeta in H.
      apply bind_ret_inv in H. destruct H as ([x a] & V & H). injection H as <-. cbn [ho_result] in R. subst x.
      cbn [session_reader] in V. clear -V. revert V.
      generalize (S (length (session_content (TokioReader lo 0 s3)))) as f.
      assert (exists l pos s', TokioReader lo 0 s3 = TokioReader l pos s') as Sh by eauto. revert Sh.
      generalize (TokioReader lo 0 s3) as sr0. generalize (@nil N) as al. revert h4.
      assert (Sx : forall sr0 n, (exists l pos s', sr0 = TokioReader l pos s') ->
        forall x sr1, session_read_exact Tokio sr0 n = (x, sr1) -> exists l pos s', sr1 = TokioReader l pos s').
      { intros sr0 n (l & pos & s' & ->) x sr1. cbn [session_read_exact].
        destruct (n <=? len (drop pos l)); [intros Q; injection Q as <- <-; eauto|].
        destruct (read_exact Tokio s' _ _) as [y s'']. intros Q; injection Q as <- <-; eauto. }
      intros h4 al sr0 Sh f. revert h4 al sr0 Sh.
      induction f as [|f IH]; intros h4 al sr0 Sh V; [discriminate|]. cbn [version_loop] in V.
      destruct (session_read_exact Tokio sr0 _) as [[lb|k] sr1] eqn:R1; [|discriminate].
      apply Sx in R1; [|assumption].
      apply bind_ret_inv in V. destruct V as ([n h5] & _ & V).
      destruct (_ <? n); [discriminate|].
      destruct (session_read_exact Tokio sr1 _) as [[pb|k] sr2] eqn:R2; [|discriminate].
      apply Sx in R2; [|assumption].
      apply bind_ret_inv in V. destruct V as ([[[c|h6]|y] b] & _ & V).
      - destruct (into_split c) as [i' o']. injection V as _ _ <- _. assumption.
      - eapply IH; eassumption.
      - discriminate. }
    split; [exact Sh|]. exists wire. cbn [tr_reader tr_state init_reading_length tr_cipher].
    split; [assumption|]. change NUM_LENGTH_BYTES with 3. rewrite len_zeros.
    split; [reflexivity|]. split; [lia|]. split; reflexivity.
Qed.

Lemma at_packet_end r c e : at_packet r c [] e -> reader_stream r = ([], e).
Proof.
  destruct r as [r|r]; cbn [at_packet reader_stream]; [now intros []|].
  intros (_ & rest & -> & H). destruct (tr_state r) as [lb n|pb n].
  - destruct H as (_ & _ & _ & H). symmetry in H. apply app_eq_nil in H. destruct H as [_ ->]. reflexivity.
  - destruct H as (lb & L & _ & _ & H). symmetry in H. apply app_eq_nil in H. destruct H as [-> _].
    rewrite len_nil in L. discriminate.
Qed.

Lemma connect_handshake fl magic r rnd g d s w :
  connect fl magic r rnd g d s w =
  let! o := io_handshake fl magic r rnd g d s w in
  Ret match ho_result o with
      | Ok (i, oc, sr) => Ok (established fl i sr, PWriter oc (ho_writer o))
      | Err e => Err e
      end.
Proof.
  destruct fl; cbn [connect]; unfold protocol_new, tokio_protocol_new;
    destruct (io_handshake _ magic r rnd g d s w) as [o| |]; cbn [bind]; try reflexivity;
    destruct (ho_result o) as [[[i oc] sr]|]; reflexivity.
Qed.

(** One side of a connection. *)
Lemma one_side fl magic r rnd g d s w e h fa c h' wa ic rest ps :
  len magic = 4 -> healthy w ->
  party_start magic r rnd g = Ret (Ok (h, fa)) -> 64 <= len c ->
  party_key h (take 64 c) d = Ret (Ok (h', wa)) ->
  completes h' (drop 64 c) ic rest ->
  flatten fl s = (c, e) -> calm fl s ->
  exists rd wr, connect fl magic r rnd g d s w = Ret (Ok (rd, wr)) /\
    reader_flavor rd = fl /\ at_packet rd ic rest e /\
    pw_cipher wr = outbound (sv_cipher (hs_state h')) /\ healthy (pw_writer wr) /\
    written (pw_writer wr) = written w ++ fa ++ wa /\
    (forall pk c', send_all (pw_cipher wr) (map as_msg ps) = Ret (pk, c') -> exists wr',
       write_many fl wr (map payload_of ps) = Ret (map (fun _ => Ok tt) ps, wr') /\
       written (pw_writer wr') = written w ++ (fa ++ wa) ++ List.concat pk).
Proof.
  intros Hm Hw Hs L Hk Q F C.
  destruct (pure_handshake_complete fl magic r rnd g d c e w ic rest h fa h' wa Hm Hw Hs L Hk Q)
    as (w' & a & Hw' & P).
  pose proof (pure_handshake_ok fl magic r rnd g d c e w _ _ _ _ _ _ Hm P) as (_ & h0 & fa0 & h0' & wa0 & S0 & _ & K0 & _ & _ & Wr).
  rewrite Hs in S0. injection S0 as <- <-. rewrite Hk in K0. injection K0 as <- <-.
  destruct (ret_view fl magic r rnd g d s w c e _ Hm F C P) as (o & H & V).
  destruct (view_ok fl o _ _ _ _ _ _ V) as (sr & R & S & Wo & _).
  exists (established fl ic sr), (PWriter (outbound (sv_cipher (hs_state h'))) (ho_writer o)).
  rewrite connect_handshake, H. cbn [bind]. rewrite R. cbn [pw_cipher pw_writer].
  split; [reflexivity|]. split; [destruct fl; reflexivity|].
  split; [eapply established_at; eassumption|]. split; [reflexivity|].
  rewrite Wo. split; [assumption|]. split; [assumption|].
  intros pk c' Sa.
  destruct (write_many_healthy fl ps (PWriter (outbound (sv_cipher (hs_state h'))) w') pk c') as (wr' & W & _ & _ & Ww);
    [assumption|assumption|]. exists wr'. split; [assumption|]. rewrite Ww. cbn [pw_writer].
  rewrite Wr, <- !app_assoc. reflexivity.
Qed.

Lemma recv_sent_msgs ps c pk c' :
  Forall (fun p => len (snd p) < 2 ^ 24) ps ->
  send_all c (map as_msg ps) = Ret (pk, c') ->
  recv_all c (repeat None (length ps)) (List.concat pk) = Ret (Some ps, c', []).
Proof.
  intros H S. pose proof (recv_all_sent (map as_msg ps) c pk c' []) as Q. rewrite app_nil_r in Q.
  rewrite map_map in Q. assert (map (fun x => m_aad (as_msg x)) ps = repeat None (length ps)) as A.
  { clear. induction ps as [|p ps IH]; [reflexivity|]. cbn [map length repeat as_msg m_aad]. now f_equal. }
  rewrite A in Q. rewrite Q; [|clear -H|exact S].
  - rewrite map_map. do 4 f_equal. rewrite <- (map_id ps) at 2. apply map_ext. now intros [t x].
  - apply Forall_forall. intros m Hm. apply in_map_iff in Hm. destruct Hm as (p & <- & Hp).
    rewrite Forall_forall in H. now apply H.
Qed.

Lemma readable_24 fl p : readable fl p -> len (snd p) < 2 ^ 24.
Proof. destruct fl; cbn [readable]; change (2 ^ 24) with 16777216; lia. Qed.

Theorem two_endpoints magic ska skb ga gb da db psa psb :
  EcdhAgrees E -> len magic = 4 ->
  sk_valid ska = true -> sk_valid skb = true ->
  (debug_assertions = true -> ska <> zeros 32 /\ skb <> zeros 32) ->
  len (garbage_bytes ga) <= 4095 -> len (garbage_bytes gb) <= 4095 ->
  Forall (fun d => len d + 17 <= 4000014) (decoy_list da) ->
  Forall (fun d => len d + 17 <= 4000014) (decoy_list db) ->
  (overflow_checks = true ->
     len (decoy_list da) + 1 + len psa < 2 ^ 32 /\ len (decoy_list db) + 1 + len psb < 2 ^ 32) ->
  take 4 (ellswift_of ska) <> magic -> take 4 (ellswift_of skb) <> magic ->
  exists m outa outb pka pkb,
    keys_from (bip_prk magic (bip_secret (ellswift_of ska) (ellswift_of skb) ska PartyA)) m /\
    (first_at (initiator_garbage_terminator m)
       (garbage_bytes ga ++ initiator_garbage_terminator m) (len (garbage_bytes ga)) ->
     first_at (responder_garbage_terminator m)
       (garbage_bytes gb ++ responder_garbage_terminator m) (len (garbage_bytes gb)) ->
     forall fla flb sa sb wa wb ea eb,
       flatten fla sa = (outb ++ pkb, ea) -> flatten flb sb = (outa ++ pka, eb) ->
       calm fla sa -> calm flb sb -> healthy wa -> healthy wb ->
       Forall (readable flb) psa -> Forall (readable fla) psb ->
       exists ra pa rb pb pa' pb' qa qb ra' rb',
         connect fla magic Initiator ska ga da sa wa = Ret (Ok (ra, pa)) /\
         connect flb magic Responder skb gb db sb wb = Ret (Ok (rb, pb)) /\
         written (pw_writer pa) = written wa ++ outa /\
         written (pw_writer pb) = written wb ++ outb /\
         write_many fla pa (map payload_of psa) = Ret (map (fun _ => Ok tt) psa, pa') /\
         write_many flb pb (map payload_of psb) = Ret (map (fun _ => Ok tt) psb, pb') /\
         written (pw_writer pa') = written wa ++ outa ++ pka /\
         written (pw_writer pb') = written wb ++ outb ++ pkb /\
         read_many (length psa) rb = Ret (map Ok qa, rb') /\ map payload_view qa = map Ret psa /\
         read_many (length psb) ra = Ret (map Ok qb, ra') /\ map payload_view qb = map Ret psb /\
         reader_stream ra' = ([], ea) /\ reader_stream rb' = ([], eb)).
Proof.
  intros EA Hm Va Vb Hz Hga Hgb Hda Hdb Ho Ma Mb.
  destruct (endpoints magic ska skb ga gb da db EA Hm Va Vb Hz Hga Hgb Hda Hdb) as
    (ha & fa & hb & fb & ha' & va & hb' & vb & m & oca & ocb & Sa & Sb & [La Lb] & Ka & Kb & KF & Oa & Ob & Ca & Cb & Fin);
    try assumption.
  { intros Q. specialize (Ho Q). lia. }
  destruct (send_all_ret (map as_msg psa) _ _ Ca) as (pka & oca' & Pa & _).
  { unfold len in *. rewrite map_length. intros Q. specialize (Ho Q). lia. }
  destruct (send_all_ret (map as_msg psb) _ _ Cb) as (pkb & ocb' & Pb & _).
  { unfold len in *. rewrite map_length. intros Q. specialize (Ho Q). lia. }
  exists m, (fa ++ va), (fb ++ vb), (List.concat pka), (List.concat pkb). split; [exact KF|].
  intros F1 F2 fla flb sa sb wa wb ea eb Fa Fb CLa CLb Hwa Hwb Ra Rb.
  destruct (Fin F1 F2 (List.concat pkb) (List.concat pka)) as [Qa Qb].
  assert (T : forall f v p : bytes, 64 <= len f -> take 64 ((f ++ v) ++ p) = take 64 f /\
     drop 64 ((f ++ v) ++ p) = drop 64 f ++ v ++ p /\ 64 <= len ((f ++ v) ++ p)).
  { intros f v p Lf. rewrite <- app_assoc. rewrite take_app_le, drop_app_le by assumption.
    rewrite len_app. repeat split; try reflexivity. lia. }
  destruct (T fb vb (List.concat pkb) Lb) as (T1 & T2 & T3).
  destruct (T fa va (List.concat pka) La) as (T4 & T5 & T6).
  rewrite <- T2 in Qa. rewrite <- T5 in Qb. rewrite <- T1 in Ka. rewrite <- T4 in Kb.
  destruct (one_side fla magic Initiator ska ga da sa wa ea ha fa _ ha' va ocb _ psa
              Hm Hwa Sa T3 Ka Qa Fa CLa) as (ra & pa & X1 & X2 & X3 & X4 & X5 & X6 & X7).
  destruct (one_side flb magic Responder skb gb db sb wb eb hb fb _ hb' vb oca _ psb
              Hm Hwb Sb T6 Kb Qb Fb CLb) as (rb & pb & Y1 & Y2 & Y3 & Y4 & Y5 & Y6 & Y7).
  rewrite Oa in X4. rewrite Ob in Y4. rewrite <- X4 in Pa. rewrite <- Y4 in Pb.
  destruct (X7 _ _ Pa) as (pa' & Wa & Wwa). destruct (Y7 _ _ Pb) as (pb' & Wb & Wwb).
  rewrite X4 in Pa. rewrite Y4 in Pb.
  assert (Forall (fun p => len (snd p) < 2 ^ 24) psa) as Sza by (eapply Forall_impl; [|exact Ra]; apply readable_24).
  assert (Forall (fun p => len (snd p) < 2 ^ 24) psb) as Szb by (eapply Forall_impl; [|exact Rb]; apply readable_24).
  pose proof (recv_sent_msgs psa oca pka oca' Sza Pa) as Rca.
  pose proof (recv_sent_msgs psb ocb pkb ocb' Szb Pb) as Rcb.
  rewrite <- X2 in Rb. rewrite <- Y2 in Ra.
  destruct (read_many_packets psb ra ocb _ ea ocb' [] _ X3 Cb) as (qb & ra' & Z1 & Z2 & Z3); try assumption.
  { intros Q. specialize (Ho Q). lia. }
  destruct (read_many_packets psa rb oca _ eb oca' [] _ Y3 Ca) as (qa & rb' & Z4 & Z5 & Z6); try assumption.
  { intros Q. specialize (Ho Q). lia. }
  exists ra, pa, rb, pb, pa', pb', qa, qb, ra', rb'.
  apply at_packet_end in Z3. apply at_packet_end in Z6.
  repeat split; assumption.
Qed.

(** ** No deadlock *)

Theorem no_deadlock magic ska skb ga gb da db :
  EcdhAgrees E -> len magic = 4 ->
  sk_valid ska = true -> sk_valid skb = true ->
  (debug_assertions = true -> ska <> zeros 32 /\ skb <> zeros 32) ->
  len (garbage_bytes ga) <= 4095 -> len (garbage_bytes gb) <= 4095 ->
  Forall (fun d => len d + 17 <= 4000014) (decoy_list da) ->
  Forall (fun d => len d + 17 <= 4000014) (decoy_list db) ->
  (overflow_checks = true -> len (decoy_list da) + 1 < 2 ^ 32 /\ len (decoy_list db) + 1 < 2 ^ 32) ->
  take 4 (ellswift_of ska) <> magic -> take 4 (ellswift_of skb) <> magic ->
  exists m,
    keys_from (bip_prk magic (bip_secret (ellswift_of ska) (ellswift_of skb) ska PartyA)) m /\
    (first_at (initiator_garbage_terminator m)
       (garbage_bytes ga ++ initiator_garbage_terminator m) (len (garbage_bytes ga)) ->
     first_at (responder_garbage_terminator m)
       (garbage_bytes gb ++ responder_garbage_terminator m) (len (garbage_bytes gb)) ->
     forall fla flb sa sb wa wb oa ob,
       calm fla sa -> calm flb sb -> healthy wa -> healthy wb -> written wa = [] -> written wb = [] ->
       io_handshake fla magic Initiator ska ga da sa wa = Ret oa ->
       io_handshake flb magic Responder skb gb db sb wb = Ret ob ->
       fst (flatten fla sa) = written (ho_writer ob) ->
       fst (flatten flb sb) = written (ho_writer oa) ->
       exists ia oca sra ib ocb srb,
         ho_result oa = Ok (ia, oca, sra) /\ ho_result ob = Ok (ib, ocb, srb) /\ ia = ocb /\ ib = oca).
Proof.
  intros EA Hm Va Vb Hz Hga Hgb Hda Hdb Ho Ma Mb.
  destruct (endpoints magic ska skb ga gb da db EA Hm Va Vb Hz Hga Hgb Hda Hdb) as
    (ha & fa & hb & fb & ha' & va & hb' & vb & m & oca & ocb & Sa & Sb & [La Lb] & Ka & Kb & KF & Oa & Ob & Ca & Cb & Fin);
    try assumption.
  exists m. split; [exact KF|].
  intros F1 F2 fla flb sa sb wa wb oa ob CLa CLb Hwa Hwb Wa Wb Ha Hb Ea Eb.
  destruct (Fin F1 F2 [] []) as [Qa Qb]. rewrite app_nil_r in Qa, Qb.
  destruct (flatten fla sa) as [ca ea] eqn:Fa. destruct (flatten flb sb) as [cb eb] eqn:Fb.
  cbn [fst] in Ea, Eb.
  pose proof (view_ret _ _ _ _ _ _ _ _ _ _ _ Hm Fa CLa Ha) as Pa.
  pose proof (view_ret _ _ _ _ _ _ _ _ _ _ _ Hm Fb CLb Hb) as Pb.
  unfold hs_view in Pa, Pb.
  destruct (pure_handshake_writes _ _ _ _ _ _ _ _ _ _ _ _ _ _ Hwa Sa Pa) as (A1 & A2 & A3).
  destruct (pure_handshake_writes _ _ _ _ _ _ _ _ _ _ _ _ _ _ Hwb Sb Pb) as (B1 & B2 & B3).
  rewrite Wa in A1, A2, A3. rewrite Wb in B1, B2, B3. cbn [app] in *. rewrite <- Ea in B1, B2, B3. rewrite <- Eb in A1, A2, A3.
  destruct (pure_handshake_first _ _ _ _ _ _ _ _ _ _ _ _ _ _ Hwa Sa Pa) as (ma & Na).
  destruct (pure_handshake_first _ _ _ _ _ _ _ _ _ _ _ _ _ _ Hwb Sb Pb) as (mb & Nb).
  rewrite Wa, <- Eb in Na. rewrite Wb, <- Ea in Nb. cbn [app] in Na, Nb.
  assert (take 64 ca = take 64 fb /\ 64 <= len ca) as [T1 L1]
    by (rewrite Nb, take_app_le, len_app by assumption; split; [reflexivity|lia]).
  assert (take 64 cb = take 64 fa /\ 64 <= len cb) as [T2 L2]
    by (rewrite Na, take_app_le, len_app by assumption; split; [reflexivity|lia]).
  rewrite <- T1 in Ka. rewrite <- T2 in Kb.
  specialize (A2 L1 _ _ Ka). specialize (B2 L2 _ _ Kb).
  assert (drop 64 ca = drop 64 fb ++ vb) as D1 by (rewrite B2; now apply drop_app_le).
  assert (drop 64 cb = drop 64 fa ++ va) as D2 by (rewrite A2; now apply drop_app_le).
  rewrite <- D1 in Qa. rewrite <- D2 in Qb.
  destruct (pure_handshake_complete fla magic Initiator ska ga da ca ea wa _ _ _ _ _ _ Hm Hwa Sa L1 Ka Qa)
    as (w1 & a1 & _ & P1).
  destruct (pure_handshake_complete flb magic Responder skb gb db cb eb wb _ _ _ _ _ _ Hm Hwb Sb L2 Kb Qb)
    as (w2 & a2 & _ & P2).
  rewrite P1 in Pa. rewrite P2 in Pb. injection Pa as Pa _ _. injection Pb as Pb _ _.
  destruct (ho_result oa) as [[[ia oc1] sra]|]; [|discriminate].
  destruct (ho_result ob) as [[[ib oc2] srb]|]; [|discriminate].
  cbn [stream_view] in Pa, Pb. injection Pa as <- <- _. injection Pb as <- <- _.
  do 6 eexists. split; [reflexivity|]. split; [reflexivity|]. split; congruence.
Qed.

(** ** Oversized packets in the handshake *)

Lemma pure_versions_decoys : forall ds fuel h wire e a c rest,
  recv_all (inbound (rg_cipher (hs_state h))) (first_aads (remote_garbage (hs_state h)) (length ds)) wire =
    Ret (Some ds, c, rest) ->
  Forall is_decoy_packet ds -> Forall fits ds ->
  exists g, pure_versions (length ds + fuel) h wire e a =
  pure_versions fuel (with_inbound h g c) rest e (a ++ map (fun p => len (snd p) + 17) ds).
Proof.
  induction ds as [|[t x] ds IH]; intros fuel h wire e a c rest R Hd Hf.
  - cbn [length first_aads recv_all Nat.add map] in *. injection R as <- <-. rewrite app_nil_r.
    exists (remote_garbage (hs_state h)). destruct h as [mg ro [[i ic oc] g]]. reflexivity.
  - inversion Hd as [|? ? D1 D2]; subst. inversion Hf as [|? ? S1 S2]; subst.
    unfold is_decoy_packet in D1. cbn [fst] in D1. subst t. unfold fits in S1. cbn [snd] in S1.
    cbn [length first_aads recv_all] in R.
    apply bind_ret_inv in R. destruct R as ([[[p|] c1] w1] & R1 & R); [|discriminate].
    apply bind_ret_inv in R. destruct R as ([[[l|] c2] w2] & R2 & R); [|discriminate].
    injection R as -> -> <- <-. cbn [length Nat.add].
    rewrite (pure_step _ _ _ _ _ _ _ _ _ R1).
    rewrite (proj2 (N.ltb_ge _ _)) by assumption.
    destruct (IH fuel (with_inbound h None c1) w1 e (a ++ [len x + 17]) c2 w2) as (g & Q); try assumption.
    { cbn [with_inbound hs_state rg_cipher inbound remote_garbage].
      replace (first_aads None (length ds)) with (repeat (@None bytes) (length ds)) by (destruct ds; reflexivity).
      exact R2. }
    exists g. rewrite Q. cbn [map snd]. rewrite <- app_assoc. reflexivity.
Qed.

Lemma pure_handshake_oversize fl magic r rnd g d e w h fa h' wa their ga packets ds ic lb n ic' more :
  len magic = 4 -> healthy w -> len their = 64 ->
  party_start magic r rnd g = Ret (Ok (h, fa)) ->
  party_key h their d = Ret (Ok (h', wa)) ->
  len ga <= 4095 ->
  first_at (remote_garbage_terminator (hs_state h')) (ga ++ remote_garbage_terminator (hs_state h')) (len ga) ->
  recv_all (inbound (sv_cipher (hs_state h'))) (first_aads (some_nonempty ga) (length ds)) packets =
    Ret (Some ds, ic, []) ->
  Forall is_decoy_packet ds -> Forall fits ds ->
  len lb = 3 -> decrypt_packet_len ic lb = Ret (n, ic') -> 4000014 < n ->
  exists w',
    pure_handshake fl magic r rnd g d
      (their ++ ga ++ remote_garbage_terminator (hs_state h') ++ packets ++ lb ++ more) e w =
    Ret (Err (Internal PacketTooBig), w', map (fun p => len (snd p) + 17) ds).
Proof.
  intros Hm Hw Lt Hs Hk Lg F R Hd Hf Ll D Hn. pose proof (start_magic _ _ _ _ _ _ Hs) as M.
  apply start_inv in Hs. destruct Hs as (h0 & N & SK).
  apply key_inv in Hk. destruct Hk as (h2 & RK & SV).
  assert (len (remote_garbage_terminator (hs_state h')) = 16) as Ht.
  { eapply received_terminator; [|exact Lt|exact RK|exact SV]. congruence. }
  set (t := remote_garbage_terminator (hs_state h')) in *.
  destruct (write_flush_healthy fl w fa Hw) as (w1 & W1 & Hw1 & _).
  destruct (write_flush_healthy fl w1 wa Hw1) as (w2 & W2 & Hw2 & _).
  exists w2. unfold pure_handshake, pure_hs. rewrite N. cbn [bind]. rewrite SK. cbn [bind]. rewrite W1.
  rewrite (proj2 (N.ltb_ge _ _)) by (rewrite len_app; lia).
  rewrite take_app_exact, drop_app_exact by lia.
  rewrite RK. cbn [bind]. rewrite SV. cbn [bind]. rewrite W2. cbn zeta.
  set (c := ga ++ t ++ packets ++ lb ++ more).
  assert (len c <? 16 = false) as -> by (unfold c; rewrite !len_app; lia).
  assert (first_at t c (len ga)) as F'.
  { unfold c. rewrite app_assoc. now apply first_at_app. }
  rewrite (receive_garbage_found h' c (len ga) Ht Lg F'). cbn [bind found].
  assert (take (len ga) c = ga) as -> by (apply take_app_exact; reflexivity).
  assert (drop (len ga + 16) c = packets ++ lb ++ more) as ->.
  { unfold c. rewrite app_assoc. apply drop_app_exact. rewrite len_app. lia. }
  match goal with |- context [pure_versions _ ?h _ _ _] => set (hh := h) end.
  assert (recv_all (inbound (rg_cipher (hs_state hh))) (first_aads (remote_garbage (hs_state hh)) (length ds))
            (packets ++ lb ++ more) = Ret (Some ds, ic, lb ++ more)) as R'.
  { exact (recv_all_frame _ _ _ _ _ _ (lb ++ more) R). }
  destruct (pure_versions_decoys ds (S (length (packets ++ lb ++ more))) hh _ e [] ic _ R' Hd Hf) as (g' & Q).
  rewrite (pure_versions_fuel _ (length ds + S (length (packets ++ lb ++ more)))) by lia.
  rewrite Q. cbn [pure_versions app].
  rewrite (proj2 (N.ltb_ge _ _)) by (rewrite len_app; lia).
  rewrite take_app_exact by lia. unfold hs_decrypt_packet_len.
  cbn [with_inbound hs_state rg_cipher inbound]. rewrite D. cbn [bind].
  change MAX_PACKET_SIZE_FOR_ALLOCATION with 4000014.
  rewrite (proj2 (N.ltb_lt _ _) Hn). reflexivity.
Qed.

(** ** No panic, whatever the transport does *)

Lemma version_loop_total fl : forall fuel h sr a k,
  (length (session_content sr) < fuel)%nat ->
  counted k (inbound (rg_cipher (hs_state h))) ->
  (overflow_checks = true -> 10 * k + len (session_content sr) + 20 < 10 * 2 ^ 32) ->
  exists x a', version_loop fuel fl h sr a = Ret (x, a').
Proof.
  change (2 ^ 32) with 4294967296.
  induction fuel as [|fuel IH]; intros h sr a k Hf Hc Ho; [lia|]. cbn [version_loop].
  destruct (session_read_exact fl sr _) as [[lb|kd] sr1] eqn:R1; [|eauto].
  apply session_read_exact_content in R1. destruct R1 as [R1 L1]. change NUM_LENGTH_BYTES with 3 in L1.
  assert (len (session_content sr) = 3 + len (session_content sr1)) as Q1 by (rewrite R1, len_app; lia).
  unfold hs_decrypt_packet_len.
  destruct (decrypt_len_ret k (inbound (rg_cipher (hs_state h))) lb L1 Hc) as (n & c' & D & Hc').
  { intros Q. specialize (Ho Q). change (2 ^ 32) with 4294967296. lia. }
  rewrite D. cbn [bind].
  destruct (_ <? n); [eauto|].
  destruct (session_read_exact fl sr1 _) as [[pb|kd] sr2] eqn:R2; [|eauto].
  apply session_read_exact_content in R2. destruct R2 as [R2 L2].
  assert (len (session_content sr1) = n + len (session_content sr2)) as Q2 by (rewrite R2, len_app; lia).
  apply packet_len_range in D; [|assumption].
  unfold receive_version. cbn [hs_state rg_cipher inbound remote_garbage].
  destruct (decrypt_in_place_ret (k + 1) c' pb (remote_garbage (hs_state h)) Hc') as (x & c2 & b & P & Hc2).
  { intros Q. specialize (Ho Q). change (2 ^ 32) with 4294967296. lia. }
  rewrite P. cbn [bind].
  destruct x as [[[|] pt]|y]; cbn [bind into_split]; [eauto| |eauto].
  apply (IH _ _ _ (k + 2)).
  - unfold len in *. lia.
  - cbn [hs_state rg_cipher inbound]. replace (k + 2) with (k + 1 + 1) by lia. assumption.
  - intros Q. specialize (Ho Q). lia.
Qed.

(** The garbage loop takes its buffer from the transport. *)
Lemma garbage_loop_content h : forall fuel buf s reads h' n buf' s' r,
  len (remote_garbage_terminator (hs_state h)) = 16 ->
  garbage_loop fuel h buf s reads = Ret (Ok (h', n, buf'), s', r) ->
  n <= len buf' /\ buf ++ content s = buf' ++ content s' /\
  inbound (rg_cipher (hs_state h')) = inbound (sv_cipher (hs_state h)).
Proof.
  induction fuel as [|fuel IH]; intros buf s reads h' n buf' s' r Ht H; [discriminate|].
  cbn [garbage_loop] in H.
  destruct (receive_garbage_cases h buf Ht) as [(i & Hi & Fi & K)|[(_ & L & K)|(_ & L & K)]];
    rewrite K in H; cbn [bind found] in H.
  - injection H as <- <- <- <- <-. split; [|split; reflexivity].
    destruct Fi as [[Fi _] _]. lia.
  - discriminate.
  - destruct (read s 256) as [[[|b bs]|k] s1] eqn:R; try discriminate.
    apply read_content in R. apply IH in H; [|assumption]. destruct H as (H1 & H2 & H3).
    split; [assumption|]. split; [|assumption]. rewrite R, app_assoc. assumption.
Qed.

Theorem io_no_panic fl magic r rnd g d s w :
  len magic = 4 -> sk_valid rnd = true -> (debug_assertions = true -> rnd <> zeros 32) ->
  (overflow_checks = true -> len (decoy_list d) + 1 < 2 ^ 32 /\ len (content s) < 2 ^ 35) ->
  exists o, io_handshake fl magic r rnd g d s w = Ret o.
Proof.
  intros Hm Hv Hz Ho. unfold io_handshake, hs_new.
  replace (debug_assertions && bytes_eqb rnd (zeros 32))%bool with false.
  2:{ destruct debug_assertions; [|reflexivity]. symmetry. apply bytes_eqb_neq. auto. }
  rewrite Hv. cbn [bind]. unfold io_handshake_with.
  set (h := Handshake magic r (Initialized (EcdhPoint rnd (ellswift_of rnd)))).
  destruct (send_key_contract h g (zeros (send_key_len g)) (ellswift_len rnd)) as (C1 & _ & C & L).
  destruct (N.le_gt_cases (len (garbage_bytes g)) 4095) as [Hg|Hg]; [|rewrite C1 by assumption; cbn [bind]; eauto].
  rewrite C by (rewrite ?L, ?len_zeros; lia). cbn [bind].
  match goal with |- context [write_flush fl w ?b] => destruct (write_flush fl w b) as [[[]|k] w1] end; [|eauto].
  destruct (read_exact fl s _ _) as [[their|k] s1] eqn:R1; [|eauto].
  apply read_exact_content in R1. destruct R1 as [R1 L1]. change NUM_ELLIGATOR_SWIFT_BYTES with 64 in L1.
  set (h1 := Handshake _ _ (SentKey _ g)). change (hs_magic h) with magic in h1. change (hs_role h) with r in h1.
  assert (exists x, party_key h1 their d = Ret x) as (x & PK).
  { destruct (no_panic_remote magic r (EcdhPoint rnd (ellswift_of rnd)) g d their [] Hm L1) as (x & K & _).
    { intros Q. split; [apply (Ho Q)|]. reflexivity. }
    eauto. }
  unfold party_key in PK.
  destruct (receive_key h1 their) as [[h2|y]| |] eqn:RK; cbn [bind] in *; try discriminate; [|eauto].
  destruct (send_version h2 _ d) as [[[h3|y] vb]| |] eqn:SV; cbn [bind] in *; try discriminate; [|eauto].
  assert (len (remote_garbage_terminator (hs_state h3)) = 16) as Ht
    by (apply (received_terminator h1 their h2 _ d h3 vb Hm L1 RK SV)).
  assert (counted 0 (inbound (sv_cipher (hs_state h3)))) as Hc0.
  { destruct (bytes_eq_dec (take 4 their) magic) as [V|V].
    - destruct (receive_key_v1 h1 their L1 Hm) as [[_ K] _]. rewrite (K V) in RK. discriminate.
    - destruct (key_ok magic r (EcdhPoint rnd (ellswift_of rnd)) g their d Hm L1 V (fun H => proj1 (Ho H)))
        as (m & ps & oc & _ & _ & K).
      unfold party_key in K. change (Handshake magic r (SentKey _ g)) with h1 in K. rewrite RK in K. cbn [bind] in K.
      rewrite SV in K. cbn [bind] in K. injection K as -> _. cbn [hs_state sv_cipher inbound].
      apply session_counted. }
  destruct (write_flush fl w1 vb) as [[[]|k] w2]; [|eauto].
  destruct (read_exact fl s1 _ _) as [[gb|k] s2] eqn:R2; [|eauto].
  apply read_exact_content in R2. destruct R2 as [R2 L2]. change NUM_GARBAGE_TERMINTOR_BYTES with 16 in L2.
  destruct (garbage_loop_reads h3 garbage_fuel gb s2 0 Ht) as (y & s3 & rd & G & _).
  { rewrite L2. unfold garbage_fuel. lia. }
  { unfold garbage_fuel. lia. }
  rewrite G. cbn [bind]. destruct y as [[[h4 n] gb']|y]; [|eauto].
  apply garbage_loop_content in G; [|assumption]. destruct G as (Ln & G & Hi).
  rewrite slice_ok by lia. cbn [bind]. cbn zeta.
  rewrite take_all by (rewrite len_drop; lia).
  set (sr := session_reader fl (drop n gb') s3).
  destruct (version_loop_total fl (S (length (session_content sr))) h4 sr [] 0) as (z & al & V).
  - lia.
  - rewrite Hi. assumption.
  - intros Q. destruct (Ho Q) as [_ Hs].
    assert (len (session_content sr) <= len (content s)) as Le.
    { assert (session_content sr = drop n gb' ++ content s3) as -> by (unfold sr; destruct fl; reflexivity).
      apply (f_equal len) in R1, R2, G. rewrite !len_app in *. rewrite len_drop. lia. }
    change (2 ^ 35) with 34359738368 in Hs. change (2 ^ 32) with 4294967296. lia.
  - rewrite V. cbn [bind]. eauto.
Qed.

(** ** No byte lost or invented, whatever the transport does *)

Lemma version_loop_content fl e : forall fuel h sr a i o sr' a',
  version_loop fuel fl h sr a = Ret (Ok (i, o, sr'), a') ->
  pure_versions fuel h (session_content sr) e a = Ret (Ok (i, o, (session_content sr', e)), a').
Proof.
  induction fuel as [|fuel IH]; intros h sr a i o sr' a' H; [discriminate|]. cbn [version_loop pure_versions] in *.
  destruct (session_read_exact fl sr _) as [[lb|kd] sr1] eqn:R1; [|discriminate].
  apply session_read_exact_content in R1. destruct R1 as [-> L1]. change NUM_LENGTH_BYTES with 3 in L1.
  rewrite (proj2 (N.ltb_ge _ _)) by (rewrite len_app; lia).
  rewrite take_app_exact, drop_app_exact by lia.
  apply bind_ret_inv in H. destruct H as ([n h1] & D & H). rewrite D. cbn [bind].
  destruct (_ <? n); [discriminate|].
  destruct (session_read_exact fl sr1 _) as [[pb|kd] sr2] eqn:R2; [|discriminate].
  apply session_read_exact_content in R2. destruct R2 as [-> L2].
  rewrite (proj2 (N.ltb_ge _ _)) by (rewrite len_app; lia).
  rewrite take_app_exact, drop_app_exact by lia.
  apply bind_ret_inv in H. destruct H as ([[[c|h2]|y] b] & V & H); rewrite V; cbn [bind].
  - unfold into_split in H. injection H as <- <- <- <-. reflexivity.
  - apply IH. assumption.
  - discriminate.
Qed.

Lemma garbage_loop_found h : forall fuel buf s reads h' n buf' s' r,
  len (remote_garbage_terminator (hs_state h)) = 16 ->
  garbage_loop fuel h buf s reads = Ret (Ok (h', n, buf'), s', r) ->
  receive_garbage h buf' = Ret (Ok (FoundGarbage h' n)).
Proof.
  induction fuel as [|fuel IH]; intros buf s reads h' n buf' s' r Ht H; [discriminate|].
  cbn [garbage_loop] in H.
  destruct (receive_garbage_cases h buf Ht) as [(i & Hi & Fi & K)|[(_ & L & K)|(_ & L & K)]];
    rewrite K in H; cbn [bind found] in H.
  - injection H as <- <- <- <- <-. exact K.
  - discriminate.
  - destruct (read s 256) as [[[|b bs]|k] s1] eqn:R; try discriminate.
    apply IH in H; assumption.
Qed.

Theorem handshake_content fl magic r rnd g d s w o i oc sr :
  len magic = 4 ->
  io_handshake fl magic r rnd g d s w = Ret o -> ho_result o = Ok (i, oc, sr) ->
  exists h fa h' wa their received,
    party_start magic r rnd g = Ret (Ok (h, fa)) /\ len their = 64 /\
    party_key h their d = Ret (Ok (h', wa)) /\
    content s = their ++ received /\
    completes h' received i (session_content sr) /\
    oc = outbound (sv_cipher (hs_state h')) /\
    written (ho_writer o) = written w ++ fa ++ wa.
Proof.
  intros Hm H R. unfold io_handshake in H.
  apply bind_ret_inv in H. destruct H as ([h|y] & N & H); [|injection H as <-; discriminate].
  pose proof (hs_new_magic _ _ _ _ N) as M. unfold io_handshake_with in H.
  apply bind_ret_inv in H. destruct H as ([[h1|y] fa] & SK & H); [|injection H as <-; discriminate].
  pose proof (send_key_magic _ _ _ _ _ SK) as M1.
  destruct (write_flush fl w fa) as [[[]|k] w1] eqn:W1; [|injection H as <-; discriminate].
  apply write_flush_prefix in W1. destruct W1 as [_ W1]. specialize (W1 eq_refl).
  destruct (read_exact fl s _ _) as [[their|k] s1] eqn:R1; [|injection H as <-; discriminate].
  apply read_exact_content in R1. destruct R1 as [R1 L1]. change NUM_ELLIGATOR_SWIFT_BYTES with 64 in L1.
  apply bind_ret_inv in H. destruct H as ([h2|y] & RK & H); [|injection H as <-; discriminate].
  apply bind_ret_inv in H. destruct H as ([[h3|y] wa] & SV & H); [|injection H as <-; discriminate].
  assert (len (remote_garbage_terminator (hs_state h3)) = 16) as Ht.
  { eapply received_terminator; [|exact L1|exact RK|exact SV]. congruence. }
  destruct (write_flush fl w1 wa) as [[[]|k] w2] eqn:W2; [|injection H as <-; discriminate].
  apply write_flush_prefix in W2. destruct W2 as [_ W2]. specialize (W2 eq_refl).
  destruct (read_exact fl s1 _ _) as [[gb|k] s2] eqn:R2; [|injection H as <-; discriminate].
  apply read_exact_content in R2. destruct R2 as [R2 L2].
  apply bind_ret_inv in H. destruct H as ([[x s3] rd] & G & H).
  destruct x as [[[h4 n] gb']|y]; [|injection H as <-; discriminate].
  pose proof (garbage_loop_found _ _ _ _ _ _ _ _ _ _ Ht G) as GF.
  apply garbage_loop_content in G; [|assumption]. destruct G as (Ln & G & _).
  apply bind_ret_inv in H. destruct H as (lo & Sl & H).
  rewrite slice_ok in Sl by lia. rewrite take_all in Sl by (rewrite len_drop; lia). injection Sl as <-.
  cbn zeta in H. apply bind_ret_inv in H. destruct H as ([x a] & V & H). injection H as <-.
  cbn [ho_result ho_writer] in *. subst x.
  exists h1, fa, h3, wa, their, (content s1).
  split; [apply start_inv; eauto|]. split; [assumption|]. split; [apply key_inv; eauto|]. split; [assumption|].
  apply (version_loop_content fl Closed) in V.
  assert (session_content (session_reader fl (drop n gb') s3) = drop n (content s1)) as Q.
  { rewrite R2, G, drop_app_le by assumption. destruct fl; reflexivity. }
  rewrite Q in V.
  apply (garbage_stable h3 gb' (content s3)) in GF; [|assumption|discriminate]. rewrite <- G, <- R2 in GF.
  destruct (finish_forward _ _ _ _ _ _ _ _ _ _ Ht GF V) as (_ & C & ->).
  split; [exact C|]. split; [reflexivity|]. now rewrite W2, W1, app_assoc.
Qed.

(** ** A synchronous read that fails inside a packet *)

Lemma is_ok_kind k : k <> Interrupted ->
  forall A (x y : A), match Sync, k with Sync, Interrupted => x | _, _ => y end = y.
Proof. destruct k; try reflexivity. contradiction. Qed.

Lemma read_exact_cut bs k s n acc :
  k <> Interrupted -> len bs < n -> bs <> [] ->
  read_exact Sync (Chunk bs :: Fail k :: s) n acc = (Err k, s).
Proof.
  intros Hk L Hb. cbn [read_exact]. rewrite (proj2 (N.eqb_neq _ _)) by lia.
  destruct bs as [|b bs]; [contradiction|].
  rewrite (proj2 (N.leb_le _ _)) by lia. rewrite (proj2 (N.eqb_neq _ _)) by lia.
  destruct k; try reflexivity. contradiction.
Qed.

Theorem sync_read_cut c bs k s :
  k <> Interrupted -> bs <> [] -> cut_short c bs ->
  (len bs < 3 -> sync_read (SyncReader c (ChainReader [] true (Chunk bs :: Fail k :: s))) =
     Ret (Err (from_io k), SyncReader c (ChainReader [] true s), None)) /\
  (3 <= len bs -> exists n c1, decrypt_packet_len c (take 3 bs) = Ret (n, c1) /\
     sync_read (SyncReader c (ChainReader [] true (Chunk bs :: Fail k :: s))) =
     Ret (Err (from_io k), SyncReader c1 (ChainReader [] true s), Some n)).
Proof.
  intros Hk Hb Cut. unfold sync_read. cbn [sr_cipher sr_reader session_read_exact].
  change NUM_LENGTH_BYTES with 3. split; intros L.
  - now rewrite read_exact_cut.
  - destruct Cut as [Cut|(n & c1 & D & Ln)]; [lia|]. exists n, c1. split; [assumption|].
    assert (17 <= n) as Hn by (apply packet_len_range in D; [lia|rewrite len_take; lia]).
    destruct (N.eq_dec (len bs) 3) as [E3|E3].
    + assert (read_exact Sync (Chunk bs :: Fail k :: s) 3 [] = (Ok bs, Fail k :: s)) as R.
      { cbn [read_exact]. change (3 =? 0) with false. destruct bs as [|b bs]; [contradiction|].
        rewrite (proj2 (N.leb_le _ _)) by lia. rewrite E3. reflexivity. }
      rewrite R. rewrite <- E3, take_all in D by lia. rewrite D. cbn [bind session_read_exact].
      cbn [read_exact]. rewrite (proj2 (N.eqb_neq _ _)) by lia.
      destruct k; try reflexivity. contradiction.
    + assert (read_exact Sync (Chunk bs :: Fail k :: s) 3 [] =
                (Ok (take 3 bs), Chunk (drop 3 bs) :: Fail k :: s)) as R.
      { cbn [read_exact]. change (3 =? 0) with false. destruct bs as [|b bs]; [contradiction|].
        rewrite (proj2 (N.leb_gt _ _)) by lia. reflexivity. }
      rewrite R, D. cbn [bind session_read_exact]. rewrite read_exact_cut; try assumption; [reflexivity|].
      intros Q. apply (f_equal len) in Q. rewrite len_drop, len_nil in Q. lia.
Qed.

(** ** Dropping a suspended write *)

Lemma poll_write_script_prefix : forall s rest x s' out rest',
  poll_write_script s rest = (x, s', out, rest') -> rest = out ++ rest' /\ (x = Ready (Ok tt) -> rest' = []).
Proof.
  induction s as [|ev s IH]; intros rest x s' out rest'; destruct rest as [|b rest]; cbn [poll_write_script].
  - intros Q; injection Q as <- <- <- <-. auto.
  - intros Q; injection Q as <- <- <- <-. rewrite app_nil_r. auto.
  - intros Q; injection Q as <- <- <- <-. auto.
  - destruct ev as [n|k|].
    + destruct (n =? 0). { intros Q; injection Q as <- <- <- <-. split; [reflexivity|discriminate]. }
      destruct (len (b :: rest) <=? n). { intros Q; injection Q as <- <- <- <-. rewrite app_nil_r. auto. }
      destruct (poll_write_script s (drop n (b :: rest))) as [[[y s0] o0] r0] eqn:P.
      intros Q; injection Q as <- <- <- <-. apply IH in P. destruct P as [P1 P2].
      split; [|assumption]. rewrite <- app_assoc, <- P1. symmetry. apply take_drop.
    + intros Q; injection Q as <- <- <- <-. split; [reflexivity|discriminate].
    + intros Q; injection Q as <- <- <- <-. split; [reflexivity|discriminate].
Qed.

Definition conv (x : result io_kind unit) : result perror unit :=
  match x with Ok _ => Ok tt | Err k => Err (from_io k) end.

Lemma polls_write_prefix : forall n f p x p',
  polls_write n f p = (x, p') ->
  let rest := match f with Writing r => r | Flushing => [] end in
  pw_cipher p' = pw_cipher p /\
  exists k, written (pw_writer p') = written (pw_writer p) ++ take k rest /\
    (x = Some (Ok tt) -> written (pw_writer p') = written (pw_writer p) ++ rest).
Proof.
  pose proof flush_written as Fl.
  induction n as [|n IH]; intros f p x p'; cbn [polls_write].
  - intros Q; injection Q as <- <-. split; [reflexivity|]. exists 0. rewrite take_0, app_nil_r.
    split; [reflexivity|discriminate].
  - unfold poll_write. destruct f as [rest|].
    + destruct (poll_write_script (w_script (pw_writer p)) rest) as [[[y s] out] rest'] eqn:P.
      apply poll_write_script_prefix in P. destruct P as [P1 P2].
      destruct y as [[[]|k]|].
      * specialize (P2 eq_refl). subst rest'. rewrite app_nil_r in P1. subst rest.
        assert (Fin : forall z w', flush (Writer s (flushes (pw_writer p)) (written (pw_writer p) ++ out)) = (z, w') ->
          (Some (conv z), PWriter (pw_cipher p) w') = (x, p') ->
          pw_cipher p' = pw_cipher p /\
          exists k, written (pw_writer p') = written (pw_writer p) ++ take k out /\
            (x = Some (Ok tt) -> written (pw_writer p') = written (pw_writer p) ++ out)).
        { intros z w' F. apply Fl in F. cbn [written] in F.
          intros Q; injection Q as <- <-. cbn [pw_cipher pw_writer]. split; [reflexivity|].
          exists (len out). rewrite take_all by lia. rewrite F. auto. }
        cbn [flushes w_script written]. revert Fin.
        destruct (flushes (pw_writer p)) as [|[|k|] fs]; intros Fin.
        4:{ intros Q. apply IH in Q. cbn [pw_cipher pw_writer written] in Q. destruct Q as (-> & k & Q1 & Q2).
            split; [reflexivity|]. exists (len out). rewrite take_all by lia.
            rewrite take_nil, app_nil_r in Q1. auto. }
        all: destruct (flush _) as [z w'] eqn:F; intros Q; exact (Fin z w' eq_refl Q).
      * intros Q; injection Q as <- <-. cbn [pw_cipher pw_writer written]. split; [reflexivity|].
        exists (len out). rewrite P1, take_app_exact by reflexivity. split; [reflexivity|discriminate].
      * intros Q. apply IH in Q. cbn [pw_cipher pw_writer written] in Q. destruct Q as (-> & k & Q1 & Q2).
        split; [reflexivity|]. exists (len out + k). rewrite P1. split.
        { rewrite Q1, <- app_assoc. f_equal. rewrite take_app_ge by lia. f_equal. f_equal. lia. }
        intros Qx. rewrite (Q2 Qx), <- app_assoc. reflexivity.
    + destruct (flushes (pw_writer p)) as [|[|k|] fs].
      4:{ intros Q. apply IH in Q. cbn [pw_cipher pw_writer written] in Q. exact Q. }
      all: destruct (flush (pw_writer p)) as [z w'] eqn:F; apply Fl in F;
        intros Q; injection Q as <- <-; cbn [pw_cipher pw_writer]; split; [reflexivity|];
        exists 0; rewrite take_0, app_nil_r, F; auto.
Qed.

Theorem start_write_encrypts p pl f p' :
  start_write p pl = Ret (Ok f, p') ->
  exists t contents pkt,
    payload_view pl = Ret (t, contents) /\
    encrypt_to_vec (pw_cipher p) contents t None = Ret (pkt, pw_cipher p') /\
    pw_writer p' = pw_writer p /\ f = Writing pkt.
Proof.
  unfold start_write, payload_view. intros H.
  apply bind_ret_inv in H. destruct H as (contents & Hc & H).
  apply bind_ret_inv in H. destruct H as (t & Ht & H). cbn zeta in H.
  unfold encryption_buffer_len in H. change NUM_PACKET_OVERHEAD_BYTES with 20 in H.
  rewrite encrypt_exact in H.
  apply bind_ret_inv in H. destruct H as ([[y c] pkt] & He & H).
  apply bind_ret_inv in He. destruct He as ([pkt' c'] & Hv & He). injection He as Q1 Q2 Q3. subst y c pkt.
  injection H as <- <-. exists t, contents, pkt'. rewrite Ht, Hc. cbn [bind pw_cipher pw_writer]. auto.
Qed.

Lemma poll_write_script_len : forall s rest x s' out rest',
  poll_write_script s rest = (x, s', out, rest') -> (length s' <= length s)%nat.
Proof.
  induction s as [|ev s IH]; intros rest x s' out rest'; destruct rest as [|b rest]; cbn [poll_write_script];
    try (intros Q; injection Q as <- <- <- <-; lia).
  destruct ev as [n|k|]; try (intros Q; injection Q as <- <- <- <-; cbn [length]; lia).
  destruct (n =? 0); [intros Q; injection Q as <- <- <- <-; cbn [length]; lia|].
  destruct (len (b :: rest) <=? n); [intros Q; injection Q as <- <- <- <-; cbn [length]; lia|].
  destruct (poll_write_script s (drop n (b :: rest))) as [[[y s0] o0] r0] eqn:P. apply IH in P.
  intros Q; injection Q as <- <- <- <-. cbn [length]. lia.
Qed.

(** Polled without limit, the future is [tokio_write]. *)
Lemma poll_write_script_flavor : forall s rest,
  match poll_write_script s rest with
  | (Ready x, s', out, _) => write_script Tokio s rest = (x, s', out)
  | (NotReady, s', out, rest') =>
    (length s' < length s)%nat /\
    write_script Tokio s rest =
    (let '(x, s'', out') := write_script Tokio s' rest' in (x, s'', out ++ out'))
  end.
Proof.
  induction s as [|ev s IH]; intros rest; destruct rest as [|b rest]; cbn [poll_write_script write_script]; try reflexivity.
  destruct ev as [n|k|].
  - destruct (n =? 0); [reflexivity|]. destruct (len (b :: rest) <=? n); [reflexivity|].
    specialize (IH (drop n (b :: rest))).
    destruct (poll_write_script s (drop n (b :: rest))) as [[[[x|] s'] out] rest'].
    + now rewrite IH.
    + destruct IH as [L ->]. split; [cbn [length]; lia|].
      destruct (write_script Tokio s' rest') as [[x s''] out']. now rewrite app_assoc.
  - reflexivity.
  - split; [cbn [length]; lia|]. destruct (write_script Tokio s (b :: rest)) as [[x s''] out']. reflexivity.
Qed.

(** The rest of a write, without suspensions. *)
Definition finish_write (f : write_future) (p : pwriter) : result perror unit * pwriter :=
  let '(x, w) := match f with
                 | Writing rest => write_flush Tokio (pw_writer p) rest
                 | Flushing => flush (pw_writer p)
                 end in
  (conv x, PWriter (pw_cipher p) w).

Lemma poll_write_finish f p :
  match poll_write f p with
  | (Ready x, p', _) => finish_write f p = (x, p')
  | (NotReady, p', f') =>
    finish_write f p = finish_write f' p' /\ (hold_ups (pw_writer p') < hold_ups (pw_writer p))%nat
  end.
Proof.
  destruct p as [c [s fl wr]].
  assert (Fin : forall s wr,
    match match fl with
          | FlushPending :: f => (NotReady, PWriter c (Writer s f wr), Flushing)
          | _ => let '(x, w') := flush (Writer s fl wr) in (Ready (conv x), PWriter c w', Flushing)
          end with
    | (Ready x, p', _) => finish_write Flushing (PWriter c (Writer s fl wr)) = (x, p')
    | (NotReady, p', f') => finish_write Flushing (PWriter c (Writer s fl wr)) = finish_write f' p' /\
        (hold_ups (pw_writer p') < hold_ups (Writer s fl wr))%nat
    end).
  { clear. intros s wr. unfold finish_write, flush, hold_ups. cbn [pw_writer pw_cipher flushes w_script written].
    destruct fl as [|[|k|] fl]; cbn [flush_script pw_writer flushes w_script written length]; try reflexivity. split; [|lia].
    destruct (flush_script fl); reflexivity. }
  unfold poll_write. cbn [pw_writer pw_cipher w_script flushes written]. fold conv.
  destruct f as [rest|]; [|apply Fin].
  pose proof (poll_write_script_flavor s rest) as Q.
  destruct (poll_write_script s rest) as [[[[x|] s'] out] rest'] eqn:P.
  - destruct x as [[]|k].
    2:{ unfold finish_write, write_flush, write_all. cbn [pw_writer pw_cipher w_script flushes written]. now rewrite Q. }
    assert (finish_write (Writing rest) (PWriter c (Writer s fl wr)) =
            finish_write Flushing (PWriter c (Writer s' fl (wr ++ out)))) as ->.
    { unfold finish_write, write_flush, write_all. cbn [pw_writer pw_cipher w_script flushes written]. now rewrite Q. }
    specialize (Fin s' (wr ++ out)). cbn [flushes].
    assert (length s' <= length s)%nat as L by (eapply poll_write_script_len; eassumption).
    unfold conv in Fin.
    destruct fl as [|[|k|] fl]; cbn [w_script written]; try exact Fin.
    destruct Fin as [F1 F2]. split; [assumption|]. unfold hold_ups in *. cbn [pw_writer w_script flushes length] in *. lia.
  - destruct Q as [L Q]. unfold finish_write, write_flush, write_all, hold_ups.
    cbn [pw_writer pw_cipher w_script flushes written]. rewrite Q. split; [|lia].
    destruct (write_script Tokio s' rest') as [[x s''] out']. now rewrite app_assoc.
Qed.

Theorem polls_write_is_write : forall n f p,
  (hold_ups (pw_writer p) < n)%nat ->
  polls_write n f p = (let '(x, p') := finish_write f p in (Some x, p')).
Proof.
  induction n as [|n IH]; intros f p Hn; [lia|]. cbn [polls_write].
  pose proof (poll_write_finish f p) as Q. destruct (poll_write f p) as [[[x|] p'] f'].
  - now rewrite Q.
  - destruct Q as [-> Q]. apply IH. lia.
Qed.

End WithLaws.
