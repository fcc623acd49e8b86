(** * TrafficSessionProofs: what the peer of a shaped endpoint reads *)
From Coq Require Import List NArith Arith Bool Lia ZifyBool ZifyN.
From Coq.Strings Require Import Byte.
From Verif Require Import Base BaseFacts Env FsChacha Spec Cipher CipherFacts Histories CipherProofs Handshake
  SpecHandshake HsDriver HandshakeProofs HsRunProofs
  Transport Io Futures SpecIo Sessions TransportProofs IoProofs FuturesProofs IoRunProofs SessionProofs EndpointProofs
  Traffic TrafficIo TrafficFutures SpecTraffic TrafficProofs TrafficIoProofs TrafficFuturesProofs.
Import ListNotations.
Local Open Scope N_scope.

Section Session.
Context {E : Env} {EL : EnvLaws E}.

Lemma serves_readable fl p bs rs p' c fl' :
  serves fl p bs rs p' -> Forall (block_ok c) bs ->
  Forall (fun r => readable fl' (seen (fst r))) rs ->
  Forall (readable fl') (map seen (flat_map block_payloads bs)).
Proof.
  assert (D : forall d, shaper_decoy_payload d -> readable fl' (seen d)).
  { intros d (n & L & ->). destruct fl'; cbn [seen decoy readable snd]; rewrite len_zeros; [lia|].
    change (2 ^ 24) with 16777216. lia. }
  intros H. induction H as [p|p bs rs p1 d x p2 H IH W1|p bs rs p1 pl x p2 H IH W1|p bs rs p1 d pl p2 x p3 H IH W1 W2|p bs rs p1 d pl e p2 H IH W1];
    intros F Q; [constructor|..];
    apply Forall_app in F; destruct F as [F1 F2]; inversion F2 as [|? ? B _]; subst;
    rewrite flat_map_app, map_app; apply Forall_app;
    try (apply Forall_app in Q; destruct Q as [Q Q2]; inversion Q2 as [|? ? Q3 _]; subst; cbn [fst] in Q3);
    (split; [now apply IH|]); cbn [flat_map block_payloads app map]; cbn [block_ok] in B; repeat constructor;
    try assumption; try (now apply D).
Qed.

Lemma payload_views qs ps : map payload_view qs = map Ret ps -> map seen qs = ps.
Proof.
  revert ps. induction qs as [|q qs IH]; intros [|p ps] H; try discriminate; [reflexivity|].
  cbn [map] in *. injection H as H1 H2. f_equal; [now apply view_seen|now apply IH].
Qed.

(** A reader in step with the writer obtains all blocks. *)
Theorem reader_gets fl p bs rs p' c r wire e k :
  serves fl p bs rs p' -> Forall (block_ok c) bs -> healthy (pw_writer p) ->
  written (pw_writer p') = written (pw_writer p) ++ wire ->
  at_packet r (pw_cipher p) wire e -> counted k (pw_cipher p) ->
  (overflow_checks = true -> k + N.of_nat (packets bs) < 2 ^ 32) ->
  Forall (fun x => readable (reader_flavor r) (seen (fst x))) rs ->
  Forall (fun x => snd x = Ok tt) rs /\
  exists qs r', read_many (packets bs) r = Ret (map Ok qs, r') /\
    map seen qs = map seen (flat_map block_payloads bs) /\
    genuine_only (map seen qs) = genuine_only (map seen (map fst rs)) /\
    reader_stream r' = ([], e).
Proof.
  intros S Fb Hh Ww Ha Hc Hr Hread.
  destruct (serves_wire _ _ _ _ _ S Hh) as (_ & Fok & pkts & Sa & W). split; [assumption|].
  rewrite W in Ww. apply app_inv_head in Ww. subst wire.
  pose proof (serves_readable _ _ _ _ _ _ _ S Fb Hread) as Rd.
  set (ps := map seen (flat_map block_payloads bs)) in *.
  assert (length ps = packets bs) as Lp by (unfold ps, packets; apply map_length).
  assert (Forall (fun p => len (snd p) < 2 ^ 24) ps) as Sz by (eapply Forall_impl; [|exact Rd]; apply readable_24).
  pose proof (recv_sent_msgs ps (pw_cipher p) pkts (pw_cipher p') Sz Sa) as Rc.
  destruct (read_many_packets ps r (pw_cipher p) _ e (pw_cipher p') [] k Ha Hc) as (qs & r' & R1 & R2 & R3); try assumption.
  { intros Q. specialize (Hr Q). unfold len. rewrite Lp. lia. }
  exists qs, r'. rewrite <- Lp. split; [assumption|]. apply payload_views in R2. rewrite R2.
  split; [reflexivity|]. split; [eapply serves_genuine; eassumption|].
  now apply at_packet_end in R3.
Qed.

(** Two connected endpoints, whatever follows the handshakes. *)
Theorem connected magic ska skb ga gb da db :
  EcdhAgrees E -> len magic = 4 ->
  sk_valid ska = true -> sk_valid skb = true ->
  (debug_assertions = true -> ska <> zeros 32 /\ skb <> zeros 32) ->
  len (garbage_bytes ga) <= 4095 -> len (garbage_bytes gb) <= 4095 ->
  Forall (fun d => len d + 17 <= 4000014) (decoy_list da) ->
  Forall (fun d => len d + 17 <= 4000014) (decoy_list db) ->
  (overflow_checks = true -> len (decoy_list da) + 1 < 2 ^ 32 /\ len (decoy_list db) + 1 < 2 ^ 32) ->
  take 4 (ellswift_of ska) <> magic -> take 4 (ellswift_of skb) <> magic ->
  exists m outa outb oca ocb,
    keys_from (bip_prk magic (bip_secret (ellswift_of ska) (ellswift_of skb) ska PartyA)) m /\
    counted (len (decoy_list da) + 1) oca /\ counted (len (decoy_list db) + 1) ocb /\
    (first_at (initiator_garbage_terminator m)
       (garbage_bytes ga ++ initiator_garbage_terminator m) (len (garbage_bytes ga)) ->
     first_at (responder_garbage_terminator m)
       (garbage_bytes gb ++ responder_garbage_terminator m) (len (garbage_bytes gb)) ->
     forall fla flb sa sb wa wb ea eb resta restb,
       flatten fla sa = (outb ++ restb, ea) -> flatten flb sb = (outa ++ resta, eb) ->
       calm fla sa -> calm flb sb -> healthy wa -> healthy wb ->
       exists ra pa rb pb,
         connect fla magic Initiator ska ga da sa wa = Ret (Ok (ra, pa)) /\
         connect flb magic Responder skb gb db sb wb = Ret (Ok (rb, pb)) /\
         written (pw_writer pa) = written wa ++ outa /\ written (pw_writer pb) = written wb ++ outb /\
         healthy (pw_writer pa) /\ healthy (pw_writer pb) /\
         pw_cipher pa = oca /\ pw_cipher pb = ocb /\
         reader_flavor ra = fla /\ reader_flavor rb = flb /\
         at_packet ra ocb restb ea /\ at_packet rb oca resta eb).
Proof.
  intros EA Hm Va Vb Hz Hga Hgb Hda Hdb Ho Ma Mb.
  destruct (endpoints magic ska skb ga gb da db EA Hm Va Vb Hz Hga Hgb Hda Hdb) as
    (ha & fa & hb & fb & ha' & va & hb' & vb & m & oca & ocb & Sa & Sb & [La Lb] & Ka & Kb & KF & Oa & Ob & Ca & Cb & Fin);
    try assumption.
  exists m, (fa ++ va), (fb ++ vb), oca, ocb. split; [exact KF|]. split; [assumption|]. split; [assumption|].
  intros F1 F2 fla flb sa sb wa wb ea eb resta restb Fa Fb CLa CLb Hwa Hwb.
  destruct (Fin F1 F2 restb resta) as [Qa Qb].
  assert (T : forall f v p : bytes, 64 <= len f -> take 64 ((f ++ v) ++ p) = take 64 f /\
     drop 64 ((f ++ v) ++ p) = drop 64 f ++ v ++ p /\ 64 <= len ((f ++ v) ++ p)).
  { intros f v p Lf. rewrite <- app_assoc. rewrite take_app_le, drop_app_le by assumption.
    rewrite len_app. repeat split; try reflexivity. lia. }
  destruct (T fb vb restb Lb) as (T1 & T2 & T3).
  destruct (T fa va resta La) as (T4 & T5 & T6).
  rewrite <- T2 in Qa. rewrite <- T5 in Qb. rewrite <- T1 in Ka. rewrite <- T4 in Kb.
  destruct (one_side fla magic Initiator ska ga da sa wa ea ha fa _ ha' va ocb _ []
              Hm Hwa Sa T3 Ka Qa Fa CLa) as (ra & pa & X1 & X2 & X3 & X4 & X5 & X6 & _).
  destruct (one_side flb magic Responder skb gb db sb wb eb hb fb _ hb' vb oca _ []
              Hm Hwb Sb T6 Kb Qb Fb CLb) as (rb & pb & Y1 & Y2 & Y3 & Y4 & Y5 & Y6 & _).
  exists ra, pa, rb, pb. rewrite Oa in X4. rewrite Ob in Y4. repeat match goal with |- _ /\ _ => split end; assumption.
Qed.

(** A reader at the beginning of the session. *)
Lemma established_start fl c s wire e :
  flatten fl s = (wire, e) -> at_packet (established fl c (session_reader fl [] s)) c wire e.
Proof.
  intros F. assert (session_stream fl (session_reader fl [] s) = (wire, e)) as S.
  { unfold session_stream. destruct fl; cbn [session_reader session_inner session_leftover]; rewrite F; reflexivity. }
  destruct fl; cbn [established at_packet].
  - split; [reflexivity|assumption].
  - split; [cbn; eauto|]. exists wire. cbn [tr_reader tr_state init_reading_length tr_cipher].
    split; [assumption|]. change NUM_LENGTH_BYTES with 3. rewrite len_zeros.
    split; [reflexivity|]. split; [lia|]. split; reflexivity.
Qed.

Lemma established_flavor fl c sr : reader_flavor (established fl c sr) = fl.
Proof. destruct fl; reflexivity. Qed.

Context {G : Type} {R : Rng G} {RL : RngLaws G R}.

(** Both kinds of endpoints serve their requests. *)
Lemma becomes_serves ep a ep' p sh recs k :
  (ep = Blocking (shared_new p sh recs) \/ ep = Tasked (task_new p sh recs)) ->
  becomes ep a ep' -> counted k (pw_cipher p) -> (overflow_checks = true -> k + effort a < 2 ^ 32) ->
  activity_sound a ->
  exists fl bs rs, serves fl p bs rs (shaped_writer ep') /\ Forall (block_ok (sh_config sh)) bs /\
    N.of_nat (packets bs) <= effort a /\
    map fst rs = firstn (length (results ep')) (requests a) /\ map snd rs = results ep'.
Proof.
  intros Hep B Hc Hr So. destruct ep as [s|t], a as [ms|es], ep' as [s'|t']; cbn [becomes] in B; try contradiction;
    (destruct Hep as [Q|Q]; try discriminate Q; injection Q as ->).
  - destruct B as [P L]. cbn [effort requests activity_sound] in *.
    destruct (schedule_no_panic _ _ _ _ _ _ Hc Hr So P) as (Po & _).
    destruct (schedule_blocks _ _ _ _ _ P Po L) as (Cs & bs & Fb & Pk & S & _).
    exists Sync, bs, (returned s'). cbn [shaped_writer results]. split; [assumption|]. split; [assumption|].
    split; [unfold len; lia|]. split; [|reflexivity]. rewrite Cs, map_length, <- (map_length fst).
    now rewrite firstn_app, Nat.sub_diag, firstn_all, app_nil_r.
  - subst t'. cbn [effort requests activity_sound] in *.
    destruct (task_serves p sh recs k es Hc Hr So) as (handled & rest & rs & bs & Ac & _ & Fb & S & M & A & _ & Pk).
    exists Tokio, bs, rs. cbn [shaped_writer results]. split; [assumption|]. split; [assumption|].
    split; [unfold len; lia|]. rewrite A.
    assert (length rs = length handled) as L.
    { apply (f_equal (@length _)) in M. now rewrite !map_length in M. }
    assert (map snd (combine (map cmd_id handled) (map snd rs)) = map snd rs) as Sn.
    { clear -L. revert rs L. induction handled as [|c h IH]; intros [|r rs] L; try discriminate; [reflexivity|].
      cbn. f_equal. apply IH. now injection L. }
    rewrite Sn. split; [|reflexivity]. rewrite Ac, map_app, map_length, L, <- (map_length cmd_payload), M.
    now rewrite firstn_app, Nat.sub_diag, firstn_all, app_nil_r.
Qed.

(** What the peer of a shaped endpoint reads. *)
Lemma peer_reads ep a ep' p sh recs k r wire e :
  (ep = Blocking (shared_new p sh recs) \/ ep = Tasked (task_new p sh recs)) ->
  becomes ep a ep' -> counted k (pw_cipher p) -> (overflow_checks = true -> k + effort a < 2 ^ 32) ->
  activity_sound a -> Forall (fun pl => readable (reader_flavor r) (seen pl)) (requests a) ->
  healthy (pw_writer p) -> written (pw_writer (shaped_writer ep')) = written (pw_writer p) ++ wire ->
  at_packet r (pw_cipher p) wire e ->
  Forall (fun x => x = Ok tt) (results ep') /\
  exists n qs r', read_many n r = Ret (map Ok qs, r') /\ (N.of_nat n <= effort a) /\
    genuine_only (map seen qs) = genuine_only (map seen (firstn (length (results ep')) (requests a))) /\
    reader_stream r' = ([], e).
Proof.
  intros Hep B Hc Hr So Rd Hh Ww Ha.
  destruct (becomes_serves _ _ _ _ _ _ _ Hep B Hc Hr So) as (fl & bs & rs & S & Fb & Pk & M1 & M2).
  destruct (reader_gets fl p bs rs _ _ r wire e k S Fb Hh Ww Ha Hc) as (Fok & qs & r' & R1 & R2 & R3 & R4).
  - intros Ho. specialize (Hr Ho). lia.
  - assert (Forall (fun pl => readable (reader_flavor r) (seen pl)) (map fst rs)) as Q.
    { rewrite M1. rewrite <- (firstn_skipn (length (results ep')) (requests a)) in Rd. now apply Forall_app in Rd. }
    apply (proj1 (Forall_map fst (fun pl => readable (reader_flavor r) (seen pl)) rs)) in Q. exact Q.
  - split; [rewrite <- M2; apply Forall_map; exact Fok|]. exists (packets bs), qs, r'. rewrite <- M1. auto.
Qed.

(** A shaped connection is a plain connection with the shaper's garbage and decoys. *)
Lemma shaped_connect_plain fl magic r rnd c (g : G) s w ga da sh recs rd p :
  shaper_handshake (Shaper c g) = (ga, da, sh, recs) ->
  connect fl magic r rnd ga da s w = Ret (Ok (rd, p)) ->
  shaped_connect fl magic r rnd c g s w =
    Ret (Ok (rd, match fl with Sync => Blocking (shared_new p sh recs) | Tokio => Tasked (task_new p sh recs) end)).
Proof.
  intros Hs H. destruct fl; cbn [connect shaped_connect] in *; unfold shaped_new, tokio_shaped_new; rewrite Hs.
  - apply bind_ret_inv in H. destruct H as ([q|y] & Q & H); [|discriminate]. rewrite Q. cbn [bind].
    destruct (protocol_split q) as [rd' wr]. injection H as <- <-. reflexivity.
  - apply bind_ret_inv in H. destruct H as ([q|y] & Q & H); [|discriminate]. rewrite Q. cbn [bind].
    injection H as <- <-. reflexivity.
Qed.

(** Two shaped endpoints. *)
Theorem shaped_session magic ska skb ca cb (ga gb : G) :
  EcdhAgrees E -> len magic = 4 ->
  sk_valid ska = true -> sk_valid skb = true ->
  (debug_assertions = true -> ska <> zeros 32 /\ skb <> zeros 32) ->
  take 4 (ellswift_of ska) <> magic -> take 4 (ellswift_of skb) <> magic ->
  let '(garba, _, _, _) := shaper_handshake (Shaper ca ga) in
  let '(garbb, _, _, _) := shaper_handshake (Shaper cb gb) in
  exists m outa outb,
    keys_from (bip_prk magic (bip_secret (ellswift_of ska) (ellswift_of skb) ska PartyA)) m /\
    (first_at (initiator_garbage_terminator m)
       (garbage_bytes garba ++ initiator_garbage_terminator m) (len (garbage_bytes garba)) ->
     first_at (responder_garbage_terminator m)
       (garbage_bytes garbb ++ responder_garbage_terminator m) (len (garbage_bytes garbb)) ->
     forall fla flb sa sb wa wb ea eb resta restb,
       flatten fla sa = (outb ++ restb, ea) -> flatten flb sb = (outa ++ resta, eb) ->
       calm fla sa -> calm flb sb -> healthy wa -> healthy wb ->
       exists ra epa rb epb,
         shaped_connect fla magic Initiator ska ca ga sa wa = Ret (Ok (ra, epa)) /\
         shaped_connect flb magic Responder skb cb gb sb wb = Ret (Ok (rb, epb)) /\
         written (pw_writer (shaped_writer epa)) = written wa ++ outa /\
         written (pw_writer (shaped_writer epb)) = written wb ++ outb /\
         (forall acts epa',
            becomes epa acts epa' -> (overflow_checks = true -> 4 + effort acts < 2 ^ 32) ->
            activity_sound acts -> Forall (fun pl => readable flb (seen pl)) (requests acts) ->
            written (pw_writer (shaped_writer epa')) = written wa ++ outa ++ resta ->
            Forall (fun x => x = Ok tt) (results epa') /\
            exists n qs r', read_many n rb = Ret (map Ok qs, r') /\ N.of_nat n <= effort acts /\
              genuine_only (map seen qs) = genuine_only (map seen (firstn (length (results epa')) (requests acts))) /\
              reader_stream r' = ([], eb)) /\
         (forall acts epb',
            becomes epb acts epb' -> (overflow_checks = true -> 4 + effort acts < 2 ^ 32) ->
            activity_sound acts -> Forall (fun pl => readable fla (seen pl)) (requests acts) ->
            written (pw_writer (shaped_writer epb')) = written wb ++ outb ++ restb ->
            Forall (fun x => x = Ok tt) (results epb') /\
            exists n qs r', read_many n ra = Ret (map Ok qs, r') /\ N.of_nat n <= effort acts /\
              genuine_only (map seen qs) = genuine_only (map seen (firstn (length (results epb')) (requests acts))) /\
              reader_stream r' = ([], ea))).
Proof.
  intros EA Hm Va Vb Hz Ma Mb.
  destruct (shaper_handshake (Shaper ca ga)) as [[[garba da] sha] reca] eqn:Ha.
  destruct (shaper_handshake (Shaper cb gb)) as [[[garbb db] shb] recb] eqn:Hb.
  assert (Lim : forall c (g : G) gg d sh recs, shaper_handshake (Shaper c g) = (gg, d, sh, recs) ->
    len (garbage_bytes gg) <= 4095 /\ Forall (fun d => len d + 17 <= 4000014) (decoy_list d) /\ len (decoy_list d) <= 3).
  { clear -RL. intros c g gg d sh recs H. apply shaper_handshake_spec in H. destruct H as (_ & H1 & H2 & _).
    cbn [sh_config] in *. split.
    - destruct (padding_strategy c); [subst gg; cbn; lia|]. destruct H1 as (x & -> & L). exact L.
    - destruct (decoy_strategy c); [subst d; cbn; split; [constructor|lia]|]. destruct H2 as (l & -> & L & F).
      cbn [decoy_list]. split; [|assumption]. eapply Forall_impl; [|exact F]. cbn. intros; lia. }
  destruct (Lim _ _ _ _ _ _ Ha) as (La1 & La2 & La3). destruct (Lim _ _ _ _ _ _ Hb) as (Lb1 & Lb2 & Lb3).
  destruct (connected magic ska skb garba garbb da db EA Hm Va Vb Hz La1 Lb1 La2 Lb2) as
    (m & outa & outb & oca & ocb & KF & Ca & Cb & Fin); try assumption.
  { intros _. change (2 ^ 32) with 4294967296. lia. }
  exists m, outa, outb. split; [assumption|]. intros F1 F2 fla flb sa sb wa wb ea eb resta restb Fa Fb CLa CLb Hwa Hwb.
  destruct (Fin F1 F2 fla flb sa sb wa wb ea eb resta restb Fa Fb CLa CLb Hwa Hwb) as
    (ra & pa & rb & pb & X1 & X2 & X3 & X4 & X5 & X6 & X7 & X8 & X9 & X10 & X11 & X12).
  pose proof (shaped_connect_plain _ _ _ _ _ _ _ _ _ _ _ _ _ _ Ha X1) as Sa.
  pose proof (shaped_connect_plain _ _ _ _ _ _ _ _ _ _ _ _ _ _ Hb X2) as Sb.
  eexists ra, _, rb, _. split; [exact Sa|]. split; [exact Sb|].
  split; [destruct fla; exact X3|]. split; [destruct flb; exact X4|].
  subst oca ocb fla flb. split.
  - intros acts ep' B Hr So Rd Ww.
    refine (peer_reads _ acts ep' pa sha reca _ rb resta eb _ B _ _ So Rd X5 _ X12).
    + destruct (reader_flavor ra); auto.
    + eapply counted_mono; [|exact Ca]. instantiate (1 := 4). lia.
    + assumption.
    + rewrite Ww, X3. now rewrite app_assoc.
  - intros acts ep' B Hr So Rd Ww.
    refine (peer_reads _ acts ep' pb shb recb _ ra restb ea _ B _ _ So Rd X6 _ X11).
    + destruct (reader_flavor rb); auto.
    + eapply counted_mono; [|exact Cb]. instantiate (1 := 4). lia.
    + assumption.
    + rewrite Ww, X4. now rewrite app_assoc.
Qed.

End Session.
