(** * Property C113: two endpoints whose writers hold bytes back come together *)
From Coq Require Import List NArith PeanoNat Bool Lia.
From Coq.Strings Require Import Byte.
From Verif Require Import Base BaseFacts Env FsChacha Cipher Histories CipherProofs Handshake SpecHandshake HsDriver HandshakeProofs HsRunProofs Transport Io
  SpecIo Sessions SessionProofs Toy PropsHandshake PropsIo HsSteps HsStepsProofs SpecPipes PipesProofs PropsPipes
  Outgoing SpecOutgoing PropsOutgoing SpecBufPair.
Import ListNotations.
Local Open Scope N_scope.

(** ** The writers *)

Lemma raw_obliges w bs o w' : well_behaved w -> bs <> [] -> raw_write w bs = (o, w') ->
  well_behaved w' /\ match o with None => True | Some (Ok n) => 0 < n | Some (Err _) => False end.
Proof.
  intros (W1 & W2) Nb H. apply nonempty_len in Nb. unfold raw_write in H. destruct (w_script w) as [|e s] eqn:Q; [injection H as <- <-; split; [split; [constructor|exact W2]|exact Nb]|].
  inversion W1 as [|? ? W0 W1']; subst. destruct e as [n|k|]; injection H as <- <-; (split; [split; [exact W1'|exact W2]|]); cbn [takes_some] in W0; [lia|contradiction|exact I].
Qed.
Lemma raw_flush_obliges w o w' : well_behaved w -> raw_flush w = (o, w') ->
  well_behaved w' /\ match o with Some (Err _) => False | _ => True end.
Proof.
  intros (W1 & W2) H. unfold raw_flush in H. destruct (flushes w) as [|e f] eqn:Q; [injection H as <- <-; split; [split; [exact W1|rewrite Q; constructor]|exact I]|].
  inversion W2 as [|? ? W0 W2']; subst. destruct e as [|k|]; injection H as <- <-; (split; [split; [exact W1|exact W2']|]); cbn [flushes_some] in W0; try exact I; contradiction.
Qed.
Lemma drain_obliges fl : forall fuel buffer w x buffer' w', well_behaved w -> drain fuel fl buffer w = (x, buffer', w') ->
  well_behaved w' /\ match x with Some (Err _) => False | _ => True end.
Proof.
  induction fuel as [|fuel IH]; intros buffer w x buffer' w' W H; cbn [drain] in H; [injection H as <- <- <-; auto|].
  destruct buffer as [|b buffer]; [injection H as <- <- <-; auto|].
  destruct (raw_write w (b :: buffer)) as [o w1] eqn:R. assert (NE : b :: buffer <> []) by discriminate. destruct (raw_obliges _ _ _ _ W NE R) as (W' & O). destruct o as [[n|k]|]; [|contradiction|].
  - destruct (N.eqb_spec n 0); [lia|]. exact (IH _ _ _ _ _ W' H).
  - injection H as <- <- <-. auto.
Qed.

(** ** C113 *)
(** A transport that does not fail, and a [BufWriter] of any capacity over one, are such writers. *)
Theorem C113_writers : forall fl,
  obliging raw_write raw_flush well_behaved /\ obliging (buf_write fl) (buf_flush fl) (fun b => well_behaved (bw_inner b)).
Proof.
  intros fl. split; split.
  - intros st bs o st' W Nb H. exact (raw_obliges _ _ _ _ W Nb H).
  - intros st o st' W H. exact (raw_flush_obliges _ _ _ W H).
  - intros b bs o b' W Nb H. unfold buf_write in H.
    destruct (if bw_capacity b <? len (bw_buffer b) + len bs then drain (drain_fuel (bw_inner b)) fl (bw_buffer b) (bw_inner b)
      else (Some (Ok tt), bw_buffer b, bw_inner b)) as [[x buffer] w] eqn:D.
    assert (Z : well_behaved w /\ match x with Some (Err _) => False | _ => True end).
    { destruct (_ <? _); [exact (drain_obliges _ _ _ _ _ _ _ W D)|]. injection D as <- <- <-. auto. }
    destruct Z as (W' & Z). destruct x as [[u|k]|]; [|contradiction|].
    + destruct (bw_capacity b <=? len bs).
      * destruct (raw_write w bs) as [r w2] eqn:R. injection H as <- <-. exact (raw_obliges _ _ _ _ W' Nb R).
      * injection H as <- <-. split; [exact W'|]. now apply nonempty_len.
    + injection H as <- <-. auto.
  - intros b o b' W H. unfold buf_flush in H.
    destruct (drain (drain_fuel (bw_inner b)) fl (bw_buffer b) (bw_inner b)) as [[x buffer] w] eqn:D.
    destruct (drain_obliges _ _ _ _ _ _ _ W D) as (W' & Z). destruct x as [[u|k]|]; [|contradiction|].
    + destruct (raw_flush w) as [r w2] eqn:R. injection H as <- <-. exact (raw_flush_obliges _ _ _ W' R).
    + injection H as <- <-. auto.
Qed.
Print Assumptions C113_writers.

Section Side.
Context {E : Env}.
Variables (St : Type) (wr : St -> bytes -> option (result io_kind N) * St) (fsh : St -> option (result io_kind unit) * St).
Variables (sent held : St -> bytes) (fit : St -> Prop) (fl : flavor) (d : option (list bytes)).
Hypothesis HOLD : holding wr fsh sent held.
Hypothesis OBL : obliging wr fsh fit.

(** Something is left to write at a place that writes. *)
Definition has_rest (p : place) : Prop := match p with SendingKey rest _ | SendingVersion rest _ => rest <> [] | _ => True end.

(** An operation is one of the endpoint over a transport that takes the bytes at once, or nothing but bytes that leave. *)
Lemma operation_turn p st inc p' st' inc' out more : operation St wr fsh sent fl d p st inc p' st' inc' out ->
  has_rest p -> fit st -> (listens p -> held st = []) ->
  fit st' /\ (listens p' -> held st' = []) /\
  if held_up St wr fsh p st then p' = p /\ inc' = inc /\ out ++ held st' = held st
  else exists took least, out ++ held st' = held st ++ took /\ forall room, least <= room -> turn fl d p (inc ++ more) room p' (inc' ++ more) took.
Proof.
  intros O HR F HL.
  assert (WRITE : forall mk next rest, rest <> [] -> (forall rest, listens (mk rest) -> False) -> (listens next -> False) -> (forall rest, wants_output (mk rest) = true) ->
    (forall w, hs_step fl d (mk rest) [] w = let '(x, w) := write_once fl w rest in
       Ret (match x with AllWritten => next | MoreToWrite rest => mk rest | WriteFailed k => Over (Err (from_io k)) end, [], w)) ->
    forall s', Ret (let '(x, st) := any_write_once St wr fl st rest in
      (match x with AllWritten => next | MoreToWrite rest => mk rest | WriteFailed k => Over (Err (from_io k)) end, @nil rev, st)) = Ret (p', s', st') ->
    sent st' = sent st ++ out -> p = mk rest -> inc' = inc ->
    fit st' /\ (listens p' -> held st' = []) /\
    if match wr st rest with (None, _) => true | _ => false end then p' = p /\ inc' = inc /\ out ++ held st' = held st
    else exists took least, out ++ held st' = held st ++ took /\ forall room, least <= room -> turn fl d p (inc ++ more) room p' (inc' ++ more) took).
  { intros mk next rest NE L1 L2 WO STEP s' H SO -> ->. unfold any_write_once in H. destruct (wr st rest) as [o st1] eqn:W.
    destruct (proj1 OBL _ _ _ _ F NE W) as (F' & Z). destruct (proj1 HOLD _ _ _ _ W) as (_ & T). destruct o as [[n|k]|]; [|contradiction|].
    - destruct (N.eqb_spec n 0); [lia|]. injection H as <- <- <-. destruct T as (Ln & T). rewrite SO, <- !app_assoc in T. apply app_inv_head in T.
      split; [exact F'|]. split; [destruct (len rest <=? n); intros L; exfalso; eauto|].
      exists (take n rest), n. split; [exact T|]. intros room Hr.
      assert (S1 : hs_step fl d (mk rest) [] (Writer [Accept n] [] []) = Ret (if len rest <=? n then next else mk (drop n rest), [], Writer [] [] (take n rest))).
      { rewrite STEP. unfold write_once. cbn [w_script flushes written]. destruct (N.eqb_spec n 0); [lia|]. destruct (N.leb_spec (len rest) n) as [L|L]; [|reflexivity].
        rewrite take_all by exact L. reflexivity. }
      destruct (len rest <=? n); refine (turn_write fl d (mk rest) (inc ++ more) room n _ _ _ (WO _) _ S1); lia.
    - injection H as <- <- <-. rewrite SO, <- app_assoc in T. apply app_inv_head in T.
      split; [exact F'|]. split; [intros L; exfalso; eauto|]. auto. }
  assert (FLUSH : forall mk next, (listens mk -> False) -> wants_output mk = false -> wants_input mk = false -> is_over mk = false ->
    hs_step fl d mk [] (Writer [] [] []) = Ret (next, [], Writer [] [] []) ->
    forall s', Ret (let '(x, st) := fsh st in
      (match x with None => mk | Some (Ok _) => next | Some (Err k) => Over (Err (from_io k)) end, @nil rev, st)) = Ret (p', s', st') ->
    sent st' = sent st ++ out -> p = mk -> inc' = inc ->
    fit st' /\ (listens p' -> held st' = []) /\
    if match fsh st with (None, _) => true | _ => false end then p' = p /\ inc' = inc /\ out ++ held st' = held st
    else exists took least, out ++ held st' = held st ++ took /\ forall room, least <= room -> turn fl d p (inc ++ more) room p' (inc' ++ more) took).
  { intros mk next L1 WO WI NO STEP s' H SO -> ->. destruct (fsh st) as [o st1] eqn:W.
    destruct (proj2 OBL _ _ _ F W) as (F' & Z). destruct (proj2 HOLD _ _ _ W) as (_ & T & He). destruct o as [[[]|k]|]; [|contradiction|].
    - injection H as <- <- <-. rewrite SO, <- app_assoc in T. apply app_inv_head in T. specialize (He eq_refl).
      split; [exact F'|]. split; [auto|]. exists [], 0. rewrite app_nil_r. split; [exact T|]. intros room _.
      exact (turn_local fl d mk (inc ++ more) room _ _ _ WO WI NO STEP).
    - injection H as <- <- <-. rewrite SO, <- app_assoc in T. apply app_inv_head in T. split; [exact F'|]. split; [intros L; exfalso; eauto|]. auto. }
  destruct O as [m p' s' st' WI Hm H|p' s' st' out WI NO H SO].
  - assert (L : listens p) by (destruct p as [| | | | | | | | |[]]; try discriminate WI; exact I). specialize (HL L).
    assert (X : (forall s, any_wstep St wr fsh fl d p s st = let! (p, s, _) := hs_step fl d p s (Writer [] [] []) in Ret (p, s, st)) /\ held_up St wr fsh p st = false)
      by (destruct p; try discriminate WI; split; reflexivity).
    destruct X as (X & ->). rewrite X in H. apply bind_ret_inv in H. destruct H as ([[p1 s1] w1] & H & Q). injection Q as <- <- <-.
    split; [exact F|]. split; [auto|]. exists [], 0. rewrite app_nil_r. split; [reflexivity|]. intros room _.
    replace ((unread s1 ++ drop m inc) ++ more) with (unread s1 ++ drop m (inc ++ more)) by (rewrite drop_app_le by lia; apply app_assoc).
    refine (turn_read fl d p (inc ++ more) room m p1 s1 w1 WI _ _); [rewrite len_app; lia|]. rewrite take_app_le by lia. exact H.
  - destruct p as [rest h|h|got h|rest h|h|got h|buf h|sr got h|sr n got h|x]; try discriminate WI; try discriminate NO.
    + refine (WRITE (fun rest => SendingKey rest h) (FlushingKey h) rest HR _ _ _ _ s' _ SO eq_refl eq_refl); cbn; auto.
      cbn [any_wstep] in H. destruct (any_write_once St wr fl st rest). exact H.
    + refine (FLUSH (FlushingKey h) (ReadingKey [] h) _ _ _ _ _ s' _ SO eq_refl eq_refl); cbn; auto.
      cbn [any_wstep] in H. destruct (fsh st). exact H.
    + refine (WRITE (fun rest => SendingVersion rest h) (FlushingVersion h) rest HR _ _ _ _ s' _ SO eq_refl eq_refl); cbn; auto.
      cbn [any_wstep] in H. destruct (any_write_once St wr fl st rest). exact H.
    + refine (FLUSH (FlushingVersion h) (ReadingTerminator [] h) _ _ _ _ _ s' _ SO eq_refl eq_refl); cbn; auto.
      cbn [any_wstep] in H. destruct (fsh st). exact H.
    + cbn [any_wstep] in H. apply bind_ret_inv in H. destruct H as ([[p1 s1] w1] & H & Q). injection Q as <- <- <-.
      specialize (HL I). assert (out = []) as -> by (apply (app_inv_head (sent st)); rewrite app_nil_r; symmetry; exact SO).
      split; [exact F|]. split; [auto|]. exists [], 0. rewrite app_nil_r. split; [reflexivity|]. intros room _.
      eapply turn_local; [reflexivity|exact WI|reflexivity|exact H].
    + cbn [any_wstep] in H. apply bind_ret_inv in H. destruct H as ([[p1 s1] w1] & H & Q). injection Q as <- <- <-.
      specialize (HL I). assert (out = []) as -> by (apply (app_inv_head (sent st)); rewrite app_nil_r; symmetry; exact SO).
      split; [exact F|]. split; [auto|]. exists [], 0. rewrite app_nil_r. split; [reflexivity|]. intros room _.
      eapply turn_local; [reflexivity|exact WI|reflexivity|exact H].
Qed.

(** Where a transport that takes bytes at once allows an operation, so does the writer. *)
Lemma turn_operation p st inc room p1 inc1 out1 : turn fl d p inc room p1 inc1 out1 ->
  exists p' st' inc' out, operation St wr fsh sent fl d p st inc p' st' inc' out.
Proof.
  intros T.
  assert (OUT : wants_input p = false -> is_over p = false -> forall p' s' st', any_wstep St wr fsh fl d p [] st = Ret (p', s', st') ->
    (exists more, sent st' = sent st ++ more) -> exists p' st' inc' out, operation St wr fsh sent fl d p st inc p' st' inc' out).
  { intros WI NO p' s' st' H (more & SO). exists p', st', inc, more. exact (op_other St wr fsh sent fl d p st inc p' s' st' more WI NO H SO). }
  assert (WR : forall rest x st', any_write_once St wr fl st rest = (x, st') -> exists more, sent st' = sent st ++ more).
  { intros rest x st' H. unfold any_write_once in H. destruct (wr st rest) as [o st1] eqn:W. destruct (proj1 HOLD _ _ _ _ W) as (M & _).
    destruct o as [[n|k]|]; injection H as _ <-; exact M. }
  destruct T as [m p' s' w' WO Hm H|m p' s' w' WI Hm H|p' s' w' WO WI NO H].
  - destruct p as [rest h|h|got h|rest h|h|got h|buf h|sr got h|sr n got h|x]; try discriminate WO.
    + destruct (any_write_once St wr fl st rest) as [x st'] eqn:W. eapply (OUT eq_refl eq_refl); [cbn [any_wstep]; rewrite W; reflexivity|exact (WR _ _ _ W)].
    + destruct (any_write_once St wr fl st rest) as [x st'] eqn:W. eapply (OUT eq_refl eq_refl); [cbn [any_wstep]; rewrite W; reflexivity|exact (WR _ _ _ W)].
  - assert (X : forall s, any_wstep St wr fsh fl d p s st = let! (p, s, _) := hs_step fl d p s (Writer [] [] []) in Ret (p, s, st))
      by (destruct p; try discriminate WI; reflexivity).
    exists p', st, (unread s' ++ drop m inc), []. refine (op_read St wr fsh sent fl d p st inc m p' s' st WI Hm _). rewrite X, H. reflexivity.
  - destruct p as [rest h|h|got h|rest h|h|got h|buf h|sr got h|sr n got h|x]; try discriminate WO; try discriminate WI; try discriminate NO.
    + destruct (fsh st) as [o st'] eqn:W. eapply (OUT eq_refl eq_refl); [cbn [any_wstep]; rewrite W; reflexivity|exact (proj1 (proj2 HOLD _ _ _ W))].
    + destruct (fsh st) as [o st'] eqn:W. eapply (OUT eq_refl eq_refl); [cbn [any_wstep]; rewrite W; reflexivity|exact (proj1 (proj2 HOLD _ _ _ W))].
    + apply (OUT WI eq_refl p' s' st); [cbn [any_wstep]; rewrite H; reflexivity|exists []; now rewrite app_nil_r].
    + apply (OUT WI eq_refl p' s' st); [cbn [any_wstep]; rewrite H; reflexivity|exists []; now rewrite app_nil_r].
Qed.

End Side.

Lemma input_listens {E : Env} p : wants_input p = true -> listens p.
Proof. destruct p as [| | | | | | | | |[]]; intros H; try discriminate H; exact I. Qed.

(** Two endpoints, each with a writer that may hold bytes back.  Whatever the order in which they run, however often a
    writer is not ready, whatever it keeps to itself and however the bytes arrive, the number of operations that do
    something is bounded, and the two come to rest only when both have completed with each other, with nothing held back
    and nothing left unread. *)
Theorem C113_pair : forall (E : Env) (EL : EnvLaws E) magic ska skb ga gb da db,
  EcdhAgrees E -> len magic = 4 ->
  sk_valid ska = true -> sk_valid skb = true ->
  (debug_assertions = true -> ska <> zeros 32 /\ skb <> zeros 32) ->
  len (garbage_bytes ga) <= 4095 -> len (garbage_bytes gb) <= 4095 ->
  Forall (fun d => len d + 17 <= 4000014) (decoy_list da) ->
  Forall (fun d => len d + 17 <= 4000014) (decoy_list db) ->
  (overflow_checks = true -> len (decoy_list da) + 1 < 2 ^ 32 /\ len (decoy_list db) + 1 < 2 ^ 32) ->
  take 4 (ellswift_of ska) <> magic -> take 4 (ellswift_of skb) <> magic ->
  exists m pa pb,
    keys_from (bip_prk magic (bip_secret (ellswift_of ska) (ellswift_of skb) ska PartyA)) m /\
    hs_begin magic Initiator ska ga = Ret pa /\ hs_begin magic Responder skb gb = Ret pb /\
    (first_at (initiator_garbage_terminator m)
       (garbage_bytes ga ++ initiator_garbage_terminator m) (len (garbage_bytes ga)) ->
     first_at (responder_garbage_terminator m)
       (garbage_bytes gb ++ responder_garbage_terminator m) (len (garbage_bytes gb)) ->
     forall fla flb A wra fsha senta helda fita B wrb fshb sentb heldb fitb,
       @holding A wra fsha senta helda -> obliging wra fsha fita -> @holding B wrb fshb sentb heldb -> obliging wrb fshb fitb ->
     forall sta stb, fita sta -> helda sta = [] -> fitb stb -> heldb stb = [] ->
     forall n x,
       pair_run A wra fsha senta B wrb fshb sentb fla flb da db n (Pair A B pa sta pb stb [] []) x ->
       N.of_nat n <= 8 + 3 * (flight1 ga + flight2 da + flight1 gb + flight2 db) /\
       (at_rest A wra fsha senta B wrb fshb sentb fla flb da db x ->
        exists ia oca sra ib ocb srb sta' stb',
          x = Pair A B (Over (Ok (ia, oca, sra))) sta' (Over (Ok (ib, ocb, srb))) stb' [] [] /\
          ia = ocb /\ ib = oca /\ session_leftover sra = [] /\ session_leftover srb = [] /\
          helda sta' = [] /\ heldb stb' = [])).
Proof.
  intros E EL magic ska skb ga gb da db EA Hm Va Vb Hz Hga Hgb Hda Hdb Ho Ma Mb.
  destruct (endpoints magic ska skb ga gb da db EA Hm Va Vb Hz Hga Hgb Hda Hdb) as
    (ha & fa & hb & fb & ha' & wa & hb' & wb & m & oca & ocb & Sa & Sb & [La Lb] & Ka & Kb & KF & Oa & Ob & _ & _ & Fin);
    try assumption.
  destruct (flight1_len magic Initiator ska ga ha fa Va (fun H => proj1 (Hz H)) Hga Sa) as (Ha & Xa & Ta).
  destruct (flight1_len magic Responder skb gb hb fb Vb (fun H => proj2 (Hz H)) Hgb Sb) as (Hb & Xb & Tb).
  assert (Ya : len wa = flight2 da).
  { rewrite Ha, Tb in Ka. eapply flight2_len; [exact Hm|apply ellswift_len|exact Mb|intros Q; apply Ho, Q|exact Ka]. }
  assert (Yb : len wb = flight2 db).
  { rewrite Hb, Ta in Kb. eapply flight2_len; [exact Hm|apply ellswift_len|exact Ma|intros Q; apply Ho, Q|exact Kb]. }
  assert (Pos : forall d, 0 < flight2 d) by (intros; unfold flight2; lia).
  exists m, (SendingKey fa ha), (SendingKey fb hb). split; [exact KF|].
  split; [now apply begins|]. split; [now apply begins|].
  intros F1 F2 fla flb A wra fsha senta helda fita B wrb fshb sentb heldb fitb HA OA HB OB sta stb Fa0 Ea0 Fb0 Eb0 n x R.
  destruct (Fin F1 F2 [] []) as [Ca Cb]. rewrite !app_nil_r in Ca, Cb.
  rewrite <- (drop_app_le 64 fb wb) in Ca by assumption. rewrite <- (drop_app_le 64 fa wa) in Cb by assumption.
  rewrite <- (take_app_le 64 fb wb) in Ka by assumption. rewrite <- (take_app_le 64 fa wa) in Kb by assumption.
  rewrite <- Xa, <- Xb, <- Ya, <- Yb.
  assert (Na : 0 < len wa) by (rewrite Ya; apply Pos). assert (Nb : 0 < len wb) by (rewrite Yb; apply Pos).
  assert (SIM : (exists K0, forall K, K0 <= K -> pipe_run fla flb da db K n (start ha hb fa fb)
      (Pipes (at_a A B x) (at_b A B x) (to_b A B x ++ helda (out_a A B x)) (to_a A B x ++ heldb (out_b A B x)))) /\
    fita (out_a A B x) /\ fitb (out_b A B x) /\ (listens (at_a A B x) -> helda (out_a A B x) = []) /\ (listens (at_b A B x) -> heldb (out_b A B x) = [])).
  { remember (Pair A B (SendingKey fa ha) sta (SendingKey fb hb) stb [] []) as x0 eqn:E0.
    induction R as [x|n k x y z R IH S]; subst x.
    - cbn [at_a at_b to_b to_a out_a out_b]. rewrite Ea0, Eb0. split; [exists 0; intros; apply run_start|]. auto.
    - destruct (IH eq_refl) as ((K0 & RK) & G1 & G2 & G3 & G4). clear IH.
      destruct (joint_run fla flb magic ska skb ga gb da db K0 ha hb fa fb ha' hb' wa wb Hm Sa Sb La Lb Ka Kb Na Nb n _ (RK K0 ltac:(lia)))
        as (ca & oa & cb & ob & (_ & A2 & _) & (_ & B2 & _) & _).
      destruct S as [p st q u ab ba p' st' ba' out O|p st q u ab ba q' u' ab' out O]; cbn [at_a at_b to_b to_a out_a out_b side_a side_b] in *.
      + assert (HR : has_rest p) by (destruct p; cbn [stands has_rest] in *; try exact I; apply A2).
        destruct (operation_turn A wra fsha senta helda fita fla da HA OA p st ba p' st' ba' out (heldb u) O HR G1 G3) as (G1' & G3' & T).
        split; [|auto]. destruct (held_up A wra fsha p st).
        * destruct T as (-> & -> & T). exists K0. intros K LK. rewrite <- app_assoc, T. exact (RK K LK).
        * destruct T as (took & least & Q & T). exists (K0 + least + len (ab ++ helda st)). intros K LK.
          rewrite <- app_assoc, Q, app_assoc. cbn [Nat.add]. eapply run_step; [exact (RK K ltac:(lia))|]. apply step_a, T. lia.
      + assert (HR : has_rest q) by (destruct q; cbn [stands has_rest] in *; try exact I; apply B2).
        destruct (operation_turn B wrb fshb sentb heldb fitb flb db HB OB q u ab q' u' ab' out (helda st) O HR G2 G4) as (G2' & G4' & T).
        split; [|auto]. destruct (held_up B wrb fshb q u).
        * destruct T as (-> & -> & T). exists K0. intros K LK. rewrite <- app_assoc, T. exact (RK K LK).
        * destruct T as (took & least & Q & T). exists (K0 + least + len (ba ++ heldb u)). intros K LK.
          rewrite <- app_assoc, Q, app_assoc. cbn [Nat.add]. eapply run_step; [exact (RK K ltac:(lia))|]. apply step_b, T. lia. }
  clear R. destruct SIM as ((K0 & RK) & G1 & G2 & G3 & G4).
  pose (K := K0 + len fa + len wa + len fb + len wb). specialize (RK K ltac:(lia)).
  pose proof (run_bounded fla flb magic ska skb ga gb da db K ha hb fa fb ha' hb' wa wb Hm Sa Sb La Lb Ka Kb Na Nb n _ RK) as BD.
  split; [lia|]. intros REST.
  destruct x as [p st q u ab ba]. cbn [at_a at_b to_b to_a out_a out_b] in *.
  pose proof (fun x => over_a fla flb magic ska skb ga gb da db K ha hb fa fb ha' hb' wa wb ocb Hm Sa Sb La Lb Ka Kb Na Nb Ca n _ x RK) as VA.
  pose proof (fun x => over_b fla flb magic ska skb ga gb da db K ha hb fa fb ha' hb' wa wb oca Hm Sa Sb La Lb Ka Kb Na Nb Cb n _ x RK) as VB.
  assert (NA : forall room p1 inc1 out1, ~ turn fla da p ba room p1 inc1 out1).
  { intros room p1 inc1 out1 T. destruct (turn_operation A wra fsha senta helda fla da HA p st ba room p1 inc1 out1 T) as (p' & st' & inc' & out & O).
    eapply REST, pair_a, O. }
  assert (NB : forall room p1 inc1 out1, ~ turn flb db q ab room p1 inc1 out1).
  { intros room p1 inc1 out1 T. destruct (turn_operation B wrb fshb sentb heldb flb db HB q u ab room p1 inc1 out1 T) as (p' & st' & inc' & out & O).
    eapply REST, pair_b, O. }
  destruct (joint_run fla flb magic ska skb ga gb da db K ha hb fa fb ha' hb' wa wb Hm Sa Sb La Lb Ka Kb Na Nb n _ RK)
    as (ca & oa & cb & ob & (A1 & A2 & A3) & (B1 & B2 & B3) & Qa & Qb & _).
  destruct (stands_facts _ _ _ _ _ _ A2) as ((ra & Pa) & _). destruct (stands_facts _ _ _ _ _ _ B2) as ((rb & Pb) & _).
  cbn [side_a side_b a_to_b b_to_a] in *.
  assert (P1 : ca ++ ba ++ (heldb u ++ rb) = fb ++ wb) by (rewrite <- Pb, Qb, <- !app_assoc; reflexivity).
  assert (P2 : cb ++ ab ++ (helda st ++ ra) = fa ++ wa) by (rewrite <- Pa, Qa, <- !app_assoc; reflexivity).
  assert (TA : 64 < len (fa ++ wa)) by (rewrite len_app; lia). assert (TB : 64 < len (fb ++ wb)) by (rewrite len_app; lia).
  assert (EA1 : helda st = []).
  { destruct (can_turn _ _ _ _ _ _ _ _ _ _ _ _ Hm Sa TB Ka Ca _ _ _ _ _ 1 P1 A1) as [Z|[[_ Z]|[[Z _]|(p' & inc' & out & T)]]].
    - destruct p; try discriminate Z. destruct (VA _ eq_refl) as (? & ? & ? & _ & _ & _ & _ & _ & Z' & _). subst; exact (G3 I).
    - discriminate Z.
    - exact (G3 (input_listens _ Z)).
    - exfalso. exact (NA _ _ _ _ T). }
  assert (EB1 : heldb u = []).
  { destruct (can_turn _ _ _ _ _ _ _ _ _ _ _ _ Hm Sb TA Kb Cb _ _ _ _ _ 1 P2 B1) as [Z|[[_ Z]|[[Z _]|(p' & inc' & out & T)]]].
    - destruct q; try discriminate Z. destruct (VB _ eq_refl) as (? & ? & ? & _ & _ & _ & _ & _ & Z' & _). subst; exact (G4 I).
    - discriminate Z.
    - exact (G4 (input_listens _ Z)).
    - exfalso. exact (NB _ _ _ _ T). }
  rewrite EA1, EB1, !app_nil_r in *.
  destruct (stopped_ends fla flb magic ska skb ga gb da db K ha hb fa fb ha' hb' wa wb ocb oca Hm Sa Sb La Lb Ka Kb Na Nb Ca Cb n _ RK) as [Za Zb].
  { intros y S. inversion S as [? p1 ? ? ? ba1 out1 T|? ? q1 ? ? ab1 out1 T]; subst; [exact (NA _ _ _ _ T)|exact (NB _ _ _ _ T)]. }
  { unfold clogs, K. lia. }
  cbn [side_a side_b] in *. destruct p; try discriminate. destruct q; try discriminate.
  destruct (VA _ eq_refl) as (? & ? & sra & _ & _ & _ & -> & _ & -> & Q1). destruct (VB _ eq_refl) as (? & ? & srb & _ & _ & _ & -> & _ & -> & Q2).
  exists ocb, oca, sra, oca, ocb, srb, st, u. rewrite Oa, Ob. repeat match goal with |- _ /\ _ => split end; auto.
Qed.
Print Assumptions C113_pair.

(** A schedule: whose turn it is and how many bytes a [read] gets.  [None]: that endpoint can do nothing. *)
Definition play_one {E : Env} (fl : flavor) (p : place) (b : buf_writer) (inc : bytes) (n : N) : option (place * buf_writer * bytes * bytes) :=
  if is_over p then None else
  let m := N.min n (len inc) in
  if wants_input p then
    if m =? 0 then None else
    match any_wstep buf_writer (buf_write fl) (buf_flush fl) fl None p [Chunk (take m inc)] b with
    | Ret (p', s', b') => Some (p', b', unread s' ++ drop m inc, [])
    | _ => None
    end
  else
    match any_wstep buf_writer (buf_write fl) (buf_flush fl) fl None p [] b with
    | Ret (p', _, b') => Some (p', b', inc, drop (len (written (bw_inner b))) (written (bw_inner b')))
    | _ => None
    end.
Fixpoint play {E : Env} (moves : list (bool * N)) (x : pair buf_writer buf_writer) : option (pair buf_writer buf_writer) :=
  match moves, x with
  | [], _ => Some x
  | (true, n) :: moves, Pair _ _ p b q c ab ba =>
    match play_one Sync p b ba n with Some (p, b, ba, out) => play moves (Pair _ _ p b q c (ab ++ out) ba) | None => None end
  | (false, n) :: moves, Pair _ _ p b q c ab ba =>
    match play_one Tokio q c ab n with Some (q, c, ab, out) => play moves (Pair _ _ p b q c ab (ba ++ out)) | None => None end
  end.

Lemma any_wstep_sent {E : Env} fl d p s b p' s' b' : any_wstep buf_writer (buf_write fl) (buf_flush fl) fl d p s b = Ret (p', s', b') ->
  exists more, written (bw_inner b') = written (bw_inner b) ++ more.
Proof.
  destruct (C93_bufwriter fl) as ((HW & HF) & _). intros H.
  assert (WR : forall rest x b', any_write_once buf_writer (buf_write fl) fl b rest = (x, b') -> exists more, written (bw_inner b') = written (bw_inner b) ++ more).
  { clear H. intros rest x b1 H. unfold any_write_once in H. destruct (buf_write fl b rest) as [o b2] eqn:W. destruct (HW _ _ _ _ W) as (M & _).
    destruct o as [[n|k]|]; injection H as _ <-; exact M. }
  destruct p; cbn [any_wstep] in H;
    try (apply bind_ret_inv in H; destruct H as ([[p1 s1] w1] & _ & Q); injection Q as _ _ <-; exists []; now rewrite app_nil_r).
  all: lazymatch type of H with
    | context [any_write_once ?a ?w ?f ?c ?r] => destruct (any_write_once a w f c r) as [x b1] eqn:W; injection H as _ _ <-; exact (WR _ _ _ W)
    | context [buf_flush ?f ?c] => destruct (buf_flush f c) as [x b1] eqn:W; injection H as _ _ <-; exact (proj1 (HF _ _ _ W))
    end.
Qed.
Lemma play_one_operation {E : Env} fl p b inc n p' b' inc' out : play_one fl p b inc n = Some (p', b', inc', out) ->
  operation buf_writer (buf_write fl) (buf_flush fl) (fun b => written (bw_inner b)) fl None p b inc p' b' inc' out.
Proof.
  intros H. unfold play_one in H. destruct (is_over p) eqn:NO; [discriminate|]. destruct (wants_input p) eqn:WI.
  - destruct (N.eqb_spec (N.min n (len inc)) 0); [discriminate|].
    destruct (any_wstep _ _ _ _ _ _ _ _) as [[[p1 s1] b1]| |] eqn:S; try discriminate. injection H as <- <- <- <-.
    eapply op_read; [exact WI| |exact S]. lia.
  - destruct (any_wstep _ _ _ _ _ _ _ _) as [[[p1 s1] b1]| |] eqn:S; try discriminate. injection H as <- <- <- <-.
    eapply op_other; [exact WI|exact NO|exact S|]. destruct (any_wstep_sent _ _ _ _ _ _ _ _ S) as (more & ->). now rewrite drop_app_exact.
Qed.
(** What is played is a run. *)
Lemma play_runs {E : Env} x0 : forall moves n x y,
  pair_run buf_writer (buf_write Sync) (buf_flush Sync) (fun b => written (bw_inner b)) buf_writer (buf_write Tokio) (buf_flush Tokio)
    (fun b => written (bw_inner b)) Sync Tokio None None n x0 x ->
  play moves x = Some y -> exists n,
  pair_run buf_writer (buf_write Sync) (buf_flush Sync) (fun b => written (bw_inner b)) buf_writer (buf_write Tokio) (buf_flush Tokio)
    (fun b => written (bw_inner b)) Sync Tokio None None n x0 y.
Proof.
  induction moves as [|[[|] m] moves IH]; intros n [p b q c ab ba] y R H; cbn [play] in H.
  - injection H as <-. eauto.
  - destruct (play_one _ _ _ _ _) as [[[[p' b'] ba'] out]|] eqn:P; [|discriminate]. refine (IH _ _ _ _ H).
    eapply pair_more; [exact R|]. apply pair_a. exact (play_one_operation _ _ _ _ _ _ _ _ _ P).
  - destruct (play_one _ _ _ _ _) as [[[[p' b'] ba'] out]|] eqn:P; [|discriminate]. refine (IH _ _ _ _ H).
    eapply pair_more; [exact R|]. apply pair_b. exact (play_one_operation _ _ _ _ _ _ _ _ _ P).
Qed.

(** An initiator on [std::io] with 300 bytes of garbage and a [BufWriter] of 100 bytes over a transport that takes 7 bytes, is not ready, then
    takes the rest; a responder on [tokio] with a [BufWriter] of 8192 bytes.  After its [write] the responder has sent nothing.  Both complete. *)
Definition pair_of_buffers {E : Env} : run (pair buf_writer buf_writer) :=
  let! p := hs_begin mainnet Initiator ska (Some (repeat x2a 300)) in
  let! q := hs_begin mainnet Responder skb None in
  Ret (Pair _ _ p (buf_writer_new 100 (Writer [Accept 7; WPending] [] [])) q (buf_writer_new 8192 (Writer [] [FlushPending] [])) [] []).
Definition sample_moves : list (bool * N) :=
  [(false, 0); (true, 0); (true, 0); (true, 0); (true, 0); (false, 0); (false, 0); (false, 7); (false, 1000); (false, 0); (false, 0); (true, 1000);
   (true, 0); (true, 0); (true, 1000); (true, 1000); (true, 1000);
   (false, 1000); (false, 1000); (false, 1000); (false, 1000); (false, 0)].
Example C113_example :
  match @pair_of_buffers (toy true) with
  | Ret x0 =>
    (exists x, @play (toy true) (firstn 1 sample_moves) x0 = Some x /\ len (bw_buffer (out_b _ _ x)) = 64 /\ to_a _ _ x = []) /\
    exists x n, @play (toy true) sample_moves x0 = Some x /\
      @pair_run (toy true) buf_writer (buf_write Sync) (buf_flush Sync) (fun b => written (bw_inner b)) buf_writer (buf_write Tokio) (buf_flush Tokio)
        (fun b => written (bw_inner b)) Sync Tokio None None n x0 x /\
      match x with
      | Pair _ _ (Over (Ok (ia, oa, _))) b (Over (Ok (ib, ob, _))) c [] [] => ia = ob /\ ib = oa /\ bw_buffer b = [] /\ bw_buffer c = []
      | _ => False
      end
  | _ => False
  end.
Proof.
  destruct (@pair_of_buffers (toy true)) as [x0| |] eqn:P; [|vm_compute in P; discriminate P..].
  pose proof (play_runs (E := toy true) x0 sample_moves 0 x0) as R.
  vm_compute in P. injection P as <-.
  split; [eexists; split; [vm_compute; reflexivity|]; split; vm_compute; reflexivity|].
  match goal with |- exists x n, ?p = Some x /\ _ => destruct p as [x|] eqn:Q end; [|vm_compute in Q; discriminate Q].
  destruct (R x (pair_start _ _ _ _ _ _ _ _ _ _ _ _ _) eq_refl) as (n & R'). exists x, n. split; [reflexivity|]. split; [exact R'|].
  clear R R'. vm_compute in Q. injection Q as <-. repeat split.
Qed.
Print Assumptions C113_example.
