(** * ExampleProofs: the runs of the example program

    Lemmas for PropsExample.v: reading many payloads from a faithful reader, the messages of a scenario, and counting the reads. *)
From Coq Require Import List Arith NArith Bool Lia.
From Coq.Strings Require Import Byte.
From Verif Require Import Base BaseFacts Env FsChacha Cipher Histories CipherProofs Handshake SpecHandshake HsDriver Transport TransportProofs Io
  SpecIo IoRunProofs SpecTraffic Sessions SessionProofs Futures FuturesProofs ReaderProofs EndpointProofs Toy PropsCipher PropsHandshake PropsIo HsSteps HsStepsProofs PipesProofs PropsPipes
  HsRunProofs PropsSession PropsShape Buffered SpecBuffered BufferedProofs PropsBuffered ExampleProgram.
Import ListNotations.
Local Open Scope N_scope.

(** ** Reading over any reader *)
Section Reading.
Context {E : Env} {EL : EnvLaws E}.
Variables (St : Type) (rd : St -> N -> option read_result * St) (rest : St -> script) (size : St -> nat).
Hypothesis faith : faithful rd rest size.

Definition behind (sr : session) (st : St) : nat := length (session_leftover sr) + size st.

Lemma fill_waits : forall fuel sr st buf m x sr' st' buf' m', owned sr ->
  any_fill St rd fuel sr st buf m = Ret (x, sr', st', buf', m') ->
  owned sr' /\ (behind sr' st' <= behind sr st)%nat /\ (x = Waiting -> (behind sr' st' < behind sr st)%nat).
Proof.
  unfold behind. induction fuel as [|fuel IH]; intros sr st buf m x sr' st' buf' m' O H; [discriminate H|]. cbn [any_fill] in H.
  destruct (N.ltb_spec m (len buf)) as [G|G].
  2:{ injection H as <- <- <- <- <-. repeat split; [exact O|lia|discriminate]. }
  destruct (any_session_poll St rd rest size faith sr st (len buf - m) O ltac:(lia)) as (o & sr1 & st1 & tr & Q & O1 & _ & _ & _ & SZ). rewrite Q in H.
  destruct o as [[[|y bs]|k]|].
  - injection H as <- <- <- <- <-. destruct SZ as (_ & SZ & _). cbn [length] in SZ. repeat split; [exact O1|lia|discriminate].
  - destruct SZ as (_ & SZ & _). destruct (splice buf m (m + len (y :: bs)) (y :: bs)) as [b1| |]; cbn [bind] in H; try discriminate H.
    destruct (IH _ _ _ _ _ _ _ _ _ O1 H) as (I1 & I2 & I3). cbn [length] in SZ. repeat split; [exact I1|lia|]. intros W. specialize (I3 W). lia.
  - injection H as <- <- <- <- <-. repeat split; [exact O1|lia|discriminate].
  - injection H as <- <- <- <- <-. repeat split; [exact O1|lia|lia].
Qed.

Lemma payload_waits fuel c sr st pb m x r' st' f' : owned sr -> any_payload St rd fuel c sr st pb m = Ret (x, r', st', f') ->
  owned (tr_reader r') /\ (behind (tr_reader r') st' <= behind sr st)%nat /\ (x = NotReady -> (behind (tr_reader r') st' < behind sr st)%nat).
Proof.
  intros O H. unfold any_payload in H. destruct (any_fill St rd fuel sr st pb m) as [[[[[y sr1] st1] pb1] m1]| |] eqn:A; cbn [bind] in H; try discriminate H.
  destruct (fill_waits _ _ _ _ _ _ _ _ _ _ O A) as (F1 & F2 & F3). destruct y.
  - destruct (decryption_buffer_len (len pb1)); cbn [bind] in H; try discriminate H.
    destruct (decrypt c pb1 _ None) as [[[[u|e] c1] pt]| |]; cbn [bind] in H; try discriminate H.
    + destruct (payload_decrypted pt); cbn [bind] in H; try discriminate H. injection H as <- <- <- _. repeat split; [exact F1|exact F2|discriminate].
    + injection H as <- <- <- _. repeat split; [exact F1|exact F2|discriminate].
  - injection H as <- <- <- _. repeat split; [exact F1|exact F2|]. intros _. apply F3. reflexivity.
  - injection H as <- <- <- _. repeat split; [exact F1|exact F2|discriminate].
Qed.

Lemma poll_waits fuel f r st x r' st' f' : owned (tr_reader r) -> any_poll_read St rd fuel f r st = Ret (x, r', st', f') ->
  owned (tr_reader r') /\ (behind (tr_reader r') st' <= behind (tr_reader r) st)%nat /\
  (x = NotReady -> (behind (tr_reader r') st' < behind (tr_reader r) st)%nat).
Proof.
  intros O H. destruct r as [c sr s]. cbn [tr_reader] in *. unfold any_poll_read in H. cbn [tr_state tr_cipher tr_reader] in H.
  assert (L : forall lb n, any_length St rd fuel c sr st lb n = Ret (x, r', st', f') ->
    owned (tr_reader r') /\ (behind (tr_reader r') st' <= behind sr st)%nat /\ (x = NotReady -> (behind (tr_reader r') st' < behind sr st)%nat)).
  { intros lb n Q. unfold any_length in Q. destruct (any_fill St rd fuel sr st lb n) as [[[[[y sr1] st1] pb1] m1]| |] eqn:A; cbn [bind] in Q; try discriminate Q.
    destruct (fill_waits _ _ _ _ _ _ _ _ _ _ O A) as (F1 & F2 & F3). destruct y.
    - destruct (decrypt_packet_len c pb1) as [[pn c1]| |]; cbn [bind] in Q; try discriminate Q. apply (payload_waits _ _ _ _ _ _ _ _ _ _ F1) in Q.
      destruct Q as (Q1 & Q2 & Q3). repeat split; [exact Q1|lia|]. intros W. specialize (Q3 W). lia.
    - injection Q as <- <- <- _. repeat split; [exact F1|exact F2|]. intros _. apply F3. reflexivity.
    - injection Q as <- <- <- _. repeat split; [exact F1|exact F2|discriminate]. }
  destruct f, s as [lb n|pb n]; try discriminate H; first [exact (L _ _ H)|exact (payload_waits _ _ _ _ _ _ _ _ _ _ O H)].
Qed.

Lemma same_session sr s1 s2 : same_items s1 s2 -> session_stream Tokio (set_inner sr s1) = session_stream Tokio (set_inner sr s2).
Proof. intros H. unfold session_stream. now rewrite !session_inner_set, !leftover_set, (same_flatten Tokio _ _ H). Qed.

Lemma same_within r s1 s2 c wire e : same_items s1 s2 -> within (set_reader r s2) c wire e -> within (set_reader r s1) c wire e.
Proof.
  intros H ((l & pos & s & O) & z & S1 & S2). unfold within, set_reader in *. cbn [tr_reader tr_state tr_cipher] in *. split.
  - destruct (tr_reader r); [discriminate O|]. cbn [set_inner]. eauto.
  - exists z. rewrite (same_session _ _ _ H). auto.
Qed.

Lemma within_anywhere r s s' c wire e : within (set_reader r s) c wire e -> exists wire', FuturesProofs.stands (set_reader r s') c wire'.
Proof.
  intros (_ & z & _ & H). unfold FuturesProofs.stands, set_reader in *. cbn [tr_state tr_cipher tr_reader] in *. destruct (tr_state r) as [lb n|pb n].
  - destruct H as (H1 & H2 & H3 & _). eexists. eauto.
  - destruct H as (lb & H1 & H2 & H3 & _). eexists. exists lb. eauto.
Qed.

Lemma fits_set f r s : future_fits f (set_reader r s) <-> future_fits f r.
Proof. reflexivity. Qed.

(** The payloads of the packets at the beginning of the stream. *)
Lemma reads_deliver fuel : forall polls ps f r st c wire e c1 more k,
  owned (tr_reader r) -> (behind (tr_reader r) st < fuel)%nat -> within (set_reader r (rest st)) c wire e -> future_fits f r ->
  counted k c -> (overflow_checks = true -> k + len ps < 2 ^ 32) ->
  recv_all c (repeat None (length ps)) wire = Ret (Some ps, c1, more) ->
  (length ps + behind (tr_reader r) st <= polls)%nat ->
  exists qs r' st', read_payloads St rd polls fuel (length ps) f r st = Ret (Ok qs, r', st') /\
    map payload_view qs = map Ret ps /\ within (set_reader r' (rest st')) c1 more e.
Proof.
  induction polls as [|polls IH]; intros ps f r st c wire e c1 more k O FU W FF C R Q L.
  { destruct ps as [|p ps]; [|cbn [length] in L; lia]. cbn [length repeat recv_all] in Q. injection Q as <- <-. exists [], r, st. auto. }
  destruct ps as [|[t x] ps].
  { cbn [length repeat recv_all] in Q. injection Q as <- <-. exists [], r, st. auto. }
  cbn [length read_payloads]. rewrite len_cons in R.
  assert (RO : room k) by (intros H; specialize (R H); lia).
  destruct (any_poll_meaning St rd rest size faith fuel f r st O FU) as (tr & M).
  destruct (any_poll_read St rd fuel f r st) as [[[[y r1] st1] f1]| |] eqn:A.
  2,3: exfalso; destruct (within_anywhere _ _ (tr ++ []) _ _ _ W) as (w' & ST);
       destruct (poll_total f _ c w' k ST (proj2 (fits_set _ _ _) FF) C RO) as (a1 & a2 & a3 & P); rewrite M in P; discriminate P.
  cbn [bind]. destruct M as (O1 & SM & _ & M). specialize (M (rest st1)).
  destruct (poll_waits _ _ _ _ _ _ _ _ O A) as (_ & B1 & B2).
  pose proof (same_within r _ _ c wire e SM W) as W1.
  pose proof (poll_within f _ c wire e _ _ _ W1 (proj2 (fits_set _ _ _) FF) M) as PM.
  destruct (within_anywhere _ _ (tr ++ rest st1) _ _ _ W) as (w' & ST).
  destruct (poll_sound f _ c w' _ _ _ ST (proj2 (fits_set _ _ _) FF) M) as (_ & F1 & _). apply (proj1 (fits_set _ _ _)) in F1.
  pose proof Q as Q0. cbn [length repeat recv_all] in Q0.
  apply bind_ret_inv in Q0. destruct Q0 as ([[[p|] c2] w2] & R1 & Q0); [|discriminate Q0].
  apply bind_ret_inv in Q0. destruct Q0 as ([[[l|] c3] w3] & R2 & Q0); [|discriminate Q0].
  injection Q0 as -> -> -> ->.
  destruct y as [[p|[kd si|ie]]|]; cbn [poll_meaning] in PM.
  - destruct PM as (hd & contents & c1' & rest' & -> & PQ & PW). rewrite R1 in PQ. injection PQ as -> -> <- <-.
    destruct (recv_one_total k c None wire C RO) as (? & ? & ? & TT & C1). rewrite R1 in TT. injection TT as _ <- _.
    cbn [length] in L.
    destruct (IH ps f1 r1 st1 c2 w2 e c1 more (k + 1) O1 ltac:(lia) PW F1 C1 ltac:(intros H; specialize (R H); lia) R2 ltac:(lia)) as (qs & r' & st' & I1 & I2 & I3).
    rewrite I1. cbn [bind]. exists (Decrypted (hd :: contents) :: qs), r', st'. split; [reflexivity|]. split; [|exact I3].
    cbn [map]. rewrite I2. f_equal. unfold payload_view. cbn [payload_type payload_contents].
    change (index (hd :: contents) 0) with (Ret hd). cbn [bind].
    rewrite slice_ok by (rewrite len_cons; lia). cbn [bind]. do 2 f_equal.
    change (drop 1 (hd :: contents)) with contents. apply take_all. rewrite len_cons. lia.
  - exfalso. destruct PM as [Cut _]. destruct (cut_short_none _ None _ Cut) as (? & ? & Z). congruence.
  - exfalso. destruct PM as (_ & _ & ? & ? & Z). congruence.
  - specialize (B2 eq_refl).
    destruct (IH ((t, x) :: ps) f1 r1 st1 c wire e c1 more k O1 ltac:(lia) PM F1 C ltac:(rewrite len_cons; exact R) Q ltac:(cbn [length] in L |- *; lia)) as (qs & r' & st' & I1 & I2).
    exists qs, r', st'. exact (conj I1 I2).
Qed.

End Reading.

(** The messages of a scenario, in the order they are sent. *)
Definition messages_of (s : scenario) : list (packet_type * bytes) :=
  List.concat (repeat (map (fun size => (Genuine, repeat x42 (N.to_nat size))) (message_sizes s)) (N.to_nat (iterations s))).

Section Example.
Context {E : Env} {EL : EnvLaws E}.

(** *** The reader of a tokio handshake *)
Definition place_owned (p : place) : Prop :=
  match p with
  | HsSteps.ReadingLength sr _ _ | ReadingPacket sr _ _ _ => owned sr
  | Over (Ok (_, _, sr)) => owned sr
  | _ => True
  end.

Lemma failed_owned e p : failed e = Ret p -> place_owned p.
Proof. intros H. injection H as <-. exact I. Qed.

Lemma packet_owned sr h pb p : owned sr -> packet_read sr h pb = Ret p -> place_owned p.
Proof.
  unfold packet_read. intros O H. destruct (receive_version h pb) as [[[[c|h']|e] b]| |]; cbn [bind] in H; try discriminate H.
  - destruct (into_split c). injection H as <-. exact O.
  - injection H as <-. exact O.
  - exact (failed_owned _ _ H).
Qed.

Lemma length_owned sr h lb p : owned sr -> length_read sr h lb = Ret p -> place_owned p.
Proof.
  unfold length_read. intros O H. destruct (hs_decrypt_packet_len h lb) as [[n h']| |]; cbn [bind] in H; try discriminate H.
  destruct (_ <? n); [exact (failed_owned _ _ H)|]. destruct (n =? 0); [exact (packet_owned _ _ _ _ O H)|]. injection H as <-. exact O.
Qed.

Lemma scan_owned h buf p : scan_garbage Tokio h buf = Ret p -> place_owned p.
Proof.
  unfold scan_garbage. intros H. destruct (receive_garbage h buf) as [[[h' c|h']|e]| |]; cbn [bind] in H; try discriminate H.
  - destruct (slice buf c (len buf)); cbn [bind] in H; try discriminate H. injection H as <-. exact I.
  - injection H as <-. exact I.
  - exact (failed_owned _ _ H).
Qed.

Lemma key_owned d h b p : key_read d h b = Ret p -> place_owned p.
Proof.
  unfold key_read. intros H. destruct (receive_key h b) as [[h'|e]| |]; cbn [bind] in H; try discriminate H; [|exact (failed_owned _ _ H)].
  destruct (send_version h' (zeros (send_version_len d)) d) as [[[h2|e] vb]| |]; cbn [bind] in H; try discriminate H; [|exact (failed_owned _ _ H)].
  injection H as <-. exact I.
Qed.

Lemma reading_owned n got r again done p : (forall g, place_owned (again g)) -> (forall g q, done g = Ret q -> place_owned q) ->
  reading Tokio n got r again done = Ret p -> place_owned p.
Proof.
  intros A D H. unfold reading in H. destruct r as [[|b l]|k].
  - exact (failed_owned _ _ H).
  - destruct (n <=? _); [exact (D _ _ H)|]. injection H as <-. apply A.
  - cbn [retries] in H. exact (failed_owned _ _ H).
Qed.

Lemma session_read_owned sr n r sr' : owned sr -> session_read sr n = (r, sr') -> owned sr'.
Proof.
  destruct sr as [? ? ?|l pos s]; [contradiction|]. intros _ H. cbn [session_read] in H. destruct (pos <? len l); [injection H as _ <-; exact I|].
  destruct (read s n). injection H as _ <-. exact I.
Qed.

Lemma set_owned sr s : owned sr -> owned (set_inner sr s).
Proof. now destruct sr. Qed.

Lemma hs_step_owned d p s w p' s' w' : place_owned p -> hs_step Tokio d p s w = Ret (p', s', w') -> place_owned p'.
Proof.
  intros O H. destruct p as [rest h|h|got h|rest h|h|got h|buf h|sr got h|sr n got h|x]; cbn [hs_step] in H.
  - destruct (write_once Tokio w rest) as [[|r|k] w1]; injection H as <- _ _; exact I.
  - destruct (flush w) as [[u|k] w1]; injection H as <- _ _; exact I.
  - destruct (read s _) as [r s1]. destruct (reading _ _ _ _ _ _) as [q| |] eqn:R; cbn [bind] in H; try discriminate H. injection H as <- _ _.
    eapply reading_owned; [| |exact R]; [intros; exact I|intros g q' Q; exact (key_owned _ _ _ _ Q)].
  - destruct (write_once Tokio w rest) as [[|r|k] w1]; injection H as <- _ _; exact I.
  - destruct (flush w) as [[u|k] w1]; injection H as <- _ _; exact I.
  - destruct (read s _) as [r s1]. destruct (reading _ _ _ _ _ _) as [q| |] eqn:R; cbn [bind] in H; try discriminate H. injection H as <- _ _.
    eapply reading_owned; [| |exact R]; [intros; exact I|intros g q' Q; exact (scan_owned _ _ _ Q)].
  - destruct (read s 256) as [r s1]. destruct r as [[|b l]|k].
    + injection H as <- _ _. exact I.
    + destruct (scan_garbage _ _ _) as [q| |] eqn:R; cbn [bind] in H; try discriminate H. injection H as <- _ _. exact (scan_owned _ _ _ R).
    + injection H as <- _ _. exact I.
  - destruct (session_read (set_inner sr s) _) as [r sr1] eqn:R0. apply session_read_owned in R0; [|apply set_owned; exact O].
    destruct (reading _ _ _ _ _ _) as [q| |] eqn:R; cbn [bind] in H; try discriminate H. injection H as <- _ _.
    eapply reading_owned; [| |exact R]; [intros; apply set_owned; exact R0|intros g q' Q; exact (length_owned _ _ _ _ (set_owned _ _ R0) Q)].
  - destruct (session_read (set_inner sr s) _) as [r sr1] eqn:R0. apply session_read_owned in R0; [|apply set_owned; exact O].
    destruct (reading _ _ _ _ _ _) as [q| |] eqn:R; cbn [bind] in H; try discriminate H. injection H as <- _ _.
    eapply reading_owned; [| |exact R]; [intros; apply set_owned; exact R0|intros g q' Q; exact (packet_owned _ _ _ _ (set_owned _ _ R0) Q)].
  - injection H as <- _ _. exact O.
Qed.

Lemma any_steps_owned St rd d : forall n p st w p' st' w', place_owned p -> any_steps St rd n Tokio d p st w = Ret (p', st', w') -> place_owned p'.
Proof.
  induction n as [|n IH]; intros p st w p' st' w' O H; cbn [any_steps] in H.
  - injection H as <- _ _. exact O.
  - destruct (any_step St rd Tokio d p st w) as [[[p1 st1] w1]| |] eqn:S1; cbn [bind] in H; try discriminate H. eapply IH; [|exact H]. clear H IH.
    unfold any_step in S1. destruct (request p).
    + destruct (rd st _) as [[r|] st2].
      * destruct (hs_step Tokio d p _ w) as [[[p2 s2] w2]| |] eqn:H; cbn [bind] in S1; try discriminate S1. injection S1 as <- _ _. exact (hs_step_owned _ _ _ _ _ _ _ O H).
      * injection S1 as <- _ _. exact O.
    + destruct (hs_step Tokio d p _ w) as [[[p2 s2] w2]| |] eqn:H; cbn [bind] in S1; try discriminate S1. injection S1 as <- _ _. exact (hs_step_owned _ _ _ _ _ _ _ O H).
Qed.

Lemma begin_owned magic r rnd g p : hs_begin magic r rnd g = Ret p -> place_owned p.
Proof.
  unfold hs_begin, begin. destruct (hs_new magic r rnd) as [[h|e]| |]; cbn [bind]; try discriminate.
  - destruct (send_key h g (zeros (send_key_len g))) as [[[h'|e] kb]| |]; cbn [bind]; try discriminate; intros H; injection H as <-; exact I.
  - intros H. injection H as <-. exact I.
Qed.

(** *** The server's loop *)
Lemma write_payloads_many : forall (pls : list payload) p p', write_many Tokio p pls = Ret (map (fun _ => Ok tt) pls, p') -> write_payloads p pls = Ret p'.
Proof.
  induction pls as [|pl pls IH]; intros p p' H; cbn [write_many write_payloads] in *.
  - now injection H as <-.
  - cbn [write_any] in H. destruct (tokio_write p pl) as [[x p1]| |]; cbn [bind] in *; try discriminate H.
    destruct (write_many Tokio p1 pls) as [[xs p2]| |] eqn:W; cbn [bind] in H; try discriminate H.
    assert (x = Ok tt) as -> by (cbn [map] in H; congruence). apply IH. rewrite W. cbn [map] in H. congruence.
Qed.

Lemma write_payloads_app : forall l1 l2 p, write_payloads p (l1 ++ l2) = let! p := write_payloads p l1 in write_payloads p l2.
Proof.
  induction l1 as [|pl l1 IH]; intros l2 p; cbn [app write_payloads]; [reflexivity|].
  destruct (tokio_write p pl) as [[[u|e] p1]| |]; cbn [bind]; try reflexivity. apply IH.
Qed.

Lemma dump_concat : forall n p l, dump n p l = write_payloads p (List.concat (repeat l n)).
Proof.
  induction n as [|n IH]; intros p l; cbn [dump repeat List.concat]; [reflexivity|].
  rewrite write_payloads_app. destruct (write_payloads p l); cbn [bind]; [apply IH|reflexivity..].
Qed.

Lemma payloads_messages s : List.concat (repeat (example_payloads s) (N.to_nat (iterations s))) = map payload_of (messages_of s).
Proof.
  unfold messages_of, example_payloads. generalize (N.to_nat (iterations s)) as n. induction n as [|n IH]; cbn [repeat List.concat]; [reflexivity|].
  rewrite map_app, IH, map_map. reflexivity.
Qed.

Lemma len_concat_repeat {A} (l : list A) n : len (List.concat (repeat l n)) = len l * N.of_nat n.
Proof.
  induction n as [|n IH]; cbn [repeat List.concat]; [rewrite len_nil; lia|]. rewrite len_app, IH. lia.
Qed.

Lemma len_messages s : len (messages_of s) = total_messages s.
Proof. unfold messages_of, total_messages. rewrite len_concat_repeat, N2Nat.id. unfold len. now rewrite map_length. Qed.

Definition sizes (l : list (packet_type * bytes)) : N := fold_right (fun p n => len (snd p) + n) 0 l.

Lemma sizes_app l1 l2 : sizes (l1 ++ l2) = sizes l1 + sizes l2.
Proof. induction l1 as [|p l1 IH]; cbn [app sizes fold_right]; [reflexivity|]. fold (sizes (l1 ++ l2)) (sizes l1). rewrite IH. lia. Qed.

Lemma sizes_messages s : sizes (messages_of s) = total_bytes s.
Proof.
  unfold messages_of, total_bytes. rewrite <- (N2Nat.id (iterations s)) at 2. generalize (N.to_nat (iterations s)) as n.
  set (l := map _ (message_sizes s)).
  assert (L : sizes l = fold_right N.add 0 (message_sizes s)).
  { subst l. generalize (message_sizes s) as m. induction m as [|a m IH]; cbn [map sizes fold_right snd]; [reflexivity|].
    fold (sizes (map (fun size => (Genuine, repeat x42 (N.to_nat size))) m)). rewrite IH. unfold len. rewrite repeat_length. lia. }
  induction n as [|n IH]; cbn [repeat List.concat]; [cbn; lia|]. rewrite sizes_app, IH, L. lia.
Qed.

Lemma sum_sizes : forall l, sum (map (fun m => len (m_contents m) + 20) (map as_msg l)) = sizes l + 20 * len l.
Proof.
  induction l as [|[t x] l IH]; cbn [map sum sizes fold_right as_msg m_contents fst snd]; [reflexivity|].
  fold (sizes l). unfold sum in *. cbn [fold_right]. rewrite len_cons. lia.
Qed.

End Example.

(** ** How often the transport is read *)
Section Keeps.
Context {E : Env}.
Variables (St : Type) (rd : St -> N -> option read_result * St) (P : St -> Prop).
Hypothesis keeps : forall st n o st', 0 < n -> P st -> rd st n = (o, st') -> o <> Some (Data []) -> P st'.

Lemma fill_keeps : forall fuel sr st buf m x sr' st' buf' m', P st -> any_fill St rd fuel sr st buf m = Ret (x, sr', st', buf', m') ->
  (forall e, x <> FillErr e) -> P st'.
Proof.
  induction fuel as [|fuel IH]; intros sr st buf m x sr' st' buf' m' H Q NE; [discriminate Q|]. cbn [any_fill] in Q.
  destruct (N.ltb_spec m (len buf)) as [G|G]; [|injection Q as _ _ <- _ _; exact H].
  destruct (any_session_read St rd sr st (len buf - m)) as [[o sr1] st1] eqn:A.
  assert (K : o <> Some (Data []) -> P st1) by (refine (session_read_keeps St rd P keeps sr st (len buf - m) o sr1 st1 _ H A); lia).
  destruct o as [[[|b l]|k]|].
  - injection Q as <- _ _ _ _. now destruct (NE (from_io ConnectionAborted)).
  - destruct (splice buf m _ _); cbn [bind] in Q; try discriminate Q. exact (IH _ _ _ _ _ _ _ _ _ (K ltac:(discriminate)) Q NE).
  - injection Q as <- _ _ _ _. now destruct (NE (from_io k)).
  - injection Q as _ _ <- _ _. apply K. discriminate.
Qed.

Lemma payload_keeps fuel c sr st pb m x r' st' f' : P st -> any_payload St rd fuel c sr st pb m = Ret (x, r', st', f') -> (forall e, x <> Ready (Err e)) -> P st'.
Proof.
  intros H Q NE. unfold any_payload in Q. destruct (any_fill St rd fuel sr st pb m) as [[[[[y sr1] st1] pb1] m1]| |] eqn:A; cbn [bind] in Q; try discriminate Q.
  assert (K : (forall e, y <> FillErr e) -> P st1) by (exact (fill_keeps _ _ _ _ _ _ _ _ _ _ H A)). destruct y.
  - destruct (decryption_buffer_len (len pb1)); cbn [bind] in Q; try discriminate Q.
    destruct (decrypt c pb1 _ None) as [[[[u|e] c1] pt]| |]; cbn [bind] in Q; try discriminate Q.
    + destruct (payload_decrypted pt); cbn [bind] in Q; try discriminate Q. injection Q as _ _ <- _. apply K. discriminate.
    + injection Q as <- _ _ _. now destruct (NE (Internal e)).
  - injection Q as _ _ <- _. apply K. discriminate.
  - injection Q as <- _ _ _. now destruct (NE e).
Qed.

Lemma poll_keeps fuel f r st x r' st' f' : P st -> any_poll_read St rd fuel f r st = Ret (x, r', st', f') -> (forall e, x <> Ready (Err e)) -> P st'.
Proof.
  intros H Q NE. destruct r as [c sr s]. unfold any_poll_read in Q. cbn [tr_state tr_cipher tr_reader] in Q.
  assert (L : forall lb n, any_length St rd fuel c sr st lb n = Ret (x, r', st', f') -> P st').
  { intros lb n L. unfold any_length in L. destruct (any_fill St rd fuel sr st lb n) as [[[[[y sr1] st1] pb1] m1]| |] eqn:A; cbn [bind] in L; try discriminate L.
    assert (K : (forall e, y <> FillErr e) -> P st1) by (exact (fill_keeps _ _ _ _ _ _ _ _ _ _ H A)). destruct y.
    - destruct (decrypt_packet_len c pb1) as [[pn c1]| |]; cbn [bind] in L; try discriminate L. exact (payload_keeps _ _ _ _ _ _ _ _ _ _ (K ltac:(discriminate)) L NE).
    - injection L as _ _ <- _. apply K. discriminate.
    - injection L as <- _ _ _. now destruct (NE e). }
  destruct f, s as [lb n|pb n]; try discriminate Q; first [exact (L _ _ Q)|exact (payload_keeps _ _ _ _ _ _ _ _ _ _ H Q NE)].
Qed.

Lemma payloads_keep fuel : forall polls n f r st ps r' st', P st -> read_payloads St rd polls fuel n f r st = Ret (Ok ps, r', st') -> P st'.
Proof.
  induction polls as [|polls IH]; intros [|n] f r st ps r' st' H Q; cbn [read_payloads] in Q; try discriminate Q; try (injection Q as _ _ <-; exact H).
  destruct (any_poll_read St rd fuel f r st) as [[[[y r1] st1] f1]| |] eqn:A; cbn [bind] in Q; try discriminate Q.
  assert (K : (forall e, y <> Ready (Err e)) -> P st1) by (exact (poll_keeps _ _ _ _ _ _ _ _ H A)). destruct y as [[p|e]|].
  - destruct (read_payloads St rd polls fuel n f1 r1 st1) as [[[[ps2|e] r2] st2]| |] eqn:B; cbn [bind] in Q; try discriminate Q.
    injection Q as _ _ <-. exact (IH _ _ _ _ _ _ _ (K ltac:(discriminate)) B).
  - discriminate Q.
  - exact (IH _ _ _ _ _ _ _ (K ltac:(discriminate)) Q).
Qed.

End Keeps.



Lemma splice_same buf a b src buf' : splice buf a b src = Ret buf' -> len buf' = len buf.
Proof. apply splice_len. Qed.

Lemma decrypt_some {E : Env} c ct buf aad t c' b : decrypt c ct buf aad = Ret (Ok t, c', b) -> 0 < len ct.
Proof.
  unfold decrypt, validate_ciphertext_size. destruct (N.ltb_spec (len ct) (NUM_TAG_BYTES + NUM_HEADER_BYTES)) as [L|L]; [discriminate|].
  intros _. change (NUM_TAG_BYTES + NUM_HEADER_BYTES) with 17 in L. lia.
Qed.

Section Calls.
Context {E : Env}.
Variables (St : Type) (rd : St -> N -> option read_result * St).

Lemma fill_call : forall fuel sr st k buf m x sr' st' k' buf' m', session_leftover sr = [] ->
  any_fill _ (counted_reader rd) fuel sr (st, k) buf m = Ret (x, sr', (st', k'), buf', m') ->
  session_leftover sr' = [] /\ k <= k' /\ len buf' = len buf /\ (x = Filled -> m < len buf -> k + 1 <= k') /\ (x = Waiting -> m' < len buf').
Proof.
  induction fuel as [|fuel IH]; intros sr st k buf m x sr' st' k' buf' m' L Q; [discriminate Q|]. cbn [any_fill] in Q.
  destruct (N.ltb_spec m (len buf)) as [G|G].
  2:{ injection Q as <- <- <- <- <- <-. repeat split; [exact L|lia|intros; lia|discriminate]. }
  unfold any_session_read in Q. rewrite L in Q. unfold counted_reader at 1 in Q. cbn [fst snd] in Q. destruct (rd st (len buf - m)) as [[r|] st1] eqn:R.
  - destruct (empty_read sr L) as (sr1 & L1 & ER). rewrite ER in Q. destruct (read (answer_script r) (len buf - m)) as [r1 s1]. cbn [fst snd] in Q. rewrite set_inner_twice in Q.
    assert (L2 : session_leftover (set_inner sr1 []) = []) by (rewrite leftover_set; exact L1).
    destruct r1 as [[|b l]|e].
    + injection Q as <- <- <- <- <- <-. repeat split; [exact L2|lia|discriminate|discriminate].
    + destruct (splice buf m _ _) as [b1| |] eqn:SP; cbn [bind] in Q; try discriminate Q. apply splice_same in SP.
      destruct (IH _ _ _ _ _ _ _ _ _ _ _ L2 Q) as (I1 & I2 & I3 & _ & I5). repeat split; [exact I1|lia|congruence|intros; lia|exact I5].
    + injection Q as <- <- <- <- <- <-. repeat split; [exact L2|lia|discriminate|discriminate].
  - injection Q as <- <- <- <- <- <-. repeat split; [exact L|lia|discriminate|intros; exact G].
Qed.

(** Reads of the transport still needed for the payload the reader is at. *)
Definition due (r : tokio_reader) : N := match tr_state r with Futures.ReadingLength _ _ => 2 | ReadingPayload _ _ => 1 end.
Definition unfilled (r : tokio_reader) : Prop := match tr_state r with Futures.ReadingLength lb n => n < len lb | ReadingPayload pb n => n < len pb end.

Definition charged (d : N) (k k' : N) (x : poll (result perror payload)) (r' : tokio_reader) : Prop :=
  session_leftover (tr_reader r') = [] /\
  match x with
  | Ready (Ok _) => k + d <= k' /\ due r' = 2 /\ unfilled r'
  | Ready (Err _) => True
  | NotReady => unfilled r' /\ k + d <= k' + due r'
  end.

Lemma payload_call fuel c sr st k pb m x r' st' k' f' : session_leftover sr = [] ->
  any_payload _ (counted_reader rd) fuel c sr (st, k) pb m = Ret (x, r', (st', k'), f') -> (m < len pb \/ m = 0) ->
  charged 1 k k' x r'.
Proof.
  intros L Q M. unfold any_payload in Q. destruct (any_fill _ (counted_reader rd) fuel sr (st, k) pb m) as [[[[[y sr1] [st1 k1]] pb1] m1]| |] eqn:A; cbn [bind] in Q; try discriminate Q.
  destruct (fill_call _ _ _ _ _ _ _ _ _ _ _ _ L A) as (F1 & F2 & F3 & F4 & F5). destruct y.
  - destruct (decryption_buffer_len (len pb1)); cbn [bind] in Q; try discriminate Q.
    destruct (decrypt c pb1 _ None) as [[[[u|e] c1] pt]| |] eqn:D; cbn [bind] in Q; try discriminate Q.
    + destruct (payload_decrypted pt); cbn [bind] in Q; try discriminate Q. injection Q as <- <- <- <- _. apply decrypt_some in D.
      split; [exact F1|]. split; [|split; [reflexivity|exact eq_refl]]. apply F4; [reflexivity|lia].
    + injection Q as <- <- _ _ _. split; [exact F1|exact I].
  - injection Q as <- <- <- <- _. split; [exact F1|]. split; [exact (F5 eq_refl)|]. cbn. lia.
  - injection Q as <- <- _ _ _. split; [exact F1|exact I].
Qed.

Lemma poll_call fuel f r st k x r' st' k' f' : session_leftover (tr_reader r) = [] -> unfilled r ->
  any_poll_read _ (counted_reader rd) fuel f r (st, k) = Ret (x, r', (st', k'), f') -> charged (due r) k k' x r'.
Proof.
  intros L U Q. destruct r as [c sr s]. unfold any_poll_read in Q. unfold due, unfilled in *. cbn [tr_state tr_cipher tr_reader] in *.
  assert (LL : forall lb n, n < len lb -> any_length _ (counted_reader rd) fuel c sr (st, k) lb n = Ret (x, r', (st', k'), f') -> charged 2 k k' x r').
  { clear Q U. intros lb n U Q. unfold any_length in Q. destruct (any_fill _ (counted_reader rd) fuel sr (st, k) lb n) as [[[[[y sr1] [st1 k1]] pb1] m1]| |] eqn:A; cbn [bind] in Q; try discriminate Q.
    destruct (fill_call _ _ _ _ _ _ _ _ _ _ _ _ L A) as (F1 & F2 & F3 & F4 & F5). destruct y.
    - specialize (F4 eq_refl U). destruct (decrypt_packet_len c pb1) as [[pn c1]| |]; cbn [bind] in Q; try discriminate Q.
      destruct (payload_call _ _ _ _ _ _ _ _ _ _ _ _ F1 Q (or_intror eq_refl)) as (P1 & P2). split; [exact P1|]. destruct x as [[p|e]|]; [|exact I|].
      + destruct P2 as (P2 & P3). split; [lia|exact P3].
      + destruct P2 as (P2 & P3). split; [exact P2|lia].
    - injection Q as <- <- <- <- _. split; [exact F1|]. split; [exact (F5 eq_refl)|]. cbn. lia.
    - injection Q as <- <- _ _ _. split; [exact F1|exact I]. }
  destruct f, s as [lb n|pb n]; try discriminate Q; first [exact (LL _ _ U Q)|exact (payload_call _ _ _ _ _ _ _ _ _ _ _ _ L Q (or_introl U))].
Qed.

Lemma payloads_calls fuel : forall polls n f r st k ps r' st' k', session_leftover (tr_reader r) = [] -> unfilled r ->
  read_payloads _ (counted_reader rd) polls fuel n f r (st, k) = Ret (Ok ps, r', (st', k')) ->
  len ps = N.of_nat n /\ (n = 0%nat \/ k + due r + 2 * (N.of_nat n - 1) <= k') /\ k <= k'.
Proof.
  induction polls as [|polls IH]; intros [|n] f r st k ps r' st' k' L U Q; cbn [read_payloads] in Q; try discriminate Q.
  1,2: injection Q as <- _ _ <-; repeat split; [left; reflexivity|lia].
  destruct (any_poll_read _ (counted_reader rd) fuel f r (st, k)) as [[[[y r1] [st1 k1]] f1]| |] eqn:A; cbn [bind] in Q; try discriminate Q.
  destruct (poll_call _ _ _ _ _ _ _ _ _ _ L U A) as (P1 & P2). destruct y as [[p|e]|].
  - destruct (read_payloads _ (counted_reader rd) polls fuel n f1 r1 (st1, k1)) as [[[[ps2|e] r2] [st2 k2]]| |] eqn:B; cbn [bind] in Q; try discriminate Q.
    injection Q as <- _ _ <-. destruct P2 as (P2 & P3 & P4). destruct (IH _ _ _ _ _ _ _ _ _ P1 P4 B) as (I1 & I2 & I3). rewrite len_cons.
    split; [lia|]. split; [right|lia]. destruct I2 as [->|I2]; lia.
  - discriminate Q.
  - destruct P2 as (P2 & P3). destruct (IH _ _ _ _ _ _ _ _ _ P1 P2 Q) as (I1 & I2 & I3). split; [exact I1|].
    destruct I2 as [I2|I2]; [discriminate I2|]. assert (0 < due r1) by (unfold due; destruct (tr_state r1); lia). split; [right; lia|].
    lia.
Qed.

End Calls.

(** ** A [BufReader] with everything at hand *)
Definition at_hand (b : buf_reader) : Prop := br_inner b = [] \/ exists bs, br_inner b = [Chunk bs].
(** No further read is needed for [need] bytes, or would help. *)
Definition spent (b : buf_reader) (need : N) : Prop := need <= len (br_buffer b) \/ br_inner b = [].

Lemma buf_fill {E : Env} : forall fuel sr b buf m x sr' b' buf' m', at_hand b ->
  any_fill buf_reader buf_read fuel sr b buf m = Ret (x, sr', b', buf', m') ->
  x <> Waiting /\ at_hand b' /\ (x = Filled -> br_calls b' <= br_calls b + 1 /\ (spent b (len buf - m) -> br_calls b' = br_calls b)).
Proof.
  induction fuel as [|fuel IH]; intros sr b buf m x sr' b' buf' m' AH Q; [discriminate Q|]. cbn [any_fill] in Q.
  destruct (N.ltb_spec m (len buf)) as [G|G].
  2:{ injection Q as <- <- <- <- <-. split; [discriminate|]. split; [exact AH|]. intros _. split; [lia|reflexivity]. }
  unfold any_session_read in Q. destruct (session_leftover sr) as [|y lo] eqn:L.
  2:{ destruct (leftover_read sr (len buf - m)) as (bs & sr1 & NE & LE & _ & _ & RD); [rewrite L; discriminate|lia|].
      assert (RS : session_read sr (len buf - m) = (Data bs, set_inner sr1 (inner sr))) by (rewrite <- RD; f_equal; destruct sr; reflexivity).
      rewrite RS in Q. destruct bs as [|z bs]; [contradiction|]. destruct (splice buf m _ _) as [b1| |] eqn:SP; cbn [bind] in Q; try discriminate Q. apply splice_same in SP.
      destruct (IH _ _ _ _ _ _ _ _ _ AH Q) as (I1 & I2 & I3). split; [exact I1|]. split; [exact I2|]. intros X. destruct (I3 X) as (I4 & I5). split; [exact I4|].
      intros SPT. apply I5. rewrite SP. destruct SPT as [SPT|SPT]; [left; lia|right; exact SPT]. }
  assert (ANS : forall r, exists sr1, session_leftover sr1 = [] /\ (match r with Data bs => len bs <= len buf - m | _ => True end ->
    session_read (set_inner sr (answer_script r)) (len buf - m) = (r, sr1))).
  { intros r. destruct (empty_read sr L) as (sr1 & L1 & ER). exists (set_inner sr1 []). split; [rewrite leftover_set; exact L1|]. intros LE. rewrite ER.
    rewrite <- (app_nil_r (answer_script r)). rewrite read_answer by exact LE. reflexivity. }
  (* the rest of the way, after an answer with data *)
  assert (GO : forall bs b1 sr1, bs <> [] -> at_hand b1 ->
    (let! buf1 := splice buf m (m + len bs) bs in any_fill buf_reader buf_read fuel (set_inner sr1 []) b1 buf1 (m + len bs)) = Ret (x, sr', b', buf', m') ->
    x <> Waiting /\ at_hand b' /\ (x = Filled -> br_calls b' <= br_calls b1 + 1 /\ (spent b1 (len buf - m - len bs) -> br_calls b' = br_calls b1))).
  { intros bs b1 sr1 NE AH1 Q1. destruct (splice buf m _ _) as [buf1| |] eqn:SP; cbn [bind] in Q1; try discriminate Q1. apply splice_same in SP.
    destruct (IH _ _ _ _ _ _ _ _ _ AH1 Q1) as (I1 & I2 & I3). split; [exact I1|]. split; [exact I2|]. intros X. destruct (I3 X) as (I4 & I5). split; [exact I4|].
    intros SPT. apply I5. rewrite SP. replace (len buf - (m + len bs)) with (len buf - m - len bs) by lia. exact SPT. }
  destruct (buf_read b (len buf - m)) as [o b1] eqn:R. unfold buf_read in R.
  destruct (br_buffer b) as [|z l] eqn:B.
  - assert (NS : spent b (len buf - m) -> br_inner b = []) by (intros [S1|S1]; [rewrite B, len_nil in S1; lia|exact S1]).
    (* what a read of the transport gives *)
    assert (PO : forall n, 0 < n -> (br_inner b = [] /\ poll_script (br_inner b) n = (Some (Data []), [])) \/
      exists r, br_inner b = [Chunk r] /\ poll_script (br_inner b) n = (Some (Data (take n r)), if len r <=? n then [] else [Chunk (drop n r)])).
    { intros n N0. destruct AH as [H|(r & H)]; rewrite H; cbn [poll_script read].
      - left. split; reflexivity.
      - right. exists r. split; [reflexivity|]. destruct (N.leb_spec (len r) n); [rewrite take_all by assumption|]; reflexivity. }
    assert (ONE : forall n r b1 bs sr1, len buf - m <= n -> br_inner b = [Chunk r] -> bs = take (len buf - m) (take n r) ->
      br_calls b1 = br_calls b + 1 -> br_inner b1 = (if len r <=? n then [] else [Chunk (drop n r)]) -> bs <> [] ->
      (let! buf1 := splice buf m (m + len bs) bs in any_fill buf_reader buf_read fuel (set_inner sr1 []) b1 buf1 (m + len bs)) = Ret (x, sr', b', buf', m') ->
      x <> Waiting /\ at_hand b' /\ (x = Filled -> br_calls b' <= br_calls b + 1 /\ (spent b (len buf - m) -> br_calls b' = br_calls b))).
    { clear Q R. intros n r b2 bs sr1 NN IN HB CA IN2 NE Q. assert (AH2 : at_hand b2) by (unfold at_hand; rewrite IN2; destruct (len r <=? n); eauto).
      destruct (GO _ _ _ NE AH2 Q) as (G1 & G2 & G3). split; [exact G1|]. split; [exact G2|]. intros X. destruct (G3 X) as (_ & G5). split.
      - rewrite <- CA. apply N.eq_le_incl, G5. destruct (N.leb_spec (len r) n) as [LE|LE]; [right; exact IN2|left].
        subst bs. rewrite !len_take. lia.
      - intros SPT. apply NS in SPT. congruence. }
    destruct (N.leb_spec (br_capacity b) (len buf - m)) as [CP|CP].
    + destruct (PO (len buf - m) ltac:(lia)) as [(IN & PS)|(r & IN & PS)]; rewrite PS in R; injection R as <- <-.
      * destruct (ANS (Data [])) as (sr1 & L1 & AN). rewrite AN in Q by (cbn; lia). injection Q as <- <- <- <- <-.
        split; [discriminate|]. split; [left; reflexivity|discriminate].
      * destruct (ANS (Data (take (len buf - m) r))) as (sr1 & L1 & AN). rewrite AN in Q by (rewrite len_take; lia).
        destruct (take (len buf - m) r) as [|z bs] eqn:TK.
        -- injection Q as <- <- <- <- <-. split; [discriminate|]. split; [|discriminate]. unfold at_hand. cbn [br_inner]. destruct (len r <=? len buf - m); eauto.
        -- eapply (ONE (len buf - m) r _ (z :: bs) sr1); [lia|exact IN| | | |discriminate|exact Q]; [|reflexivity|reflexivity].
           rewrite <- TK at 1. symmetry. apply take_all. rewrite len_take. lia.
    + destruct (PO (br_capacity b) ltac:(lia)) as [(IN & PS)|(r & IN & PS)]; rewrite PS in R; injection R as <- <-.
      * destruct (ANS (Data [])) as (sr1 & L1 & AN). unfold take in Q. rewrite firstn_nil in Q. rewrite AN in Q by (cbn; lia). injection Q as <- <- <- <- <-.
        split; [discriminate|]. split; [left; reflexivity|discriminate].
      * destruct (ANS (Data (take (len buf - m) (take (br_capacity b) r)))) as (sr1 & L1 & AN). rewrite AN in Q by (rewrite len_take; lia).
        destruct (take (len buf - m) (take (br_capacity b) r)) as [|z bs] eqn:TK.
        -- injection Q as <- <- <- <- <-. split; [discriminate|]. split; [|discriminate]. unfold at_hand. cbn [br_inner]. destruct (len r <=? br_capacity b); eauto.
        -- eapply (ONE (br_capacity b) r _ (z :: bs) sr1); [lia|exact IN| | | |discriminate|exact Q]; [|reflexivity|reflexivity].
           rewrite <- TK. reflexivity.
  - injection R as <- <-. destruct (ANS (Data (take (len buf - m) (z :: l)))) as (sr1 & L1 & AN). rewrite AN in Q by (rewrite len_take; lia).
    destruct (take (len buf - m) (z :: l)) as [|z2 bs] eqn:TK.
    { apply (f_equal len) in TK. rewrite len_take, len_cons, len_nil in TK. lia. }
    rewrite <- TK in *. assert (TN : take (len buf - m) (z :: l) <> []) by (rewrite TK; discriminate).
    destruct (GO (take (len buf - m) (z :: l)) (BufReader (br_capacity b) (drop (len buf - m) (z :: l)) (br_inner b) (br_calls b)) sr1 TN AH) as (G1 & G2 & G3).
    { rewrite TK in Q |- *. exact Q. }
    split; [exact G1|]. split; [exact G2|]. intros X. destruct (G3 X) as (G4 & G5). cbn [br_calls] in *. split; [exact G4|].
    intros [SPT|SPT]; apply G5; [left|right; exact SPT]. rewrite B in SPT. rewrite len_take. lia.
Qed.

Lemma buf_poll {E : Env} fuel c sr b x r' b' f' : at_hand b ->
  any_poll_read buf_reader buf_read fuel FreshFuture (TReader c sr init_reading_length) b = Ret (x, r', b', f') ->
  x <> NotReady /\ at_hand b' /\ (forall p, x = Ready (Ok p) -> br_calls b' <= br_calls b + 2 /\ f' = FreshFuture /\ tr_state r' = init_reading_length).
Proof.
  intros AH Q. unfold any_poll_read in Q. cbn [tr_state tr_cipher tr_reader init_reading_length] in Q. unfold any_length in Q.
  destruct (any_fill buf_reader buf_read fuel sr b (zeros NUM_LENGTH_BYTES) 0) as [[[[[y sr1] b1] pb1] m1]| |] eqn:A; cbn [bind] in Q; try discriminate Q.
  destruct (buf_fill _ _ _ _ _ _ _ _ _ _ AH A) as (F1 & F2 & F3). destruct y; [|contradiction|].
  2:{ injection Q as <- <- <- _. split; [discriminate|]. split; [exact F2|discriminate]. }
  destruct (F3 eq_refl) as (F4 & _). clear F3. destruct (decrypt_packet_len c pb1) as [[pn c1]| |]; cbn [bind] in Q; try discriminate Q.
  unfold any_payload in Q.
  destruct (any_fill buf_reader buf_read fuel sr1 b1 (zeros pn) 0) as [[[[[y sr2] b2] pb2] m2]| |] eqn:B; cbn [bind] in Q; try discriminate Q.
  destruct (buf_fill _ _ _ _ _ _ _ _ _ _ F2 B) as (G1 & G2 & G3). destruct y; [|contradiction|].
  2:{ injection Q as <- <- <- _. split; [discriminate|]. split; [exact G2|discriminate]. }
  destruct (G3 eq_refl) as (G4 & _). destruct (decryption_buffer_len (len pb2)); cbn [bind] in Q; try discriminate Q.
  destruct (decrypt c1 pb2 _ None) as [[[[u|e] c2] pt]| |] eqn:D; cbn [bind] in Q; try discriminate Q.
  - destruct (payload_decrypted pt); cbn [bind] in Q; try discriminate Q. injection Q as <- <- <- <-. split; [discriminate|]. split; [exact G2|].
    intros _ _. split; [lia|]. split; reflexivity.
  - injection Q as <- <- <- _. split; [discriminate|]. split; [exact G2|discriminate].
Qed.
