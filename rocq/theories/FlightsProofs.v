(** * FlightsProofs: what an endpoint shows of itself during its handshake *)
From Coq Require Import List NArith Arith Bool Lia ZifyBool ZifyN.
From Coq.Strings Require Import Byte.
From Verif Require Import Base BaseFacts Env FsChacha Spec Cipher CipherFacts Histories CipherProofs Handshake
  SpecHandshake HsDriver HandshakeProofs HsRunProofs
  Transport Io Futures SpecIo Sessions TransportProofs IoProofs UnsplitProofs HsSteps HsStepsProofs SpecPipes PipesProofs
  SpecPair SpecFlights.
Import ListNotations.
Local Open Scope N_scope.

Section Flights.
Context {E : Env} {EL : EnvLaws E}.

Lemma read_moves s n x s' : read s n = (x, s') ->
  content s = (match x with Data bs => bs | ReadErr _ => [] end) ++ content s'.
Proof.
  destruct x as [bs|k]; intros H; [now apply read_content in H|exact (read_err_content _ _ _ _ H)].
Qed.

Lemma session_read_moves sr n x sr' : session_read sr n = (x, sr') -> exists bs, content (inner sr) = bs ++ content (inner sr').
Proof.
  intros H. destruct sr as [cur [|] s|l pos s]; cbn [session_read] in H.
  - destruct (read s n) as [y s'] eqn:R. injection H as <- <-. cbn [inner]. eexists. exact (read_moves _ _ _ _ R).
  - destruct cur as [|b cur].
    + destruct (read s n) as [y s'] eqn:R. injection H as <- <-. cbn [inner]. eexists. exact (read_moves _ _ _ _ R).
    + injection H as <- <-. exists []. reflexivity.
  - destruct (pos <? len l).
    + injection H as <- <-. exists []. reflexivity.
    + destruct (read s n) as [y s'] eqn:R. injection H as <- <-. cbn [inner]. eexists. exact (read_moves _ _ _ _ R).
Qed.

Variables (magic : bytes) (r : role) (sk : bytes) (g : option bytes) (d : option (list bytes)).
Hypothesis Hm : len magic = 4.
Hypothesis Ho : len (decoy_list d) + 1 < 2 ^ 32.

Let h0 : handshake sent_key := Handshake magic r (SentKey (EcdhPoint sk (ellswift_of sk)) g).
Let fa := ellswift_of sk ++ garbage_bytes g.

Lemma key_read_discloses their p : len their = 64 -> key_read d h0 their = Ret p ->
  (take 4 their = magic /\ p = Over (Err (Internal V1Protocol))) \/
  (take 4 their <> magic /\ exists f2 h', second_flight magic r sk (garbage_bytes g) (decoy_list d) their f2 /\
     p = SendingVersion f2 h').
Proof.
  intros Lt H. unfold key_read in H.
  destruct (receive_key_v1 h0 their Lt Hm) as [V K]. cbn [h0 hs_magic hs_role hs_state] in *.
  destruct (list_eq_dec Byte.byte_eq_dec (take 4 their) magic) as [Q|Q].
  - apply V in Q as Q'. rewrite Q' in H. cbn [bind] in H. injection H as <-. left. split; [assumption|reflexivity].
  - destruct (K Q) as (m & K' & KF). rewrite K' in H. cbn [bind] in H.
    match type of H with context [send_version ?h ?out _] => 
      destruct (send_version_contract h out d) as (oc & _ & Sv & Ls); cbn [hs_state session_keys hs_role hs_magic rk_local_garbage] in * end.
    + cbn zeta in KF. destruct (in_order r _ their). eapply terminator_len, KF.
    + assumption.
    + rewrite len_zeros, send_version_len_eq. lia.
    + rewrite Sv in H. cbn [bind] in H. injection H as <-. right. split; [assumption|].
      rewrite drop_all; [|rewrite len_zeros, send_version_len_eq; apply N.le_refl]. rewrite app_nil_r.
      eexists _, _. split; [|reflexivity]. exists m. split; [|reflexivity]. exact KF.
Qed.

(** Where the endpoint is, what it has read and what it has sent. *)
Definition at_flight (p : place) (received sent : bytes) : Prop :=
  match p with
  | SendingKey rest h => h = h0 /\ received = [] /\ sent ++ rest = fa
  | FlushingKey h => h = h0 /\ received = [] /\ sent = fa
  | ReadingKey got h => h = h0 /\ received = got /\ len got < 64 /\ sent = fa
  | SendingVersion rest _ => len received = 64 /\ take 4 received <> magic /\
      exists f2 k, second_flight magic r sk (garbage_bytes g) (decoy_list d) received f2 /\ sent = fa ++ take k f2 /\ rest = drop k f2
  | FlushingVersion _ => len received = 64 /\ take 4 received <> magic /\
      exists f2, second_flight magic r sk (garbage_bytes g) (decoy_list d) received f2 /\ sent = fa ++ f2
  | ReadingTerminator _ _ | ReadingGarbage _ _ | ReadingLength _ _ _ | ReadingPacket _ _ _ _ =>
      64 <= len received /\ take 4 received <> magic /\
      exists f2, second_flight magic r sk (garbage_bytes g) (decoy_list d) (take 64 received) f2 /\ sent = fa ++ f2
  | Over x => discloses magic r sk (garbage_bytes g) (decoy_list d) received sent /\
      (64 <= len received -> take 4 received = magic -> x = Err (Internal V1Protocol))
  end.

Lemma at_flight_discloses p received sent : at_flight p received sent ->
  discloses magic r sk (garbage_bytes g) (decoy_list d) received sent.
Proof.
  assert (T : forall f : bytes, len received = 64 -> take 64 received = received) by
    (intros _ Q; apply take_all; lia).
  destruct p; cbn [at_flight].
  - intros (_ & A & B). apply discloses_key; [assumption|]. exists rest. unfold fa in B. auto.
  - intros (_ & A & B). apply discloses_key; [assumption|]. exists []. rewrite app_nil_r. auto.
  - intros (_ & -> & L & B). apply discloses_waiting; auto.
  - intros (L & N & f2 & k & F & S & _). apply (discloses_version _ _ _ _ _ _ _ f2 k); auto; try lia.
    now rewrite T.
  - intros (L & N & f2 & F & S). apply (discloses_version _ _ _ _ _ _ _ f2 (len f2)); auto; try lia.
    + now rewrite T.
    + rewrite take_all by lia. exact S.
  - intros (L & N & f2 & F & S). apply (discloses_version _ _ _ _ _ _ _ f2 (len f2)); auto; try lia.
    rewrite take_all by lia. exact S.
  - intros (L & N & f2 & F & S). apply (discloses_version _ _ _ _ _ _ _ f2 (len f2)); auto; try lia.
    rewrite take_all by lia. exact S.
  - intros (L & N & f2 & F & S). apply (discloses_version _ _ _ _ _ _ _ f2 (len f2)); auto; try lia.
    rewrite take_all by lia. exact S.
  - intros (L & N & f2 & F & S). apply (discloses_version _ _ _ _ _ _ _ f2 (len f2)); auto; try lia.
    rewrite take_all by lia. exact S.
  - now intros [? _].
Qed.

(** The reading part of the handshake writes nothing. *)
Definition reading_on (p : place) : Prop :=
  match p with
  | ReadingTerminator _ _ | ReadingGarbage _ _ | ReadingLength _ _ _ | ReadingPacket _ _ _ _ | Over _ => True
  | _ => False
  end.

Lemma late_reading_on p : late p -> reading_on p.
Proof. destruct p; cbn; auto. Qed.

Lemma at_flight_on p received sent more :
  64 <= len received -> take 4 received <> magic ->
  (exists f2, second_flight magic r sk (garbage_bytes g) (decoy_list d) (take 64 received) f2 /\ sent = fa ++ f2) ->
  reading_on p -> at_flight p (received ++ more) sent.
Proof.
  intros L N (f2 & F & S) Rp.
  assert (64 <= len (received ++ more)) as L' by (rewrite len_app; lia).
  assert (take 64 (received ++ more) = take 64 received) as T by (now apply take_app_le).
  assert (take 4 (received ++ more) <> magic) as N' by (rewrite take_app_le by lia; assumption).
  destruct p; cbn [reading_on] in Rp; try contradiction; cbn [at_flight]; rewrite ?T; eauto 6.
  split; [|contradiction].
  apply (discloses_version _ _ _ _ _ _ _ f2 (len f2)); auto; try lia.
  - now rewrite T.
  - rewrite take_all by lia. exact S.
Qed.
Lemma write_once_parts fl w rest x w' : write_once fl w rest = (x, w') ->
  exists out, written w' = written w ++ out /\
    match x with
    | AllWritten => out = rest
    | MoreToWrite rest' => exists n, out = take n rest /\ rest' = drop n rest
    | WriteFailed _ => out = []
    end.
Proof.
  unfold write_once. destruct (w_script w) as [|[n|k|] ws].
  - intros H; injection H as <- <-. exists rest. auto.
  - destruct (n =? 0).
    + intros H; injection H as <- <-. exists []. rewrite app_nil_r. auto.
    + destruct (len rest <=? n); intros H; injection H as <- <-; [exists rest; auto|].
      exists (take n rest). eauto.
  - intros H; injection H as <- <-. exists []. rewrite app_nil_r. split; [reflexivity|].
    destruct (retries fl k); [|reflexivity]. exists 0. rewrite take_0, drop_0. auto.
  - intros H; injection H as <- <-. exists []. rewrite app_nil_r. split; [reflexivity|].
    exists 0. rewrite take_0, drop_0. auto.
Qed.

Lemma reading_on_late fl n got x again done q : (forall z, reading_on (again z)) ->
  (forall bs q, done bs = Ret q -> late q) -> reading fl n got x again done = Ret q -> reading_on q.
Proof.
  intros A D. unfold reading. destruct x as [[|b bs]|k].
  - intros H. now injection H as <-.
  - destruct (n <=? _); intros H; [now apply late_reading_on, (D _ _ H)|]. injection H as <-. apply A.
  - destruct (retries fl k); intros H; injection H as <-; [apply A|exact I].
Qed.

Lemma flight_step fl p s w q s' w' received sent : at_flight p received sent -> hs_step fl d p s w = Ret (q, s', w') ->
  exists more out, content s = more ++ content s' /\ written w' = written w ++ out /\
    at_flight q (received ++ more) (sent ++ out).
Proof.
  intros A H.
  assert (Keep : forall p', at_flight p' received sent -> Ret (p', s, w) = Ret (q, s', w') ->
    exists more out, content s = more ++ content s' /\ written w' = written w ++ out /\
    at_flight q (received ++ more) (sent ++ out)).
  { intros p' A' Q. injection Q as <- <- <-. exists [], []. rewrite !app_nil_r. auto. }
  assert (Short : forall x, (len received < 64 \/ take 4 received <> magic) ->
    discloses magic r sk (garbage_bytes g) (decoy_list d) received sent -> at_flight (Over x) received sent).
  { intros x [L|N] D; cbn [at_flight]; split; auto; [lia|contradiction]. }
  pose proof (at_flight_discloses _ _ _ A) as D.
  destruct p as [rest h|h|got h|rest h|h|got h|buf h|sr got h|sr n got h|x]; cbn [hs_step] in H.
  - destruct (write_once fl w rest) as [x w1] eqn:W. injection H as <- <- <-.
    destruct (write_once_parts _ _ _ _ _ W) as (out & Wo & P). exists [], out. rewrite app_nil_r.
    split; [reflexivity|]. split; [assumption|]. cbn [at_flight] in A. destruct A as (-> & -> & A).
    destruct x as [|rest'|k].
    + subst out. cbn [at_flight]. auto.
    + destruct P as (n & -> & ->). cbn [at_flight]. split; [reflexivity|]. split; [reflexivity|].
      rewrite <- app_assoc, take_drop. exact A.
    + subst out. rewrite app_nil_r. apply Short; [left; rewrite len_nil; lia|assumption].
  - unfold flush in H. destruct (flush_script (flushes w)) as [x f]. injection H as <- <- <-.
    exists [], []. rewrite !app_nil_r. split; [reflexivity|]. split; [reflexivity|].
    cbn [at_flight] in A. destruct A as (-> & -> & ->).
    destruct x as [[]|k]; [cbn [at_flight]; rewrite len_nil; repeat split; lia|].
    apply Short; [left; rewrite len_nil; lia|assumption].
  - cbn [at_flight] in A. destruct A as (-> & -> & L & ->). change NUM_ELLIGATOR_SWIFT_BYTES with 64 in *.
    destruct (read s (64 - len got)) as [x s1] eqn:R.
    apply bind_ret_inv in H. destruct H as (p1 & H & Q). injection Q as <- <- <-.
    exists (match x with Data bs => bs | ReadErr _ => [] end), []. rewrite !app_nil_r.
    split; [exact (read_moves _ _ _ _ R)|]. split; [reflexivity|].
    assert (Wt : forall y, at_flight (Over y) got fa) by (intros y; apply Short; auto).
    unfold reading in H. destruct x as [[|b bs]|k].
    + injection H as <-. rewrite app_nil_r. apply Wt.
    + apply read_fits in R as Rf. destruct (N.leb_spec 64 (len (got ++ b :: bs))) as [L2|L2].
      2:{ injection H as <-. cbn [at_flight]. auto. }
      assert (len (got ++ b :: bs) = 64) as L3 by (rewrite len_app in *; lia).
      destruct (key_read_discloses _ _ L3 H) as [[V ->]|(N & f2 & h' & F & ->)].
      * cbn [at_flight]. split; [|reflexivity]. apply discloses_waiting; auto.
      * cbn [at_flight]. split; [assumption|]. split; [assumption|]. exists f2, 0.
        rewrite take_0, drop_0, app_nil_r. auto.
    + rewrite app_nil_r. destruct (retries fl k); injection H as <-; [cbn [at_flight]; auto|apply Wt].
  - destruct (write_once fl w rest) as [x w1] eqn:W. injection H as <- <- <-.
    destruct (write_once_parts _ _ _ _ _ W) as (out & Wo & P). exists [], out. rewrite app_nil_r.
    split; [reflexivity|]. split; [assumption|]. cbn [at_flight] in A. destruct A as (L & N & f2 & k & F & -> & ->).
    destruct x as [|rest'|e].
    + subst out. cbn [at_flight]. split; [assumption|]. split; [assumption|]. exists f2.
      rewrite <- app_assoc, take_drop. auto.
    + destruct P as (n & -> & ->). cbn [at_flight]. split; [assumption|]. split; [assumption|].
      exists f2, (k + n). split; [assumption|]. split; [|now rewrite drop_drop].
      rewrite <- app_assoc. f_equal. symmetry. apply take_add.
    + subst out. rewrite app_nil_r. apply Short; auto.
  - unfold flush in H. destruct (flush_script (flushes w)) as [x f]. injection H as <- <- <-.
    exists [], []. rewrite !app_nil_r. split; [reflexivity|]. split; [reflexivity|].
    cbn [at_flight] in A. destruct A as (L & N & f2 & F & ->).
    rewrite <- (app_nil_r received). apply at_flight_on; auto; [lia|rewrite take_all by lia; eauto|].
    destruct x; exact I.
  - cbn [at_flight] in A. destruct A as (L & N & F).
    destruct (read s _) as [x s1] eqn:R. apply bind_ret_inv in H. destruct H as (p1 & H & Q). injection Q as <- <- <-.
    eexists _, []. split; [exact (read_moves _ _ _ _ R)|]. rewrite !app_nil_r. split; [reflexivity|].
    apply at_flight_on; auto. eapply reading_on_late; [..|exact H]; [intros; exact I|]. intros bs q. apply scan_garbage_late.
  - cbn [at_flight] in A. destruct A as (L & N & F).
    destruct (read s _) as [x s1] eqn:R. apply bind_ret_inv in H. destruct H as (p1 & H & Q). injection Q as <- <- <-.
    eexists _, []. split; [exact (read_moves _ _ _ _ R)|]. rewrite !app_nil_r. split; [reflexivity|].
    apply at_flight_on; auto. destruct x as [[|b bs]|k]; [now injection H as <-| |now injection H as <-].
    now apply late_reading_on, (scan_garbage_late _ _ _ _ H).
  - cbn [at_flight] in A. destruct A as (L & N & F).
    destruct (session_read _ _) as [x s1] eqn:R. apply bind_ret_inv in H. destruct H as (p1 & H & Q). injection Q as <- <- <-.
    destruct (session_read_moves _ _ _ _ R) as (bs & C). rewrite inner_set in C.
    exists bs, []. split; [exact C|]. rewrite !app_nil_r. split; [reflexivity|].
    apply at_flight_on; auto. eapply reading_on_late; [..|exact H]; [intros; exact I|]. intros z q. apply length_read_late.
  - cbn [at_flight] in A. destruct A as (L & N & F).
    destruct (session_read _ _) as [x s1] eqn:R. apply bind_ret_inv in H. destruct H as (p1 & H & Q). injection Q as <- <- <-.
    destruct (session_read_moves _ _ _ _ R) as (bs & C). rewrite inner_set in C.
    exists bs, []. split; [exact C|]. rewrite !app_nil_r. split; [reflexivity|].
    apply at_flight_on; auto. eapply reading_on_late; [..|exact H]; [intros; exact I|]. intros z q. apply packet_read_late.
  - exact (Keep _ A H).
Qed.

Theorem flight_steps fl : forall n p s w q s' w' received sent,
  at_flight p received sent -> hs_steps n fl d p s w = Ret (q, s', w') ->
  exists more out, content s = more ++ content s' /\ written w' = written w ++ out /\
    at_flight q (received ++ more) (sent ++ out).
Proof.
  induction n as [|n IH]; intros p s w q s' w' received sent A H; cbn [hs_steps] in H.
  - injection H as <- <- <-. exists [], []. rewrite !app_nil_r. auto.
  - apply bind_ret_inv in H. destruct H as ([[p1 s1] w1] & H1 & H).
    destruct (flight_step _ _ _ _ _ _ _ _ _ A H1) as (m1 & o1 & C1 & W1 & A1).
    destruct (IH _ _ _ _ _ _ _ _ A1 H) as (m2 & o2 & C2 & W2 & A2).
    exists (m1 ++ m2), (o1 ++ o2). rewrite C1, C2, W2, W1, <- !app_assoc in *. auto.
Qed.

Lemma flight_begins p : hs_begin magic r sk g = Ret p -> at_flight p [] [].
Proof.
  clear Ho.
  assert (F : forall e, at_flight (Over (Err e)) [] []).
  { intros e. cbn [at_flight]. rewrite len_nil. split; [|lia]. apply discloses_key; [reflexivity|]. eexists. reflexivity. }
  unfold hs_begin. intros H. apply bind_ret_inv in H. destruct H as ([h|e] & N & H); [|injection H as <-; apply F].
  unfold hs_new in N. destruct (_ && _)%bool; [discriminate|]. destruct (sk_valid sk); [|discriminate].
  injection N as <-. unfold begin in H. set (h := Handshake magic r _) in H.
  destruct (send_key_contract h g (zeros (send_key_len g)) (ellswift_len sk)) as (C1 & _ & C & L).
  destruct (N.le_gt_cases (len (garbage_bytes g)) 4095) as [G|G].
  - rewrite C in H; [|exact G|rewrite len_zeros, L; apply N.le_refl]. cbn [bind] in H. injection H as <-. cbn [at_flight].
    rewrite drop_all by (rewrite len_zeros, L; apply N.le_refl). split; [reflexivity|]. split; [reflexivity|]. now rewrite app_nil_r.
  - rewrite C1 in H by assumption. cbn [bind] in H. injection H as <-. apply F.
Qed.

Lemma discloses_comparable c1 c2 s1 s2 t1 t2 :
  discloses magic r sk (garbage_bytes g) (decoy_list d) c1 s1 ->
  discloses magic r sk (garbage_bytes g) (decoy_list d) c2 s2 ->
  take 64 (c1 ++ t1) = take 64 (c2 ++ t2) -> prefix_of s1 s2 \/ prefix_of s2 s1.
Proof.
  assert (Cut : forall x y (z : bytes), prefix_of x z -> prefix_of y z -> prefix_of x y \/ prefix_of y x).
  { intros x y z (u & Qu) (v & Qv). rewrite Qu in Qv. clear z Qu. revert y v Qv. induction x as [|a x IH]; intros y v Q.
    - left. exists y. reflexivity.
    - destruct y as [|b y]; [right; eexists; reflexivity|]. cbn [app] in Q. injection Q as <- Q.
      destruct (IH _ _ Q) as [(w & ->)|(w & ->)]; [left|right]; eexists; reflexivity. }
  assert (Short : forall c s f2, discloses magic r sk (garbage_bytes g) (decoy_list d) c s ->
    (64 <= len c -> take 4 c <> magic -> second_flight magic r sk (garbage_bytes g) (decoy_list d) (take 64 c) f2) ->
    prefix_of s (fa ++ f2)).
  { intros c s f2 [R (u & Q)|R ->|f k R N F -> _] U.
    - exists (u ++ f2). unfold fa. rewrite Q. now rewrite <- app_assoc.
    - exists f2. reflexivity.
    - specialize (U R N). destruct F as (m & KF & ->). destruct U as (m' & KF' & ->).
      assert (m' = m) as ->.
      { destruct (in_order r (ellswift_of sk) (take 64 c)). exact (keys_from_unique _ _ _ KF' KF). }
      exists (drop k (bip_second_flight (terminator m r) (send_length_key m r) (send_packet_key m r) (garbage_bytes g) (decoy_list d))).
      rewrite <- app_assoc, take_drop. reflexivity. }
  intros D1 D2 T.
  assert (W : forall c s t, discloses magic r sk (garbage_bytes g) (decoy_list d) c s ->
    (exists f2, 64 <= len c /\ take 64 c = take 64 (c ++ t) /\
        second_flight magic r sk (garbage_bytes g) (decoy_list d) (take 64 c) f2 /\ prefix_of s (fa ++ f2)) \/ prefix_of s fa).
  { intros c s t [R P|R ->|f k R N F -> _].
    - right. exact P.
    - right. exists []. now rewrite app_nil_r.
    - left. exists f. split; [assumption|]. split; [now rewrite take_app_le|]. split; [assumption|].
      exists (drop k f). rewrite <- app_assoc, take_drop. reflexivity. }
  destruct (W _ _ t1 D1) as [(f & L1 & T1 & F1 & P1)|P1].
  - eapply Cut; [exact P1|]. apply (Short _ _ f D2). intros L2 _.
    rewrite <- (take_app_le 64 c2 t2) by assumption. rewrite <- T, <- T1. exact F1.
  - destruct (W _ _ t2 D2) as [(f & L2 & T2 & F2 & P2)|P2].
    + eapply Cut; [|exact P2]. destruct P1 as (u & ->). exists (u ++ f). now rewrite <- app_assoc.
    + eapply Cut; eassumption.
Qed.

End Flights.
