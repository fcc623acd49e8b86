(** * An endpoint whose peer never sends the terminator it looks for *)
From Coq Require Import List NArith Bool Lia.
From Coq.Strings Require Import Byte.
From Verif Require Import Base BaseFacts Env FsChacha Cipher Handshake SpecHandshake HsDriver HandshakeProofs HsRunProofs
  Transport Io SpecIo Sessions TransportProofs IoProofs IoRunProofs HsSteps HsStepsProofs SpecPipes PipesProofs.
Import ListNotations.
Local Open Scope N_scope.

Section WithEnv.
Context {E : Env} {EL : EnvLaws E}.

Lemma no_term_prefix t a b : no_term t (a ++ b) -> no_term t a.
Proof.
  intros H i Hi [L Q]. apply (H i Hi). split; [rewrite len_app; lia|].
  rewrite drop_app_le by lia. rewrite take_app_le by (rewrite len_drop; lia). exact Q.
Qed.

Section Endpoint.
Variables (fl : flavor) (magic : bytes) (r : role) (rnd : bytes) (g : option bytes) (d : option (list bytes)).
Variables (theirs : bytes) (h : handshake sent_key) (fa : bytes) (h' : handshake sent_version) (wa : bytes).
Hypothesis Hm : len magic = 4.
Hypothesis Hs : party_start magic r rnd g = Ret (Ok (h, fa)).
Hypothesis L64 : 64 < len theirs.
Hypothesis Hk : party_key h (take 64 theirs) d = Ret (Ok (h', wa)).
Hypothesis Lt : len (remote_garbage_terminator (hs_state h')) = 16.
Hypothesis Hn : no_term (remote_garbage_terminator (hs_state h')) (drop 64 theirs).

(** It is at most looking for the terminator, or has given up. *)
Definition searching (p : place) (c : bytes) : Prop :=
  match p with
  | SendingKey _ _ | FlushingKey _ | ReadingKey _ _ => True
  | SendingVersion _ h1 | FlushingVersion h1 => h1 = h' /\ c = take 64 theirs
  | ReadingTerminator got h1 | ReadingGarbage got h1 => h1 = h' /\ c = take 64 theirs ++ got /\ len got < 4111
  | ReadingLength _ _ _ | ReadingPacket _ _ _ _ => False
  | Over x => x = Err (Internal NoGarbageTerminator) /\ 4175 <= len c
  end.

Lemma scan_is got rest : take 64 theirs ++ got ++ rest = theirs ->
  scan_garbage fl h' got = Ret (if 4111 <=? len got then Over (Err (Internal NoGarbageTerminator)) else ReadingGarbage got h').
Proof.
  intros P. assert (no_term (remote_garbage_terminator (hs_state h')) got) as N1.
  { apply no_term_prefix with rest. assert (drop 64 theirs = got ++ rest) as <-; [|exact Hn].
    rewrite <- P. apply drop_app_exact. rewrite len_take. lia. }
  unfold scan_garbage. destruct (receive_garbage_cases h' got Lt) as [(i & Hi & [O _] & _)|[(_ & L & ->)|(_ & L & ->)]].
  - exfalso. exact (N1 i Hi O).
  - cbn [bind]. destruct (N.leb_spec 4111 (len got)); [reflexivity|lia].
  - cbn [bind]. destruct (N.leb_spec 4111 (len got)); [lia|reflexivity].
Qed.

Lemma searching_turn p c o p' bs out rest : stands h fa wa p c o -> searching p c -> replays fl d p p' bs out ->
  (c ++ bs) ++ rest = theirs -> searching p' (c ++ bs).
Proof.
  intros St Se R P.
  assert (T64 : len (take 64 theirs) = 64) by (rewrite len_take; lia).
  assert (SC : forall got q, c ++ bs = take 64 theirs ++ got -> scan_garbage fl h' got = Ret q -> searching q (c ++ bs)).
  { intros got q Q H. rewrite Q, <- app_assoc in P. rewrite (scan_is got rest P) in H. injection H as <-.
    destruct (N.leb_spec 4111 (len got)); cbn [searching]; rewrite Q; [|auto]. split; [reflexivity|]. rewrite len_app, T64. lia. }
  destruct R as [m out WO Hm0 H|bs WI Hb H|WO WI NO H].
  - specialize (H [] [] []). rewrite app_nil_r in *.
    destruct p as [rs h1|h1|got h1|rs h1|h1|got h1|buf h1|sr got h1|sr n got h1|x]; try discriminate WO; cbn [hs_step] in H;
      destruct (write_once fl (Writer [Accept m] [] []) rs) as [x w1] eqn:W; cbn [stands searching] in St, Se; injection H as <- Hw.
    + destruct St as (-> & -> & Hr & Q).
      destruct (write_form fl magic theirs Hm L64 rs o (written w1) fa m _ _ Hm0 Hr Q W eq_refl) as [[-> Z]|(r' & -> & Hr' & Z)]; exact I.
    + destruct St as (L & La & Hr & Q).
      destruct (write_form fl magic theirs Hm L64 rs o (written w1) _ m _ _ Hm0 Hr Q W eq_refl) as [[-> Z]|(r' & -> & Hr' & Z)]; exact Se.
  - specialize (H [] (Writer [] [] [])).
    destruct p as [rs h1|h1|got h1|rs h1|h1|got h1|buf h1|sr got h1|sr n got h1|x]; try discriminate WI; cbn [hs_step] in H; cbn [stands searching] in St, Se;
      try contradiction.
    + destruct St as (-> & -> & L & ->). change NUM_ELLIGATOR_SWIFT_BYTES with 64 in H.
      destruct (read [Chunk bs] (64 - len got)) as [x s1] eqn:Rd. apply bind_ret_inv in H. destruct H as (p1 & H & Q).
      injection Q as <- ->. apply read_form in Rd as Q. subst x. apply read_fits in Rd as Fits.
      rewrite reading_data in H by assumption. destruct (N.leb_spec 64 (len (got ++ bs))) as [L1|L1].
      * assert (got ++ bs = take 64 theirs) as Q. { rewrite <- P. symmetry. apply take_app_exact. rewrite len_app in *. lia. }
        rewrite Q, (key_read_is d theirs h h' wa Hk) in H. injection H as <-. cbn [searching]. rewrite Q. auto.
      * injection H as <-. exact I.
    + destruct Se as (-> & -> & Lg). destruct (read [Chunk bs] _) as [x s1] eqn:Rd. apply bind_ret_inv in H. destruct H as (p1 & H & Q).
      injection Q as <- ->. apply read_form in Rd as Q. subst x. apply read_fits in Rd as Fits. change NUM_GARBAGE_TERMINTOR_BYTES with 16 in *.
      rewrite reading_data in H by assumption.
      destruct (N.leb_spec 16 (len (got ++ bs))).
      * eapply SC; [|exact H]. now rewrite <- app_assoc.
      * injection H as <-. cbn [searching]. rewrite <- app_assoc. repeat split; lia.
    + destruct Se as (-> & -> & Lg). destruct (read [Chunk bs] _) as [x s1] eqn:Rd. apply bind_ret_inv in H. destruct H as (p1 & H & Q).
      injection Q as <- ->. apply read_form in Rd as Q. subst x. destruct bs as [|b bs]; [contradiction|].
      eapply SC; [|exact H]. now rewrite <- app_assoc.
  - specialize (H [] [] []). rewrite !app_nil_r in *.
    destruct p as [rs h1|h1|got h1|rs h1|h1|got h1|buf h1|sr got h1|sr n got h1|x]; try discriminate; cbn [stands searching hs_step flush flushes flush_script] in *;
      try contradiction.
    + injection H as <-. exact I.
    + injection H as <-. destruct Se as (-> & ->). cbn [searching]. rewrite app_nil_r, len_nil. repeat split; lia.
Qed.

Lemma searching_can p c o inc rest room : c ++ inc ++ rest = theirs -> stands h fa wa p c o -> searching p c -> wanting p ->
  is_over p = true \/ (wants_output p = true /\ room = 0) \/ (wants_input p = true /\ inc = []) \/
  exists p' inc' out, turn fl d p inc room p' inc' out.
Proof.
  intros P St Se Wp. destruct (is_over p) eqn:NO; [auto|right].
  destruct (wants_output p) eqn:WO.
  - destruct (N.eq_dec room 0) as [Z|Z]; [auto|right; right].
    assert (exists p' s' w', hs_step fl d p [] (Writer [Accept 1] [] []) = Ret (p', s', w')) as (p' & s' & w' & H).
    { destruct p as [rs h1|h1|got h1|rs h1|h1|got h1|buf h1|sr got h1|sr n got h1|x]; try discriminate WO; cbn [hs_step];
        destruct (write_once fl (Writer [Accept 1] [] []) rs); eauto. }
    do 3 eexists. apply (turn_write fl d p inc room 1 p' s' w'); [assumption|lia|exact H].
  - right. destruct (wants_input p) eqn:WI.
    + destruct inc as [|b inc]; [auto|right].
      assert (exists p' s' w', hs_step fl d p [Chunk [b]] (Writer [] [] []) = Ret (p', s', w')) as (p' & s' & w' & H).
      { destruct p as [rs h1|h1|got h1|rs h1|h1|got h1|buf h1|sr got h1|sr n got h1|x]; try discriminate WI; cbn [hs_step]; cbn [stands searching wanting] in St, Se, Wp;
          try contradiction.
        - destruct St as (-> & -> & L & ->). cbn [read]. change NUM_ELLIGATOR_SWIFT_BYTES with 64. change (len [b]) with 1.
          destruct (N.leb_spec 1 (64 - len got)); [|lia]. rewrite reading_data by discriminate.
          destruct (N.leb_spec 64 (len (got ++ [b]))) as [L1|L1]; [|cbn [bind]; eauto].
          assert (got ++ [b] = take 64 theirs) as ->.
          { rewrite <- P. change ((b :: inc) ++ rest) with ([b] ++ inc ++ rest). rewrite app_assoc. symmetry. apply take_app_exact.
            rewrite len_app in *. change (len [b]) with 1 in *. lia. }
          rewrite (key_read_is d theirs h h' wa Hk). cbn [bind]. eauto.
        - destruct Se as (-> & -> & Lg). cbn [read]. change NUM_GARBAGE_TERMINTOR_BYTES with 16. change (len [b]) with 1.
          destruct (N.leb_spec 1 (16 - len got)); [|lia]. rewrite reading_data by discriminate.
          destruct (N.leb_spec 16 (len (got ++ [b]))) as [L1|L1]; [|cbn [bind]; eauto].
          rewrite (scan_is (got ++ [b]) (inc ++ rest)); [cbn [bind]; eauto|]. rewrite <- app_assoc in P. rewrite <- app_assoc. exact P.
        - destruct Se as (-> & -> & Lg). cbn [read]. change (len [b] <=? 256) with true. cbn [bind].
          rewrite (scan_is (buf ++ [b]) (inc ++ rest)); [cbn [bind]; eauto|]. rewrite <- app_assoc in P. rewrite <- app_assoc. exact P. }
      do 3 eexists. apply (turn_read fl d p (b :: inc) room 1 p' s' w'); [assumption|rewrite len_cons; lia|exact H].
    + right. assert (exists p' s' w', hs_step fl d p [] (Writer [] [] []) = Ret (p', s', w')) as (p' & s' & w' & H).
      { destruct p as [rs h1|h1|got h1|rs h1|h1|got h1|buf h1|sr got h1|sr n got h1|x]; try discriminate; cbn [hs_step flush flushes flush_script]; eauto; contradiction. }
      do 3 eexists. apply (turn_local fl d p inc room p' s' w'); assumption.
Qed.

End Endpoint.

(** ** Both endpoints *)

Section Joined.
Variables (fla flb : flavor) (magica magicb : bytes) (ra rb : role) (ska skb : bytes) (ga gb : option bytes) (da db : option (list bytes)) (K : N).
Variables (ha hb : handshake sent_key) (fa fb : bytes) (ha' hb' : handshake sent_version) (wa wb : bytes).
Hypothesis Hma : len magica = 4.
Hypothesis Hmb : len magicb = 4.
Hypothesis Sa : party_start magica ra ska ga = Ret (Ok (ha, fa)).
Hypothesis Sb : party_start magicb rb skb gb = Ret (Ok (hb, fb)).
Hypothesis Ta : 64 < len (fa ++ wa).
Hypothesis Tb : 64 < len (fb ++ wb).
Hypothesis La : 64 <= len fa.
Hypothesis Lb : 64 <= len fb.
Hypothesis Ka : party_key ha (take 64 (fb ++ wb)) da = Ret (Ok (ha', wa)).
Hypothesis Kb : party_key hb (take 64 (fa ++ wa)) db = Ret (Ok (hb', wb)).
Hypothesis Lta : len (remote_garbage_terminator (hs_state ha')) = 16.
Hypothesis Ltb : len (remote_garbage_terminator (hs_state hb')) = 16.
Hypothesis Na : no_term (remote_garbage_terminator (hs_state ha')) (drop 64 (fb ++ wb)).
Hypothesis Nb : no_term (remote_garbage_terminator (hs_state hb')) (drop 64 (fa ++ wa)).

Definition apart (n : nat) (st : pipes) : Prop :=
  exists ca oa cb ob,
    (stands ha fa wa (side_a st) ca oa /\ searching (fb ++ wb) ha' (side_a st) ca /\ wanting (side_a st)) /\
    (stands hb fb wb (side_b st) cb ob /\ searching (fa ++ wa) hb' (side_b st) cb /\ wanting (side_b st)) /\
    oa = cb ++ a_to_b st /\ ob = ca ++ b_to_a st /\
    N.of_nat n + weight (side_a st) + weight (side_b st) <= 8 + 2 * len ca + len oa + 2 * len cb + len ob.

Lemma apart_run n st : pipe_run fla flb da db K n (start ha hb fa fb) st -> apart n st.
Proof.
  intros R. remember (start ha hb fa fb) as st0 eqn:E0. induction R as [st|n st st1 st2 R IH S]; subst st.
  - exists [], [], [], []. cbn [start side_a side_b a_to_b b_to_a weight searching wanting stands]. change (len (@nil byte)) with 0.
    pose proof (fa_nonempty magica ra ska ga ha fa Sa). pose proof (fa_nonempty magicb rb skb gb hb fb Sb).
    repeat split; try lia; auto.
  - destruct (IH eq_refl) as (ca & oa & cb & ob & (A1 & A2 & A3) & (B1 & B2 & B3) & Qa & Qb & W). clear IH.
    destruct S as [p p' q ab ba ba' out T|p q q' ab ba ab' out T]; cbn [side_a side_b a_to_b b_to_a] in *.
    + destruct (turn_replays _ _ _ _ _ _ _ _ A3 T) as (bs & Z1 & Z2 & Z3 & Z4 & Z5). subst ba.
      destruct (stands_facts _ _ _ _ _ _ B1) as ((rb0 & Pb) & _).
      assert (P : (ca ++ bs) ++ ba' ++ rb0 = fb ++ wb) by (rewrite <- Pb, Qb, <- !app_assoc; reflexivity).
      exists (ca ++ bs), (oa ++ out), cb, ob. cbn [side_a side_b a_to_b b_to_a].
      split; [split; [exact (stands_turn _ _ _ _ _ _ _ _ _ _ _ Hma Sa Tb Ka _ _ _ _ _ _ _ A1 Z4 Z3 P)|]; split; [|exact Z4];
        exact (searching_turn _ _ _ _ _ _ _ _ Hma Tb Ka Lta Na _ _ _ _ _ _ _ A1 A2 Z3 P)|].
      split; [auto|]. split; [rewrite Qa, app_assoc; reflexivity|]. split; [rewrite Qb, app_assoc; reflexivity|].
      rewrite !len_app in *. lia.
    + destruct (turn_replays _ _ _ _ _ _ _ _ B3 T) as (bs & Z1 & Z2 & Z3 & Z4 & Z5). subst ab.
      destruct (stands_facts _ _ _ _ _ _ A1) as ((ra0 & Pa) & _).
      assert (P : (cb ++ bs) ++ ab' ++ ra0 = fa ++ wa) by (rewrite <- Pa, Qa, <- !app_assoc; reflexivity).
      exists ca, oa, (cb ++ bs), (ob ++ out). cbn [side_a side_b a_to_b b_to_a].
      split; [auto|].
      split; [split; [exact (stands_turn _ _ _ _ _ _ _ _ _ _ _ Hmb Sb Ta Kb _ _ _ _ _ _ _ B1 Z4 Z3 P)|]; split; [|exact Z4];
        exact (searching_turn _ _ _ _ _ _ _ _ Hmb Ta Kb Ltb Nb _ _ _ _ _ _ _ B1 B2 Z3 P)|].
      split; [rewrite Qa, app_assoc; reflexivity|]. split; [rewrite Qb, app_assoc; reflexivity|].
      rewrite !len_app in *. lia.
Qed.

Lemma apart_bounded n st : pipe_run fla flb da db K n (start ha hb fa fb) st ->
  N.of_nat n <= 8 + 3 * (len fa + len wa + len fb + len wb).
Proof.
  intros R. destruct (apart_run n st R) as (ca & oa & cb & ob & (A2 & _) & (B2 & _) & Qa & Qb & W).
  destruct (stands_facts _ _ _ _ _ _ A2) as (_ & F1 & _). destruct (stands_facts _ _ _ _ _ _ B2) as (_ & F2 & _).
  apply (f_equal len) in Qa, Qb. rewrite len_app in Qa, Qb. lia.
Qed.

Lemma apart_over_a n st x : pipe_run fla flb da db K n (start ha hb fa fb) st -> side_a st = Over x ->
  x = Err (Internal NoGarbageTerminator) /\ 4175 <= len fb + len wb.
Proof.
  intros R O. destruct (apart_run n st R) as (ca & oa & cb & ob & (A1 & A2 & _) & (B1 & _) & Qa & Qb & W).
  rewrite O in A2. destruct A2 as (-> & L). split; [reflexivity|].
  destruct (stands_facts _ _ _ _ _ _ B1) as (_ & F & _). apply (f_equal len) in Qb. rewrite len_app in Qb. lia.
Qed.

Lemma apart_over_b n st x : pipe_run fla flb da db K n (start ha hb fa fb) st -> side_b st = Over x ->
  x = Err (Internal NoGarbageTerminator) /\ 4175 <= len fa + len wa.
Proof.
  intros R O. destruct (apart_run n st R) as (ca & oa & cb & ob & (A1 & _) & (B1 & B2 & _) & Qa & Qb & W).
  rewrite O in B2. destruct B2 as (-> & L). split; [reflexivity|].
  destruct (stands_facts _ _ _ _ _ _ A1) as (_ & F & _). apply (f_equal len) in Qa. rewrite len_app in Qa. lia.
Qed.

Lemma apart_stopped n st : pipe_run fla flb da db K n (start ha hb fa fb) st -> stopped fla flb da db K st ->
  (is_over (side_a st) = true \/ (wants_output (side_a st) = true /\ K <= len (a_to_b st)) \/ (wants_input (side_a st) = true /\ b_to_a st = [])) /\
  (is_over (side_b st) = true \/ (wants_output (side_b st) = true /\ K <= len (b_to_a st)) \/ (wants_input (side_b st) = true /\ a_to_b st = [])).
Proof.
  intros R St. destruct (apart_run n st R) as (ca & oa & cb & ob & (A1 & A2 & A3) & (B1 & B2 & B3) & Qa & Qb & W).
  destruct (stands_facts _ _ _ _ _ _ A1) as ((ra0 & Pa) & _). destruct (stands_facts _ _ _ _ _ _ B1) as ((rb0 & Pb) & _).
  assert (P1 : ca ++ b_to_a st ++ rb0 = fb ++ wb) by (rewrite <- Pb, Qb, app_assoc; reflexivity).
  assert (P2 : cb ++ a_to_b st ++ ra0 = fa ++ wa) by (rewrite <- Pa, Qa, app_assoc; reflexivity).
  split.
  - destruct (searching_can fla magica da _ _ _ _ _ Hma Tb Ka Lta Na _ _ _ _ _ (K - len (a_to_b st)) P1 A1 A2 A3) as [Oa|[[Oa Ra]|[[Oa Ra]|(p' & inc' & out & T)]]].
    4:{ exfalso. destruct st as [pa pb ab ba]. eapply St, step_a, T. }
    + auto.
    + right. left. split; [assumption|lia].
    + auto.
  - destruct (searching_can flb magicb db _ _ _ _ _ Hmb Ta Kb Ltb Nb _ _ _ _ _ (K - len (b_to_a st)) P2 B1 B2 B3) as [Oa|[[Oa Ra]|[[Oa Ra]|(p' & inc' & out & T)]]].
    4:{ exfalso. destruct st as [pa pb ab ba]. eapply St, step_b, T. }
    + auto.
    + right. left. split; [assumption|lia].
    + auto.
Qed.

(** Neither sends enough for the other to give up. *)
Lemma apart_waits n st : pipe_run fla flb da db K n (start ha hb fa fb) st -> stopped fla flb da db K st ->
  ~ clogs K (len fa) (len wa) (len fb) (len wb) -> len fa + len wa < 4175 -> len fb + len wb < 4175 ->
  wants_input (side_a st) = true /\ wants_input (side_b st) = true /\ a_to_b st = [] /\ b_to_a st = [].
Proof.
  intros R St NC Sa1 Sb1. destruct (apart_stopped n st R St) as [Xa Xb].
  destruct (apart_run n st R) as (ca & oa & cb & ob & (A1 & A2 & A3) & (B1 & B2 & B3) & Qa & Qb & W).
  destruct (stands_facts _ _ _ _ _ _ A1) as (_ & Fa1 & Fa2 & Fa3 & Fa4 & Fa5 & Fa6).
  destruct (stands_facts _ _ _ _ _ _ B1) as (_ & Fb1 & Fb2 & Fb3 & Fb4 & Fb5 & Fb6).
  apply (f_equal len) in Qa, Qb. rewrite len_app in Qa, Qb.
  assert (Oa : is_over (side_a st) = false).
  { destruct (side_a st) eqn:Q; try reflexivity. destruct (apart_over_a n st _ R Q). lia. }
  assert (Ob : is_over (side_b st) = false).
  { destruct (side_b st) eqn:Q; try reflexivity. destruct (apart_over_b n st _ R Q). lia. }
  destruct Xa as [Xa|[[Xa Ra]|[Xa Ra]]]; [congruence| |]; destruct Xb as [Xb|[[Xb Rb]|[Xb Rb]]]; try congruence; auto;
    exfalso; apply NC; unfold clogs; try (specialize (Fa5 Xa)); try (specialize (Fb5 Xb)); rewrite ?Ra, ?Rb, ?len_nil in *; lia.
Qed.

(** The transport holds all that either sends. *)
Lemma apart_gives_up n st : pipe_run fla flb da db K n (start ha hb fa fb) st -> stopped fla flb da db K st ->
  len fa + len wa <= K -> len fb + len wb <= K ->
  is_over (side_a st) = (4175 <=? len fb + len wb) /\ is_over (side_b st) = (4175 <=? len fa + len wa).
Proof.
  intros R St K1 K2. destruct (apart_stopped n st R St) as [Xa Xb].
  destruct (apart_run n st R) as (ca & oa & cb & ob & (A1 & A2 & A3) & (B1 & B2 & B3) & Qa & Qb & W).
  destruct (stands_facts _ _ _ _ _ _ A1) as (_ & Fa1 & Fa2 & Fa3 & Fa4 & Fa5 & Fa6).
  destruct (stands_facts _ _ _ _ _ _ B1) as (_ & Fb1 & Fb2 & Fb3 & Fb4 & Fb5 & Fb6).
  pose proof Qa as Qa0. pose proof Qb as Qb0. apply (f_equal len) in Qa, Qb. rewrite len_app in Qa, Qb.
  assert (Oa : is_over (side_a st) = true -> len oa = len fa + len wa /\ 4175 <= len ca).
  { destruct (side_a st) eqn:Q; try discriminate. intros _. destruct A2 as (_ & L). split; [apply Fa4; lia|exact L]. }
  assert (Ob : is_over (side_b st) = true -> len ob = len fb + len wb /\ 4175 <= len cb).
  { destruct (side_b st) eqn:Q; try discriminate. intros _. destruct B2 as (_ & L). split; [apply Fb4; lia|exact L]. }
  assert (Wa : wants_input (side_a st) = true -> len ca < 4175).
  { destruct (side_a st) eqn:Q; cbn [stands searching wants_input] in *; try discriminate; try contradiction.
    - intros _. destruct A1 as (_ & -> & L & _). lia.
    - intros _. destruct A2 as (_ & -> & L). rewrite len_app, len_take. lia.
    - intros _. destruct A2 as (_ & -> & L). rewrite len_app, len_take. lia. }
  assert (Wb : wants_input (side_b st) = true -> len cb < 4175).
  { destruct (side_b st) eqn:Q; cbn [stands searching wants_input] in *; try discriminate; try contradiction.
    - intros _. destruct B1 as (_ & -> & L & _). lia.
    - intros _. destruct B2 as (_ & -> & L). rewrite len_app, len_take. lia.
    - intros _. destruct B2 as (_ & -> & L). rewrite len_app, len_take. lia. }
  assert (Ya : is_over (side_a st) = true \/ (wants_input (side_a st) = true /\ b_to_a st = [])).
  { destruct Xa as [Xa|[[Xa Ra]|Xa]]; auto. exfalso. specialize (Fa5 Xa). lia. }
  assert (Yb : is_over (side_b st) = true \/ (wants_input (side_b st) = true /\ a_to_b st = [])).
  { destruct Xb as [Xb|[[Xb Rb]|Xb]]; auto. exfalso. specialize (Fb5 Xb). lia. }
  assert (OI : forall p : place, wants_input p = true -> is_over p = false) by (intros []; cbn; congruence).
  destruct Ya as [Ya|[Ya Ra]]; destruct Yb as [Yb|[Yb Rb]].
  - rewrite Ya, Yb. specialize (Oa Ya). specialize (Ob Yb).
    split; symmetry; apply N.leb_le; lia.
  - rewrite Ya, (OI _ Yb). specialize (Oa Ya). specialize (Wb Yb). rewrite Rb, len_nil in *.
    split; symmetry; [apply N.leb_le|apply N.leb_gt]; lia.
  - rewrite Yb, (OI _ Ya). specialize (Ob Yb). specialize (Wa Ya). rewrite Ra, len_nil in *.
    split; symmetry; [apply N.leb_gt|apply N.leb_le]; lia.
  - rewrite (OI _ Ya), (OI _ Yb). specialize (Wa Ya). specialize (Wb Yb). specialize (Fa6 Ya). specialize (Fb6 Yb). rewrite Ra, Rb, len_nil in *.
    split; symmetry; apply N.leb_gt; lia.
Qed.

End Joined.
End WithEnv.
