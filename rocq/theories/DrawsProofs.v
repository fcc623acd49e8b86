(** * DrawsProofs: the random choices of a shaped endpoint *)
From Coq Require Import List NArith Bool Lia ZifyBool ZifyN.
From Coq.Strings Require Import Byte.
From Verif Require Import Base BaseFacts Env FsChacha Cipher CipherFacts Histories CipherProofs Handshake HsDriver
  HandshakeProofs Transport Io Futures SpecIo Sessions TransportProofs SessionProofs IoProofs IoRunProofs EndpointProofs HsRunProofs
  Traffic TrafficIo TrafficFutures SpecTraffic TrafficProofs TrafficIoProofs TrafficFuturesProofs TrafficSessionProofs
  PairProofs SpecDraws.
Import ListNotations.
Local Open Scope N_scope.

Section Draws.
Context {E : Env} {EL : EnvLaws E} {G : Type} {R : Rng G} {RL : RngLaws G R}.

Implicit Types s : @shared G.
Implicit Types t : @task G.

Lemma drawn_app (g : G) ds1 g1 ds2 g2 : drawn g ds1 g1 -> drawn g1 ds2 g2 -> drawn g (ds1 ++ ds2) g2.
Proof.
  intros H. revert g2 ds2. induction H as [|g lo hi n g1 ds g3 D H IH|g bs g1 ds g3 D H IH]; intros g2 ds2 H2; cbn [app].
  - exact H2.
  - eapply drawn_ranged; [exact D|now apply IH].
  - eapply drawn_filled; [exact D|now apply IH].
Qed.

(** ** The handshake *)

Lemma random_vec_drawn lo hi (g : G) bs g1 : random_vec lo hi g = (bs, g1) -> drawn g (buffer_draws lo hi bs) g1.
Proof.
  unfold random_vec. destruct (gen_range lo hi g) as [n g0] eqn:D. intros H.
  pose proof (fill_bytes_len n g0) as L. rewrite H in L. cbn [fst] in L. subst n.
  eapply drawn_ranged; [exact D|]. eapply drawn_filled; [exact H|]. constructor.
Qed.

Lemma random_decoys_drawn : forall n (g : G) l g1, random_decoys n g = (l, g1) ->
  length l = n /\ drawn g (flat_map (buffer_draws 1 1024) l) g1.
Proof.
  induction n as [|n IH]; intros g l g1 H; cbn [random_decoys] in H.
  - injection H as <- <-. split; [reflexivity|constructor].
  - destruct (random_vec 1 MAX_DECOY_SIZE_BYTES g) as [bs g0] eqn:D.
    destruct (random_decoys n g0) as [l' g2] eqn:D2. injection H as <- <-.
    destruct (IH _ _ _ D2) as [L H]. split; [cbn; now rewrite L|]. cbn [flat_map].
    eapply drawn_app; [exact (random_vec_drawn _ _ _ _ _ D)|exact H].
Qed.

Theorem handshake_drawn sh garbage decoys sh' recs :
  shaper_handshake sh = (garbage, decoys, sh', recs) ->
  drawn (sh_rng sh) (handshake_draws garbage decoys) (sh_rng sh').
Proof.
  unfold shaper_handshake, handshake_draws. destruct sh as [[pa de] g]. cbn [sh_config sh_rng padding_strategy decoy_strategy].
  assert (X : forall g0 : G, drawn g0
     match (match de with Disabled => None | Random =>
              let '(n, g1) := gen_range 0 3 g0 in let '(l, g2) := random_decoys (N.to_nat n) g1 in Some l end)
     with Some l => Ranged 0 3 (len l) :: flat_map (buffer_draws 1 1024) l | None => [] end
     match de with Disabled => g0 | Random =>
       let '(n, g1) := gen_range 0 3 g0 in let '(l, g2) := random_decoys (N.to_nat n) g1 in g2 end).
  { intros g0. destruct de; [constructor|]. destruct (gen_range 0 3 g0) as [n g1] eqn:D.
    destruct (random_decoys (N.to_nat n) g1) as [l g2] eqn:D2. destruct (random_decoys_drawn _ _ _ _ D2) as [L H].
    replace (len l) with n by (unfold len; lia). eapply drawn_ranged; [exact D|exact H]. }
  destruct pa.
  - specialize (X g). destruct de.
    + intros H. injection H as <- <- <- <-. exact X.
    + destruct (gen_range 0 3 g) as [n g1]. destruct (random_decoys (N.to_nat n) g1) as [l g2].
      intros H. injection H as <- <- <- <-. exact X.
  - destruct (random_vec 0 MAX_NUM_GARBAGE_BYTES g) as [bs g0] eqn:D.
    pose proof (random_vec_drawn _ _ _ _ _ D) as D0. specialize (X g0). destruct de.
    + intros H. injection H as <- <- <- <-. exact (drawn_app _ _ _ _ _ D0 X).
    + destruct (gen_range 0 3 g0) as [n g1]. destruct (random_decoys (N.to_nat n) g1) as [l g2].
      intros H. injection H as <- <- <- <-. exact (drawn_app _ _ _ _ _ D0 X).
Qed.

(** ** The two decisions of a session *)

Definition pad_choice (sh : shaper G) (pl : payload) : choice :=
  match padding_strategy (sh_config sh) with
  | Disabled => NoPadding pl
  | Random => PaddingOf (fst (gen_range 1 1024 (sh_rng sh))) pl
  end.

Definition decoy_choice (sh : shaper G) : list choice :=
  match decoy_strategy (sh_config sh) with
  | Disabled => []
  | Random =>
    let '(n, g) := gen_range 0 99 (sh_rng sh) in
    if n <? 85 then [NoCover n] else [CoverBy n (fst (gen_range 1 1024 g))]
  end.

Lemma pad_chosen sh pl d sh' recs : shaper_pad sh pl = Ret (d, sh', recs) ->
  sh_config sh' = sh_config sh /\ choice_ok (sh_config sh) (pad_choice sh pl) /\
  drawn (sh_rng sh) (choice_draws (pad_choice sh pl)) (sh_rng sh') /\
  match d with
  | None => pad_choice sh pl = NoPadding pl
  | Some d => exists n, pad_choice sh pl = PaddingOf n pl /\ d = decoy (zeros n)
  end.
Proof.
  unfold shaper_pad, pad_choice. intros H. apply bind_ret_inv in H. destruct H as (ct & _ & H).
  destruct sh as [[pa de] g]. cbn [sh_config sh_rng padding_strategy] in *. destruct pa.
  - injection H as <- <- <-. cbn. repeat split. constructor.
  - unfold zero_decoy in H. change MAX_DECOY_SIZE_BYTES with 1024 in H.
    destruct (gen_range 1 1024 g) as [n g1] eqn:D. injection H as <- <- <-. cbn.
    repeat split; [|eauto]. eapply drawn_ranged; [exact D|constructor].
Qed.

(** The shaper afterwards does not depend on the payload. *)
Lemma pad_oblivious sh pl1 d1 sh1 recs1 pl2 d2 sh2 recs2 :
  shaper_pad sh pl1 = Ret (d1, sh1, recs1) -> shaper_pad sh pl2 = Ret (d2, sh2, recs2) ->
  d1 = d2 /\ sh1 = sh2 /\ blank_choice (pad_choice sh pl1) = blank_choice (pad_choice sh pl2).
Proof.
  unfold shaper_pad, pad_choice. intros H1 H2. apply bind_ret_inv in H1. destruct H1 as (ct1 & _ & H1).
  apply bind_ret_inv in H2. destruct H2 as (ct2 & _ & H2).
  destruct (padding_strategy (sh_config sh)).
  - injection H1 as <- <- _. injection H2 as <- <- _. repeat split.
  - destruct (zero_decoy (sh_rng sh)) as [[d n] g]. injection H1 as <- <- _. injection H2 as <- <- _. repeat split.
Qed.

Lemma decoy_chosen sh d sh' recs : shaper_decoy sh = (d, sh', recs) ->
  sh_config sh' = sh_config sh /\ Forall (choice_ok (sh_config sh)) (decoy_choice sh) /\
  drawn (sh_rng sh) (flat_map choice_draws (decoy_choice sh)) (sh_rng sh') /\
  match d with
  | None => flat_map choice_block (decoy_choice sh) = []
  | Some d => exists n size, decoy_choice sh = [CoverBy n size] /\ d = decoy (zeros size)
  end.
Proof.
  unfold shaper_decoy, decoy_choice. destruct sh as [[pa de] g]. cbn [sh_config sh_rng decoy_strategy]. destruct de.
  - intros H. injection H as <- <- <-. cbn. repeat split; constructor.
  - destruct (gen_range 0 99 g) as [n g1] eqn:D. destruct (N.ltb_spec n 85) as [L|L].
    + intros H. injection H as <- <- <-. cbn. repeat split; [repeat constructor; assumption|].
      eapply drawn_ranged; [exact D|constructor].
    + unfold zero_decoy. change MAX_DECOY_SIZE_BYTES with 1024.
      destruct (gen_range 1 1024 g1) as [size g2] eqn:D2. intros H. injection H as <- <- <-. cbn.
      repeat split; [repeat constructor; assumption| |eauto].
      eapply drawn_ranged; [exact D|]. eapply drawn_ranged; [exact D2|constructor].
Qed.

Notation blocks := (flat_map choice_block).
Notation draws_of := (flat_map choice_draws).

Lemma draws_snoc us u : draws_of (us ++ u) = draws_of us ++ draws_of u.
Proof. apply flat_map_app. Qed.
Lemma blocks_snoc us u : blocks (us ++ u) = blocks us ++ blocks u.
Proof. apply flat_map_app. Qed.

(** ** The blocking driver *)

(** The choice made by a move. *)
Definition chosen_by s (m : move) : list choice :=
  match m with
  | App => match app_at s with AppPad pl => [pad_choice (st_shaper s) pl] | _ => [] end
  | Thread => match thread_at s with ThDecoy => decoy_choice (st_shaper s) | _ => [] end
  | _ => []
  end.

Fixpoint choices s (ms : list move) : list choice :=
  match ms with
  | [] => []
  | m :: ms => chosen_by s m ++ match do_move s m with Some s' => choices s' ms | None => [] end
  end.

Definition wrote (p0 : pwriter) (us : list choice) s : Prop :=
  match app_at s, thread_at s with
  | AppWritePad d pl, _ => exists us0 n, us = us0 ++ [PaddingOf n pl] /\ d = decoy (zeros n) /\
      serves Sync p0 (blocks us0) (returned s) (st_writer s)
  | AppWrite pl, _ =>
      (exists us0, us = us0 ++ [NoPadding pl] /\ serves Sync p0 (blocks us0) (returned s) (st_writer s)) \/
      (exists us0 n p1, us = us0 ++ [PaddingOf n pl] /\ serves Sync p0 (blocks us0) (returned s) p1 /\
         sync_write p1 (decoy (zeros n)) = Ret (Ok tt, st_writer s))
  | _, ThWrite d => exists us0 n size, us = us0 ++ [CoverBy n size] /\ d = decoy (zeros size) /\
      serves Sync p0 (blocks us0) (returned s) (st_writer s)
  | _, _ => serves Sync p0 (blocks us) (returned s) (st_writer s)
  end.

Definition dinv (cfg : config) (g0 : G) (p0 : pwriter) (us : list choice) s : Prop :=
  locked s /\
  (poisoned s = false ->
   sh_config (st_shaper s) = cfg /\ Forall (choice_ok cfg) us /\ drawn g0 (draws_of us) (sh_rng (st_shaper s)) /\
   wrote p0 us s).

Lemma dinv_move cfg g0 p0 us s m s' :
  dinv cfg g0 p0 us s -> do_move s m = Some s' -> dinv cfg g0 p0 (us ++ chosen_by s m) s'.
Proof.
  intros (L & I) H. split; [eapply locked_move; eassumption|].
  pose proof (poisoned_back _ _ _ H) as PB. intros P. specialize (I (PB P)). clear PB.
  destruct I as (C & F & D & W).
  destruct s as [w sh lk po sd a t rc rt]. unfold locked, wrote, chosen_by in *.
  cbn [lock app_at thread_at st_shaper st_writer poisoned returned records] in *.
  destruct m as [pl| | |]; cbn [do_move app_at] in H.
  - rewrite app_nil_r. destruct a; inversion H; subst; cbn in *; auto.
  - rewrite app_nil_r. destruct a; inversion H; subst; cbn in *; auto.
  - unfold app_step in H. cbn [app_at lock poisoned st_shaper st_writer thread_at] in H. destruct a; try discriminate; rewrite ?app_nil_r.
    + destruct lk; try discriminate. destruct po; inversion H; subst; cbn in *; [discriminate|]. auto.
    + injection H as <-. destruct L as [L X]. cbn [app_inside andb] in X.
      destruct (shaper_pad sh pl) as [[[d' sh'] rec']| |] eqn:SP; [|cbn in P; discriminate..].
      destruct (pad_chosen _ _ _ _ _ SP) as (C' & Ok' & D' & Q). rewrite C in *.
      assert (serves Sync p0 (blocks us) rt w) as S by (destruct t; try assumption; discriminate).
      assert (Forall (choice_ok cfg) (us ++ [pad_choice sh pl])) as F'
        by (apply Forall_app; split; [assumption|repeat constructor; assumption]).
      assert (drawn g0 (draws_of (us ++ [pad_choice sh pl])) (sh_rng sh')) as D2.
      { rewrite draws_snoc. cbn [flat_map]. rewrite app_nil_r. eapply drawn_app; eassumption. }
      destruct d' as [d|]; cbn; (split; [assumption|]); (split; [assumption|]); (split; [assumption|]).
      * destruct Q as (n & -> & ->). eauto 6.
      * left. rewrite Q. eauto.
    + injection H as <-. destruct L as [L X]. cbn [app_inside andb] in X. destruct W as (us0 & n & -> & -> & S).
      destruct (sync_write w (decoy (zeros n))) as [[[[]|e] w']| |] eqn:Q; [| |cbn in P; discriminate..];
        cbn; (split; [assumption|]); (split; [assumption|]); (split; [assumption|]).
      * right. eauto 6.
      * assert (serves Sync p0 (blocks (us0 ++ [PaddingOf n pl])) (rt ++ [(pl, Err e)]) w') as S'.
        { rewrite blocks_snoc. eapply serves_padding_failed; [eassumption|exact Q]. }
        destruct t; try discriminate; assumption.
    + injection H as <-. destruct L as [L X]. cbn [app_inside andb] in X.
      destruct (sync_write w pl) as [[x w']| |] eqn:Q; [|cbn in P; discriminate..].
      cbn; (split; [assumption|]); (split; [assumption|]); (split; [assumption|]).
      assert (serves Sync p0 (blocks us) (rt ++ [(pl, x)]) w') as S'.
      { destruct W as [(us0 & -> & S)|(us0 & n & p1 & -> & S & Q')]; rewrite blocks_snoc.
        - eapply serves_bare; [eassumption|exact Q].
        - eapply serves_padded; [eassumption|exact Q'|exact Q]. }
      destruct t; try discriminate; assumption.
    + destruct t; inversion H; subst; cbn in *; auto.
  - unfold thread_step in H. cbn [app_at lock poisoned st_shaper st_writer thread_at shutdown] in H.
    destruct t; try discriminate; injection H as <-; cbn [thread_inside] in L; rewrite ?app_nil_r.
    + destruct sd; cbn; destruct a; auto.
    + cbn; destruct a; auto.
    + destruct lk; [destruct po|..]; cbn; destruct a; auto.
    + destruct L as [L X]. rewrite andb_true_r in X.
      destruct (shaper_decoy sh) as [[d' sh'] rec'] eqn:SD.
      destruct (decoy_chosen _ _ _ _ SD) as (C' & Ok' & D' & Q). rewrite C in *.
      assert (serves Sync p0 (blocks us) rt w) as S by (destruct a; try assumption; discriminate).
      assert (Forall (choice_ok cfg) (us ++ decoy_choice sh)) as F' by (apply Forall_app; split; assumption).
      assert (drawn g0 (draws_of (us ++ decoy_choice sh)) (sh_rng sh')) as D2
        by (rewrite draws_snoc; eapply drawn_app; eassumption).
      destruct d' as [d|]; cbn; (split; [assumption|]); (split; [assumption|]); (split; [assumption|]).
      * destruct Q as (n & size & -> & ->). destruct a; try discriminate; eauto 8.
      * assert (serves Sync p0 (blocks (us ++ decoy_choice sh)) rt w) as S'
          by (rewrite blocks_snoc, Q, app_nil_r; exact S).
        destruct a; try discriminate; assumption.
    + destruct L as [L X]. rewrite andb_true_r in X.
      destruct (sync_write w d) as [[x w']| |] eqn:Q; [|cbn in P; discriminate..].
      cbn; (split; [assumption|]); (split; [assumption|]); (split; [assumption|]).
      assert (exists us0 n size, us = us0 ++ [CoverBy n size] /\ d = decoy (zeros size) /\ serves Sync p0 (blocks us0) rt w)
        as (us0 & n & size & -> & -> & S) by (destruct a; try assumption; discriminate).
      assert (serves Sync p0 (blocks (us0 ++ [CoverBy n size])) rt w') as S'.
      { rewrite blocks_snoc. eapply serves_cover; [eassumption|exact Q]. }
      destruct a; try discriminate; assumption.
Qed.

Lemma dinv_play cfg g0 p0 : forall ms us s s',
  dinv cfg g0 p0 us s -> play s ms = Some s' -> dinv cfg g0 p0 (us ++ choices s ms) s'.
Proof.
  induction ms as [|m ms IH]; intros us s s' I H; cbn [play choices] in *.
  - injection H as <-. now rewrite app_nil_r.
  - destruct (do_move s m) as [s1|] eqn:M; [|discriminate]. rewrite app_assoc. eapply IH; [|eassumption].
    eapply dinv_move; eassumption.
Qed.

Lemma dinv_new p sh recs : dinv (sh_config sh) (sh_rng sh) p [] (shared_new p sh recs).
Proof. split; [split; reflexivity|]. intros _. cbn. repeat split; constructor. Qed.

Lemma schedule_chosen p sh recs ms s :
  play (shared_new p sh recs) ms = Some s -> poisoned s = false -> lock s = Free ->
  let us := choices (shared_new p sh recs) ms in
  Forall (choice_ok (sh_config sh)) us /\ drawn (sh_rng sh) (draws_of us) (sh_rng (st_shaper s)) /\
  serves Sync p (blocks us) (returned s) (st_writer s).
Proof.
  intros H P F us. destruct (dinv_play _ _ _ _ _ _ _ (dinv_new p sh recs) H) as ([L _] & I).
  destruct (I P) as (_ & Fc & D & W). cbn [app] in *. split; [assumption|]. split; [assumption|].
  unfold wrote in W. rewrite F in L. destruct (app_at s), (thread_at s); try discriminate; assumption.
Qed.

(** *** Two endpoints with the same schedule *)

Definition blank_app (a : app_pc) : app_pc :=
  match a with
  | AppLock _ => AppLock blank | AppPad _ => AppPad blank | AppWritePad d _ => AppWritePad d blank
  | AppWrite _ => AppWrite blank | _ => a
  end.

Definition alike s1 s2 : Prop :=
  st_shaper s1 = st_shaper s2 /\ lock s1 = lock s2 /\ shutdown s1 = shutdown s2 /\
  blank_app (app_at s1) = blank_app (app_at s2) /\ thread_at s1 = thread_at s2.

(** One of them is back from a write whose padding failed. *)
Definition apart s1 s2 : Prop := app_at s1 = AppOut /\ exists pl, app_at s2 = AppWrite pl.

Lemma apart_stays : forall ms1 ms2 s1 s2 s1' s2',
  apart s1 s2 -> locked s2 -> map blank_move ms1 = map blank_move ms2 ->
  play s1 ms1 = Some s1' -> play s2 ms2 = Some s2' -> lock s2' = ByApp.
Proof.
  induction ms1 as [|m1 ms1 IH]; intros [|m2 ms2] s1 s2 s1' s2' (A1 & pl & A2) L M H1 H2; try discriminate.
  - cbn in H2. injection H2 as <-. destruct L as [L _]. rewrite A2 in L. exact L.
  - cbn [map play] in *. injection M as M0 M. destruct (do_move s1 m1) as [s1a|] eqn:D1; [|discriminate].
    destruct (do_move s2 m2) as [s2a|] eqn:D2; [|discriminate].
    pose proof (locked_move _ _ _ L D2) as L'.
    refine (IH _ s1a s2a _ _ _ L' M H1 H2). destruct m1, m2; try discriminate; cbn [do_move] in D1, D2.
    + rewrite A2 in D2. discriminate.
    + rewrite A2 in D2. discriminate.
    + unfold app_step in D1. rewrite A1 in D1. discriminate.
    + assert (X : forall s s', thread_step s = Some s' -> app_at s' = app_at s).
      { clear. intros s s' H. destruct s as [w sh lk po sd a t rc rt]. unfold thread_step in H.
        cbn [thread_at shutdown lock poisoned st_shaper st_writer app_at] in *. destruct t; try discriminate; injection H as <-.
        - reflexivity.
        - reflexivity.
        - destruct lk; [destruct po|..]; reflexivity.
        - destruct (shaper_decoy sh) as [[[d|] sh'] r']; reflexivity.
        - destruct (sync_write w d) as [[x w']| |]; reflexivity. }
      split; [now rewrite (X _ _ D1)|]. exists pl. now rewrite (X _ _ D2).
Qed.

Lemma alike_move s1 s2 m1 m2 s1' s2' :
  alike s1 s2 -> blank_move m1 = blank_move m2 -> do_move s1 m1 = Some s1' -> do_move s2 m2 = Some s2' ->
  poisoned s1' = false -> poisoned s2' = false ->
  map blank_choice (chosen_by s1 m1) = map blank_choice (chosen_by s2 m2) /\
  (alike s1' s2' \/ apart s1' s2' \/ apart s2' s1').
Proof.
  intros (A1 & A2 & A3 & A4 & A5) M H1 H2 P1 P2.
  pose proof (poisoned_back _ _ _ H1 P1) as Q1. pose proof (poisoned_back _ _ _ H2 P2) as Q2.
  destruct s1 as [w1 sh lk po1 sd a1 t rc1 rt1], s2 as [w2 sh2 lk2 po2 sd2 a2 t2 rc2 rt2].
  cbn [st_shaper lock shutdown app_at thread_at poisoned] in *. subst sh2 lk2 sd2 t2 po1 po2. unfold alike, apart, chosen_by.
  destruct m1 as [pl1| | |], m2 as [pl2| | |]; try discriminate M; cbn [do_move app_at st_shaper thread_at] in *.
  - destruct a1, a2; try discriminate. injection H1 as <-. injection H2 as <-. cbn. auto 10.
  - destruct a1, a2; try discriminate; injection H1 as <-; injection H2 as <-; cbn; auto 10.
  - unfold app_step in H1, H2. cbn [app_at lock poisoned st_shaper st_writer thread_at] in H1, H2.
    destruct a1 as [|pl1|pl1|d1 pl1|pl1| | |], a2 as [|pl2|pl2|d2 pl2|pl2| | |]; try discriminate.
    + destruct lk; try discriminate. injection H1 as <-. injection H2 as <-. cbn. auto 10.
    + injection H1 as <-. injection H2 as <-.
      destruct (shaper_pad sh pl1) as [[[d1 sh1] rec1]| |] eqn:S1; [|discriminate P1..].
      destruct (shaper_pad sh pl2) as [[[d2 sh2] rec2]| |] eqn:S2; [|discriminate P2..].
      destruct (pad_oblivious _ _ _ _ _ _ _ _ _ S1 S2) as (<- & <- & B). cbn [map]. rewrite B. split; [reflexivity|].
      left. destruct d1; cbn; auto 10.
    + cbn in A4. injection A4 as <-. injection H1 as <-. injection H2 as <-. split; [reflexivity|].
      destruct (sync_write w1 d1) as [[[[]|e1] w1']| |]; [| |discriminate P1..];
        (destruct (sync_write w2 d1) as [[[[]|e2] w2']| |]; [| |discriminate P2..]); cbn; eauto 12.
    + injection H1 as <-. injection H2 as <-. split; [reflexivity|].
      destruct (sync_write w1 pl1) as [[x1 w1']| |]; [|discriminate P1..].
      destruct (sync_write w2 pl2) as [[x2 w2']| |]; [|discriminate P2..]. cbn. auto 10.
    + destruct t; try discriminate; injection H1 as <-; injection H2 as <-; cbn; auto 10.
  - unfold thread_step in H1, H2. cbn [app_at lock poisoned st_shaper st_writer thread_at shutdown] in H1, H2.
    split; [reflexivity|]. left.
    destruct t; try discriminate; injection H1 as <-; injection H2 as <-.
    + destruct sd; cbn; auto 10.
    + cbn; auto 10.
    + destruct lk; cbn; auto 10.
    + destruct (shaper_decoy sh) as [[[d|] sh'] rec']; cbn; auto 10.
    + destruct (sync_write w1 d) as [[x1 w1']| |]; [|discriminate P1..].
      destruct (sync_write w2 d) as [[x2 w2']| |]; [|discriminate P2..]. cbn. auto 10.
Qed.

Lemma play_poisoned_back : forall ms s s', play s ms = Some s' -> poisoned s' = false -> poisoned s = false.
Proof.
  induction ms as [|m ms IH]; intros s s' H P; cbn [play] in H; [congruence|].
  destruct (do_move s m) as [s1|] eqn:D; [|discriminate]. eapply poisoned_back; [exact D|]. eapply IH; eassumption.
Qed.

Lemma alike_play : forall ms1 ms2 s1 s2 s1' s2',
  alike s1 s2 -> locked s1 -> locked s2 -> map blank_move ms1 = map blank_move ms2 ->
  play s1 ms1 = Some s1' -> play s2 ms2 = Some s2' -> poisoned s1' = false -> poisoned s2' = false ->
  lock s1' = Free -> lock s2' = Free ->
  map blank_choice (choices s1 ms1) = map blank_choice (choices s2 ms2) /\ alike s1' s2'.
Proof.
  induction ms1 as [|m1 ms1 IH]; intros [|m2 ms2] s1 s2 s1' s2' A L1 L2 M H1 H2 P1 P2 F1 F2; try discriminate.
  - cbn in *. split; [reflexivity|]. congruence.
  - cbn [map play choices] in *. injection M as M0 M. destruct (do_move s1 m1) as [s1a|] eqn:D1; [|discriminate].
    destruct (do_move s2 m2) as [s2a|] eqn:D2; [|discriminate].
    pose proof (locked_move _ _ _ L1 D1) as L1'. pose proof (locked_move _ _ _ L2 D2) as L2'.
    destruct (alike_move _ _ _ _ _ _ A M0 D1 D2 (play_poisoned_back _ _ _ H1 P1) (play_poisoned_back _ _ _ H2 P2)) as
      (C & [A'|[A'|A']]).
    + destruct (IH _ _ _ _ _ A' L1' L2' M H1 H2 P1 P2 F1 F2) as (C' & A''). split; [|exact A''].
      rewrite !map_app, C, C'. reflexivity.
    + rewrite (apart_stays _ _ _ _ _ _ A' L2' M H1 H2) in F2. discriminate.
    + rewrite (apart_stays _ _ _ _ _ _ A' L1' (eq_sym M) H2 H1) in F1. discriminate.
Qed.

(** ** The asynchronous driver *)

Definition chosen_at t (e : event) : list choice :=
  match e with
  | Poll tick_first elapsed =>
    if running t then
      if tick_first && elapsed then decoy_choice (tk_shaper t)
      else match queue t with
           | c :: _ => [pad_choice (tk_shaper t) (cmd_payload c)]
           | [] => if elapsed then decoy_choice (tk_shaper t) else []
           end
    else []
  | _ => []
  end.

Fixpoint task_choices t (es : list event) : list choice :=
  match es with [] => [] | e :: es => chosen_at t e ++ task_choices (task_step t e) es end.

Definition tdinv (cfg : config) (g0 : G) (p0 : pwriter) (us : list choice) t : Prop :=
  Forall (choice_ok cfg) us /\ drawn g0 (draws_of us) (sh_rng (tk_shaper t)) /\
  exists rs, serves Tokio p0 (blocks us) rs (tk_writer t) /\ map snd rs = map snd (answers t).

Lemma tick_chosen cfg g0 p0 k us t :
  sh_config (tk_shaper t) = cfg -> counted k (pw_cipher (tk_writer t)) -> room k ->
  tdinv cfg g0 p0 us t -> tdinv cfg g0 p0 (us ++ decoy_choice (tk_shaper t)) (tick t).
Proof.
  intros C Hc Hr (F & D & rs & S & A). unfold tick.
  destruct (shaper_decoy (tk_shaper t)) as [[d sh'] rec'] eqn:SD.
  destruct (decoy_chosen _ _ _ _ SD) as (C' & Ok' & D' & Q). rewrite C in *.
  assert (Forall (choice_ok cfg) (us ++ decoy_choice (tk_shaper t))) as F' by (apply Forall_app; split; assumption).
  assert (drawn g0 (draws_of (us ++ decoy_choice (tk_shaper t))) (sh_rng sh')) as D2
    by (rewrite draws_snoc; eapply drawn_app; eassumption).
  destruct d as [d|].
  - destruct Q as (n & size & Qc & ->).
    destruct (write_any_total Tokio (tk_writer t) (decoy (zeros size)) k (Decoy, zeros size) Hc Hr) as (x & w & W & _); [reflexivity|].
    cbn [write_any] in W. rewrite W. unfold turn, tdinv. cbn [tk_shaper tk_writer answers]. rewrite app_nil_r.
    split; [assumption|]. split; [assumption|]. exists rs. split; [|assumption].
    rewrite blocks_snoc, Qc. eapply serves_cover; [eassumption|exact W].
  - unfold turn, tdinv. cbn [tk_shaper tk_writer answers]. rewrite app_nil_r.
    split; [assumption|]. split; [assumption|]. exists rs. split; [|assumption].
    now rewrite blocks_snoc, Q, app_nil_r.
Qed.

Lemma handle_chosen cfg g0 p0 k us t c q :
  sh_config (tk_shaper t) = cfg -> counted k (pw_cipher (tk_writer t)) ->
  (overflow_checks = true -> k + 2 < 2 ^ 32) -> sound_payload (cmd_payload c) ->
  tdinv cfg g0 p0 us t -> tdinv cfg g0 p0 (us ++ [pad_choice (tk_shaper t) (cmd_payload c)]) (handle t c q).
Proof.
  intros C Hc Hr Sp (F & D & rs & S & A). unfold handle.
  destruct (pad_total (tk_shaper t) _ Sp) as (d & sh' & rec' & SP). rewrite SP.
  destruct (pad_chosen _ _ _ _ _ SP) as (C' & Ok' & D' & Q). rewrite C in *.
  assert (Forall (choice_ok cfg) (us ++ [pad_choice (tk_shaper t) (cmd_payload c)])) as F'
    by (apply Forall_app; split; [assumption|repeat constructor; assumption]).
  assert (drawn g0 (draws_of (us ++ [pad_choice (tk_shaper t) (cmd_payload c)])) (sh_rng sh')) as D2.
  { rewrite draws_snoc. cbn [flat_map]. rewrite app_nil_r. eapply drawn_app; eassumption. }
  destruct Sp as [v V].
  assert (room k) as R0 by (intros Ho; specialize (Hr Ho); lia).
  assert (room (k + 1)) as R1 by (intros Ho; specialize (Hr Ho); lia).
  destruct d as [d|].
  - destruct Q as (n & Qc & ->).
    destruct (write_any_total Tokio (tk_writer t) (decoy (zeros n)) k (Decoy, zeros n) Hc R0) as (x & w & W & Cw); [reflexivity|].
    cbn [write_any] in W. rewrite W. destruct x as [[]|e].
    + destruct (write_any_total Tokio w (cmd_payload c) (k + 1) v Cw R1 V) as (x & w2 & W2 & Cw2). cbn [write_any] in W2.
      rewrite W2. unfold turn, tdinv. cbn [tk_shaper tk_writer answers].
      split; [assumption|]. split; [assumption|]. exists (rs ++ [(cmd_payload c, x)]). split.
      * rewrite blocks_snoc, Qc. eapply serves_padded; [eassumption|exact W|exact W2].
      * rewrite !map_app, A. reflexivity.
    + unfold turn, tdinv. cbn [tk_shaper tk_writer answers].
      split; [assumption|]. split; [assumption|]. exists (rs ++ [(cmd_payload c, Err e)]). split.
      * rewrite blocks_snoc, Qc. eapply serves_padding_failed; [eassumption|exact W].
      * rewrite !map_app, A. reflexivity.
  - destruct (write_any_total Tokio (tk_writer t) (cmd_payload c) k v Hc R0 V) as (x & w2 & W2 & Cw2). cbn [write_any] in W2.
    rewrite W2. unfold turn, tdinv. cbn [tk_shaper tk_writer answers].
    split; [assumption|]. split; [assumption|]. exists (rs ++ [(cmd_payload c, x)]). split.
    + rewrite blocks_snoc, Q. eapply serves_bare; [eassumption|exact W2].
    + rewrite !map_app, A. reflexivity.
Qed.

Lemma tdinv_step cfg p0 recs0 k es g0 us t e :
  tinv cfg p0 recs0 k es t -> (overflow_checks = true -> k + 2 < 2 ^ 32) -> event_sound e ->
  tdinv cfg g0 p0 us t -> tdinv cfg g0 p0 (us ++ chosen_at t e) (task_step t e).
Proof.
  intros (C & Hc & _ & Sl & Fq & _) Hr Se I.
  assert (room k) as R0 by (intros Ho; specialize (Hr Ho); lia).
  destruct e as [c| |tf el|]; cbn [task_step chosen_at]; rewrite ?app_nil_r.
  - destruct (senders t && running t); exact I.
  - exact I.
  - destruct (running t) eqn:Ru.
    2:{ unfold poll_task. rewrite Ru, app_nil_r. exact I. }
    rewrite poll_task_eq by assumption. destruct (tf && el); [now apply (tick_chosen _ _ _ k)|].
    destruct (queue t) as [|c q].
    + destruct el; [now apply (tick_chosen _ _ _ k)|]. rewrite app_nil_r. exact I.
    + inversion Fq; subst. now apply (handle_chosen _ _ _ k).
  - destruct (running t); exact I.
Qed.

Lemma tdinv_run cfg p0 recs0 g0 : forall es2 k es1 us t,
  tinv cfg p0 recs0 k es1 t -> (overflow_checks = true -> k + 2 * len es2 < 2 ^ 32) -> Forall event_sound es2 ->
  tdinv cfg g0 p0 us t -> tdinv cfg g0 p0 (us ++ task_choices t es2) (task_run t es2).
Proof.
  induction es2 as [|e es2 IH]; intros k es1 us t I Hr F Dv.
  - cbn. now rewrite app_nil_r.
  - inversion F; subst. rewrite len_cons in *. cbn [task_choices task_run fold_left]. rewrite app_assoc.
    apply (IH (k + 2) (es1 ++ [e])); [|intros Ho; specialize (Hr Ho); lia|assumption|].
    + apply tinv_step; [assumption|intros Ho; specialize (Hr Ho); lia|assumption].
    + eapply tdinv_step; [exact I|intros Ho; specialize (Hr Ho); lia|assumption|assumption].
Qed.

Lemma task_chosen p sh recs k es :
  counted k (pw_cipher p) -> (overflow_checks = true -> k + 2 * len es < 2 ^ 32) -> Forall event_sound es ->
  tdinv (sh_config sh) (sh_rng sh) p (task_choices (task_new p sh recs) es) (task_run (task_new p sh recs) es).
Proof.
  intros Hc Hr F. apply (tdinv_run _ _ _ _ es k [] [] _ (tinv_new p sh recs k Hc) Hr F).
  unfold tdinv, task_new. cbn. split; [constructor|]. split; [constructor|]. exists []. split; [constructor|reflexivity].
Qed.

(** *** Two tasks with the same events *)

Definition talike t1 t2 : Prop :=
  tk_shaper t1 = tk_shaper t2 /\ length (queue t1) = length (queue t2) /\ senders t1 = senders t2 /\
  running t1 = running t2.

Lemma handle_oblivious k t1 t2 c1 c2 q1 q2 :
  tk_shaper t1 = tk_shaper t2 -> senders t1 = senders t2 -> length q1 = length q2 ->
  sound_payload (cmd_payload c1) -> sound_payload (cmd_payload c2) ->
  counted k (pw_cipher (tk_writer t1)) -> counted k (pw_cipher (tk_writer t2)) ->
  (overflow_checks = true -> k + 2 < 2 ^ 32) ->
  talike (handle t1 c1 q1) (handle t2 c2 q2).
Proof.
  intros Sh Sn Lq S1 S2 C1 C2 Hr.
  assert (room k) as R0 by (intros Ho; specialize (Hr Ho); lia).
  assert (room (k + 1)) as R1 by (intros Ho; specialize (Hr Ho); lia).
  assert (X : forall t c q, sound_payload (cmd_payload c) -> counted k (pw_cipher (tk_writer t)) ->
    exists d sh w recs ans recs', shaper_pad (tk_shaper t) (cmd_payload c) = Ret (d, sh, recs') /\ handle t c q = turn t w sh q recs ans).
  { clear -EL RL R0 R1. intros t c q Sp Hc. unfold handle.
    destruct (pad_total (tk_shaper t) _ Sp) as (d & sh' & rec' & SP). rewrite SP.
    pose proof (pad_chosen _ _ _ _ _ SP) as (_ & _ & _ & Q). destruct Sp as [v V]. destruct d as [d|].
    - destruct Q as (n & _ & ->).
      destruct (write_any_total Tokio (tk_writer t) (decoy (zeros n)) k (Decoy, zeros n) Hc R0) as (x & w & W & Cw); [reflexivity|].
      cbn [write_any] in W. rewrite W. destruct x as [[]|e]; [|eauto 10].
      destruct (write_any_total Tokio w (cmd_payload c) (k + 1) v Cw R1 V) as (x & w2 & W2 & Cw2). cbn [write_any] in W2.
      rewrite W2. eauto 10.
    - destruct (write_any_total Tokio (tk_writer t) (cmd_payload c) k v Hc R0 V) as (x & w2 & W2 & Cw2). cbn [write_any] in W2.
      rewrite W2. eauto 10. }
  destruct (X t1 c1 q1 S1 C1) as (d1 & sh1 & w1 & r1 & a1 & r1' & P1 & ->).
  destruct (X t2 c2 q2 S2 C2) as (d2 & sh2 & w2 & r2 & a2 & r2' & P2 & ->).
  rewrite Sh in P1. destruct (pad_oblivious _ _ _ _ _ _ _ _ _ P1 P2) as (_ & <- & _).
  unfold talike, turn. cbn. auto.
Qed.

Lemma tick_oblivious k t1 t2 :
  talike t1 t2 -> counted k (pw_cipher (tk_writer t1)) -> counted k (pw_cipher (tk_writer t2)) -> room k ->
  talike (tick t1) (tick t2).
Proof.
  intros (Sh & Lq & Sn & _) C1 C2 R0. unfold tick. rewrite Sh.
  destruct (shaper_decoy (tk_shaper t2)) as [[d sh] recs] eqn:SD. destruct d as [d|]; [|unfold talike, turn; cbn; auto].
  destruct (decoy_chosen _ _ _ _ SD) as (_ & _ & _ & n & size & _ & ->).
  destruct (write_any_total Tokio (tk_writer t1) (decoy (zeros size)) k (Decoy, zeros size) C1 R0) as (x1 & w1 & W1 & _); [reflexivity|].
  destruct (write_any_total Tokio (tk_writer t2) (decoy (zeros size)) k (Decoy, zeros size) C2 R0) as (x2 & w2 & W2 & _); [reflexivity|].
  cbn [write_any] in W1, W2. rewrite W1, W2. unfold talike, turn; cbn; auto.
Qed.

Lemma talike_step cfg p1 p2 recs1 recs2 k es1 es2 t1 t2 e1 e2 :
  tinv cfg p1 recs1 k es1 t1 -> tinv cfg p2 recs2 k es2 t2 -> (overflow_checks = true -> k + 2 < 2 ^ 32) ->
  event_sound e1 -> event_sound e2 -> blank_event e1 = blank_event e2 -> talike t1 t2 ->
  map blank_choice (chosen_at t1 e1) = map blank_choice (chosen_at t2 e2) /\ talike (task_step t1 e1) (task_step t2 e2).
Proof.
  intros (_ & C1 & _ & Sl1 & Fq1 & _) (_ & C2 & _ & Sl2 & Fq2 & _) Hr _ _ B A.
  pose proof A as (Sh & Lq & Sn & Ru).
  assert (room k) as R0 by (intros Ho; specialize (Hr Ho); lia).
  destruct e1 as [c1| |tf el|], e2 as [c2| |tf2 el2|]; try discriminate B; cbn [task_step chosen_at].
  - split; [reflexivity|]. rewrite Sn, Ru. destruct (senders t2 && running t2); [|exact A].
    unfold talike. cbn. rewrite !app_length, Lq. auto.
  - split; [reflexivity|]. unfold talike. cbn. auto.
  - cbn in B. injection B as <- <-. destruct (running t2) eqn:R2.
    2:{ rewrite Ru. split; [reflexivity|]. unfold poll_task. rewrite Ru, R2. unfold talike. rewrite Ru, R2. auto. }
    rewrite Ru, !poll_task_eq by assumption. rewrite Sh.
    assert (talike (tick t1) (tick t2)) as Tk by (apply (tick_oblivious k); try assumption; unfold talike; rewrite Ru, R2; auto).
    destruct (tf && el); [split; [reflexivity|assumption]|].
    destruct (queue t1) as [|c1 q1], (queue t2) as [|c2 q2]; try discriminate Lq.
    + destruct el; [split; [reflexivity|assumption]|]. split; [reflexivity|]. unfold talike. cbn. auto.
    + inversion Fq1 as [|? ? Sc1 _]; subst. inversion Fq2 as [|? ? Sc2 _]; subst. split.
      * destruct (pad_total (tk_shaper t2) _ Sc1) as (d1 & sh1 & r1 & P1).
        destruct (pad_total (tk_shaper t2) _ Sc2) as (d2 & sh2 & r2 & P2).
        destruct (pad_oblivious _ _ _ _ _ _ _ _ _ P1 P2) as (_ & _ & Bc). cbn [map]. now rewrite Bc.
      * apply (handle_oblivious k); try assumption. now injection Lq.
  - split; [reflexivity|]. rewrite Ru. destruct (running t2); [|exact A]. unfold talike, stop. cbn. auto.
Qed.

Lemma talike_run cfg p1 p2 recs1 recs2 : forall fs1 fs2 k es1 es2 t1 t2,
  tinv cfg p1 recs1 k es1 t1 -> tinv cfg p2 recs2 k es2 t2 -> (overflow_checks = true -> k + 2 * len fs1 < 2 ^ 32) ->
  Forall event_sound fs1 -> Forall event_sound fs2 -> map blank_event fs1 = map blank_event fs2 -> talike t1 t2 ->
  map blank_choice (task_choices t1 fs1) = map blank_choice (task_choices t2 fs2) /\ talike (task_run t1 fs1) (task_run t2 fs2).
Proof.
  induction fs1 as [|e1 fs1 IH]; intros [|e2 fs2] k es1 es2 t1 t2 I1 I2 Hr F1 F2 M A; try discriminate M.
  - split; [reflexivity|exact A].
  - cbn [map] in M. injection M as M0 M. inversion F1; subst. inversion F2; subst. rewrite len_cons in Hr.
    assert (overflow_checks = true -> k + 2 < 2 ^ 32) as Hk by (intros Ho; specialize (Hr Ho); lia).
    edestruct (talike_step _ _ _ _ _ _ _ _ _ _ e1 e2 I1 I2 Hk) as (B & A'); try eassumption.
    cbn [task_choices task_run fold_left].
    destruct (IH fs2 (k + 2) (es1 ++ [e1]) (es2 ++ [e2]) (task_step t1 e1) (task_step t2 e2)) as (B' & A''); try assumption.
    + now apply tinv_step.
    + now apply tinv_step.
    + intros Ho; specialize (Hr Ho); lia.
    + rewrite !map_app, B, B'. auto.
Qed.

(** ** Either kind *)

Definition starts (ep : shaped) (p : pwriter) (sh : shaper G) (recs : list N) : Prop :=
  ep = Blocking (shared_new p sh recs) \/ ep = Tasked (task_new p sh recs).

Definition kind (ep : @shaped G) : flavor := match ep with Blocking _ => Sync | Tasked _ => Tokio end.

Definition all_choices (ep : shaped) (a : activity) : list choice :=
  match ep, a with
  | Blocking s, Moves ms => choices s ms
  | Tasked t, Events es => task_choices t es
  | _, _ => []
  end.

Theorem endpoint_chosen ep a ep' p sh recs k :
  starts ep p sh recs -> becomes ep a ep' -> counted k (pw_cipher p) ->
  (overflow_checks = true -> k + effort a < 2 ^ 32) -> activity_sound a ->
  let us := all_choices ep a in
  Forall (choice_ok (sh_config sh)) us /\ drawn (sh_rng sh) (draws_of us) (generator ep') /\
  exists rs, serves (kind ep) p (blocks us) rs (shaped_writer ep') /\ map snd rs = results ep'.
Proof.
  intros Hep B Hc Hr So. destruct ep as [s|t], a as [ms|es], ep' as [s'|t']; cbn [becomes] in B; try contradiction;
    (destruct Hep as [Q|Q]; try discriminate Q; injection Q as ->); cbn [all_choices kind generator effort activity_sound] in *.
  - destruct B as [P L]. destruct (schedule_no_panic _ _ _ _ _ _ Hc Hr So P) as (Po & _).
    destruct (schedule_chosen _ _ _ _ _ P Po L) as (F & D & S). split; [assumption|]. split; [assumption|].
    exists (returned s'). split; [assumption|reflexivity].
  - subst t'. destruct (task_chosen p sh recs k es Hc Hr So) as (F & D & rs & S & A).
    split; [assumption|]. split; [assumption|]. exists rs. split; [assumption|exact A].
Qed.

Theorem endpoint_oblivious ep1 a1 ep1' p1 recs1 ep2 a2 ep2' p2 recs2 sh k :
  starts ep1 p1 sh recs1 -> becomes ep1 a1 ep1' -> counted k (pw_cipher p1) -> activity_sound a1 ->
  starts ep2 p2 sh recs2 -> becomes ep2 a2 ep2' -> counted k (pw_cipher p2) -> activity_sound a2 ->
  (overflow_checks = true -> k + effort a1 < 2 ^ 32) ->
  blank_activity a1 = blank_activity a2 ->
  map blank_choice (all_choices ep1 a1) = map blank_choice (all_choices ep2 a2) /\ generator ep1' = generator ep2'.
Proof.
  intros H1 B1 C1 S1 H2 B2 C2 S2 Hr M.
  destruct ep1 as [s1|t1], a1 as [ms1|es1], ep1' as [s1'|t1']; cbn [becomes] in B1; try contradiction;
    (destruct H1 as [Q|Q]; try discriminate Q; injection Q as ->);
    destruct ep2 as [s2|t2], a2 as [ms2|es2], ep2' as [s2'|t2']; cbn [becomes] in B2; try contradiction; try discriminate M;
    (destruct H2 as [Q|Q]; try discriminate Q; injection Q as ->);
    cbn [all_choices generator effort activity_sound blank_activity] in *; injection M as M.
  - destruct B1 as [P1 L1], B2 as [P2 L2].
    destruct (schedule_no_panic _ _ _ _ _ _ C1 Hr S1 P1) as (Po1 & _).
    assert (len ms2 = len ms1) as Le.
    { apply (f_equal (@length _)) in M. rewrite !map_length in M. unfold len. now rewrite M. }
    rewrite <- Le in Hr. destruct (schedule_no_panic _ _ _ _ _ _ C2 Hr S2 P2) as (Po2 & _).
    destruct (alike_play ms1 ms2 (shared_new p1 sh recs1) (shared_new p2 sh recs2) s1' s2') as (X & Y & _); try assumption.
    + repeat split.
    + split; reflexivity.
    + split; reflexivity.
    + split; [exact X|now rewrite Y].
  - subst t1' t2'.
    destruct (talike_run (sh_config sh) p1 p2 recs1 recs2 es1 es2 k [] [] (task_new p1 sh recs1) (task_new p2 sh recs2)) as (X & Y & _);
      try assumption.
    + now apply tinv_new.
    + now apply tinv_new.
    + repeat split.
    + split; [exact X|now rewrite Y].
Qed.

(** ** From the seed *)

Lemma connected_counted fl magic r rnd g d (c : script) w rd p :
  len magic = 4 -> len (decoy_list d) <= 3 -> connect fl magic r rnd g d c w = Ret (Ok (rd, p)) -> counted 4 (pw_cipher p).
Proof.
  intros Hm Hd H. rewrite connect_handshake in H. apply bind_ret_inv in H. destruct H as (o & H & Q).
  destruct (ho_result o) as [[[i oc] sr]|] eqn:Ho; [|discriminate]. injection Q as _ <-.
  destruct (handshake_content _ _ _ _ _ _ _ _ _ _ _ _ Hm H Ho) as (h & fa & h' & wa & their & rest & St & Lt & K & _ & _ & Oc & _).
  cbn [pw_cipher]. subst oc.
  assert (hs_magic h = magic) as Mh.
  { unfold party_start in St. apply bind_ret_inv in St. destruct St as ([h0|e] & N & St); [|discriminate].
    apply bind_ret_inv in St. destruct St as ([[h1|e] out] & SK & St); [|discriminate]. injection St as <- <-.
    now rewrite (send_key_magic _ _ _ _ _ SK), (hs_new_magic _ _ _ _ N). }
  unfold party_key in K. apply bind_ret_inv in K. destruct K as ([h2|e] & RK & K); [|discriminate].
  apply bind_ret_inv in K. destruct K as ([[h3|e] out] & SV & K); [|discriminate]. injection K as <- <-.
  destruct (receive_key_v1 h their Lt) as [V K]; [congruence|].
  assert (take 4 their <> hs_magic h) as Nv. { intros Q. apply V in Q. congruence. }
  destruct (K Nv) as (m & Q & KF). rewrite RK in Q. injection Q as ->.
  assert (len (terminator m (hs_role h)) = 16) as TL by
    (cbn zeta in KF; destruct (in_order (hs_role h) _ their); eapply terminator_len, KF).
  rewrite send_version_eq in SV by
    (cbn [hs_state session_keys hs_role]; rewrite ?TL, ?send_version_len_eq, ?len_zeros; lia || reflexivity).
  apply bind_ret_inv in SV. destruct SV as ([ps oc] & Sa & SV). injection SV as <- _.
  cbn [hs_state sv_cipher outbound session_keys hs_role rk_local_garbage] in *.
  set (msgs := version_msgs _ _) in Sa.
  assert (len msgs <= 4) as Lm.
  { unfold msgs. rewrite version_msgs_len. lia. }
  destruct (send_all_ret msgs 0 _ (proj2 (session_counted m (hs_role h)))) as (ps' & oc' & S' & C').
  { intros _. change (2 ^ 32) with 4294967296. lia. }
  rewrite Sa in S'. injection S' as <- <-. eapply counted_mono; [|exact C']. lia.
Qed.

Theorem seed_chosen fl magic r rnd c (g : G) sc w rd ep acts ep' :
  len magic = 4 -> shaped_connect fl magic r rnd c g sc w = Ret (Ok (rd, ep)) ->
  becomes ep acts ep' -> activity_sound acts -> (overflow_checks = true -> 4 + effort acts < 2 ^ 32) ->
  let us := all_choices ep acts in
  exists garbage decoys p rs,
    connect fl magic r rnd garbage decoys sc w = Ret (Ok (rd, p)) /\
    (garbage = None <-> padding_strategy c = Disabled) /\ (decoys = None <-> decoy_strategy c = Disabled) /\
    drawn g (handshake_draws garbage decoys ++ draws_of us) (generator ep') /\
    Forall (choice_ok c) us /\
    serves fl p (blocks us) rs (shaped_writer ep') /\ map snd rs = results ep' /\
    exists sh recs, shaper_handshake (Shaper c g) = (garbage, decoys, sh, recs) /\ starts ep p sh recs /\ counted 4 (pw_cipher p).
Proof.
  intros Hm H B So Hr us. destruct (shaper_handshake (Shaper c g)) as [[[ga da] sh] recs] eqn:Hs.
  destruct (shaped_connect_inv _ _ _ _ _ _ _ _ _ _ _ _ _ _ Hs H) as (p & Cn & Ep).
  destruct (shaper_handshake_limits _ _ _ _ _ _ Hs) as (L1 & L2 & Cc).
  pose proof (connected_counted _ _ _ _ _ _ _ _ _ _ Hm L2 Cn) as Ct.
  assert (kind ep = fl) as Kd.
  { rewrite (shaped_connect_plain _ _ _ _ _ _ _ _ _ _ _ _ _ _ Hs Cn) in H. injection H as <-. now destruct fl. }
  destruct (endpoint_chosen _ _ _ _ _ _ _ Ep B Ct Hr So) as (F & D & rs & S & A). fold us in F, D, S.
  exists ga, da, p, rs. split; [exact Cn|].
  pose proof (shaper_handshake_spec _ _ _ _ _ Hs) as (_ & H1 & H2 & _). cbn [sh_config] in H1, H2.
  split; [destruct (padding_strategy c); [split; auto|]; destruct H1 as (x & -> & _); split; discriminate|].
  split; [destruct (decoy_strategy c); [split; auto|]; destruct H2 as (x & -> & _); split; discriminate|].
  split; [eapply drawn_app; [exact (handshake_drawn _ _ _ _ _ Hs)|exact D]|].
  rewrite Cc in F. split; [exact F|]. rewrite Kd in S. split; [exact S|]. split; [exact A|]. eauto.
Qed.

End Draws.
