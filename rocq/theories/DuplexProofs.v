(** * DuplexProofs: blocking shaped endpoints over pipes of bounded capacity *)
From Coq Require Import List NArith Bool Lia Wf_nat.
From Coq.Strings Require Import Byte.
From Verif Require Import Base BaseFacts Env FsChacha Cipher Histories CipherProofs Handshake Transport TransportProofs Io SpecIo
  IoProofs Futures FuturesProofs Sessions SessionProofs ReaderProofs HsSteps
  Traffic TrafficIo SpecTraffic SpecIntegrity IntegrityProofs TrafficProofs TrafficIoProofs TrafficLiveProofs SpecDuplex.
Import ListNotations.
Local Open Scope N_scope.

(** ** Programs *)

Lemma concert_left_says pl ta tb na nb : concert (Say pl :: ta) tb na nb -> concert ta tb na (S nb).
Proof.
  remember (Say pl :: ta) as l eqn:Q. intros H. revert pl ta Q.
  induction H as [na nb|p ta0 tb na nb H IH|ta0 tb na nb H IH|p ta0 tb na nb H IH|ta0 tb na nb H IH];
    intros pl ta Q; try discriminate.
  - injection Q as -> ->. assumption.
  - subst. constructor. eapply IH. reflexivity.
  - subst. constructor. eapply IH. reflexivity.
Qed.

Lemma concert_left_hears ta tb na nb : concert (Hear :: ta) tb (S na) nb -> concert ta tb na nb.
Proof.
  remember (Hear :: ta) as l eqn:Q. remember (S na) as n eqn:Qn. intros H. revert na ta Q Qn.
  induction H as [na nb|p ta0 tb na nb H IH|ta0 tb na nb H IH|p ta0 tb na nb H IH|ta0 tb na nb H IH];
    intros n ta Q Qn; try discriminate.
  - injection Q as ->. injection Qn as <-. assumption.
  - subst. constructor. eapply IH; reflexivity.
  - subst. constructor. eapply IH; reflexivity.
Qed.

Lemma concert_swap ta tb na nb : concert ta tb na nb -> concert tb ta nb na.
Proof. intros H. induction H; constructor; assumption. Qed.

Section WithLaws.
Context {E : Env} {EL : EnvLaws E} {G : Type} {R : Rng G} {RL : RngLaws G R}.
Implicit Types (s : @shared G) (a b : @side G).

(** ** One side at a time *)

Inductive solo (cap : N) : side -> bytes -> bytes -> side -> bytes -> bytes -> Prop :=
| solo_here a inc o : solo cap a inc o a inc o
| solo_more a inc o a1 inc1 out a2 inc2 o2 :
    operates inc (cap - len o) a a1 inc1 out -> solo cap a1 inc1 (o ++ out) a2 inc2 o2 -> solo cap a inc o a2 inc2 o2.

Lemma solo_trans cap a inc o a1 inc1 o1 a2 inc2 o2 :
  solo cap a inc o a1 inc1 o1 -> solo cap a1 inc1 o1 a2 inc2 o2 -> solo cap a inc o a2 inc2 o2.
Proof. intros H. revert a2 inc2 o2. induction H; intros; [assumption|]. eapply solo_more; eauto. Qed.

Lemma solo_left cap a inc o a' inc' o' b : solo cap a inc o a' inc' o' ->
  duplex_run cap (Duplex a b o inc) (Duplex a' b o' inc').
Proof.
  intros H. induction H; [constructor|]. eapply duplex_more; [|eassumption]. now constructor.
Qed.

Lemma solo_right cap b inc o b' inc' o' a : solo cap b inc o b' inc' o' ->
  duplex_run cap (Duplex a b inc o) (Duplex a b' inc' o').
Proof.
  intros H. induction H; [constructor|]. eapply duplex_more; [|eassumption]. now constructor.
Qed.

Lemma duplex_trans cap x y z : duplex_run cap x y -> duplex_run cap y z -> duplex_run cap x z.
Proof. intros H. induction H; intros; [assumption|]. eapply duplex_more; eauto. Qed.

(** The last step is seen first. *)
Lemma duplex_snoc cap x y : duplex_run cap x y -> forall z, duplex_step cap y z -> duplex_run cap x z.
Proof. intros H z S. eapply duplex_trans; [exact H|]. eapply duplex_more; [exact S|constructor]. Qed.

(** A move without output. *)
Lemma solo_move cap m s s' n r got todo heard inc o : m = App \/ m = Thread -> do_move s m = Some s' -> output s' = output s ->
  solo cap (Side s n r got todo heard) inc o (Side s' n r got todo heard) inc o.
Proof.
  intros M H Q. eapply solo_more; [eapply moves_on; eassumption|]. rewrite app_nil_r. constructor.
Qed.

(** ** Decoys until the pipe is full *)

Definition resting s : Prop :=
  lock s = Free /\ poisoned s = false /\ shutdown s = false /\ app_at s = AppOut /\ thread_at s = ThCheck /\
  healthy (pw_writer (st_writer s)).

Lemma iter_in {A} (f : A -> A) n x : Nat.iter (S n) f x = Nat.iter n f (f x).
Proof. induction n as [|n IH]; [reflexivity|]. cbn [Nat.iter nat_rect] in *. now rewrite IH. Qed.

Lemma goes_to_decoy s r got todo heard cap inc o n : resting s ->
  solo cap (Side s n r got todo heard) inc o
    (Side (Shared (st_writer s) (st_shaper s) ByDecoy false false AppOut ThDecoy (records s) (returned s)) n r got todo heard) inc o.
Proof.
  intros (L & P & D & A & T & _). destruct s as [w sh lk po sd a t rc rt].
  cbn [lock poisoned shutdown app_at thread_at st_writer st_shaper records returned] in *. subst.
  eapply solo_trans; [eapply solo_move with (m := Thread); [now right|reflexivity|reflexivity]|].
  eapply solo_trans; [eapply solo_move with (m := Thread); [now right|reflexivity|reflexivity]|].
  eapply solo_trans; [eapply solo_move with (m := Thread); [now right|reflexivity|reflexivity]|].
  constructor.
Qed.

Lemma draws_a_decoy : forall n s r got todo heard cap inc o,
  resting s -> decoy_strategy (sh_config (st_shaper s)) = Random ->
  85 <= fst (gen_range 0 99 (Nat.iter n (fun g => snd (gen_range 0 99 g)) (sh_rng (st_shaper s)))) ->
  exists s' d, solo cap (Side s 0 r got todo heard) inc o (Side s' 0 r got todo heard) inc o /\
    st_writer s' = st_writer s /\ sh_config (st_shaper s') = sh_config (st_shaper s) /\
    lock s' = ByDecoy /\ poisoned s' = false /\ shutdown s' = false /\ app_at s' = AppOut /\
    thread_at s' = ThWrite d /\ shaper_decoy_payload d.
Proof.
  induction n as [|n IH]; intros s r got todo heard cap inc o Rs C H;
    pose proof (goes_to_decoy s r got todo heard cap inc o 0 Rs) as W;
    destruct (gen_range 0 99 (sh_rng (st_shaper s))) as [p g] eqn:Q;
    (destruct (p <? 85) eqn:L; [apply N.ltb_lt in L|]).
  - exfalso. cbn [Nat.iter nat_rect] in H. rewrite Q in H. cbn [fst] in H. lia.
  - clear H. destruct (gen_range 1 1024 g) as [size g'] eqn:Z. pose proof (gen_range_in 1 1024 g ltac:(lia)) as B.
    rewrite Z in B. cbn [fst] in B.
    exists (Shared (st_writer s) (Shaper (sh_config (st_shaper s)) g') ByDecoy false false AppOut (ThWrite (decoy (zeros size)))
      (records s ++ [len (zeros size)]) (returned s)), (decoy (zeros size)).
    split; [|repeat split; eauto; now exists size].
    eapply solo_trans; [exact W|]. eapply solo_move with (m := Thread); [now right| |reflexivity].
    cbn [do_move thread_step thread_at st_shaper]. unfold shaper_decoy, zero_decoy. rewrite C, Q, L.
    change MAX_DECOY_SIZE_BYTES with 1024. rewrite Z. reflexivity.
  - destruct (IH (Shared (st_writer s) (Shaper (sh_config (st_shaper s)) g) Free false false AppOut ThCheck (records s ++ [])
      (returned s)) r got todo heard cap inc o) as (s' & d & S1 & Q1 & Q2 & Q3).
    + destruct Rs as (_ & _ & _ & _ & _ & Hh). repeat split; apply Hh.
    + assumption.
    + rewrite iter_in, Q in H. exact H.
    + exists s', d. split; [|auto]. eapply solo_trans; [exact W|]. eapply solo_trans; [|exact S1].
      eapply solo_move with (m := Thread); [now right| |reflexivity].
      cbn [do_move thread_step thread_at st_shaper]. unfold shaper_decoy. rewrite C, Q, (proj2 (N.ltb_lt _ _) L). reflexivity.
  - clear H. destruct (gen_range 1 1024 g) as [size g'] eqn:Z. pose proof (gen_range_in 1 1024 g ltac:(lia)) as B.
    rewrite Z in B. cbn [fst] in B.
    exists (Shared (st_writer s) (Shaper (sh_config (st_shaper s)) g') ByDecoy false false AppOut (ThWrite (decoy (zeros size)))
      (records s ++ [len (zeros size)]) (returned s)), (decoy (zeros size)).
    split; [|repeat split; eauto; now exists size].
    eapply solo_trans; [exact W|]. eapply solo_move with (m := Thread); [now right| |reflexivity].
    cbn [do_move thread_step thread_at st_shaper]. unfold shaper_decoy, zero_decoy. rewrite C, Q, L.
    change MAX_DECOY_SIZE_BYTES with 1024. rewrite Z. reflexivity.
Qed.

(** The write of a payload when the transport is in order. *)
Lemma sync_write_fine w pl k : healthy (pw_writer w) -> counted k (pw_cipher w) -> room k -> sound_payload pl ->
  exists pkt c' w', sync_write w pl = Ret (Ok tt, w') /\
    encrypt_to_vec (pw_cipher w) (snd (seen pl)) (fst (seen pl)) None = Ret (pkt, c') /\ pw_cipher w' = c' /\
    counted (k + 1) c' /\ healthy (pw_writer w') /\ written (pw_writer w') = written (pw_writer w) ++ pkt /\
    len pkt = size_of pl + 20.
Proof.
  intros Hh Hc Hr (v & V). destruct (write_any_total Sync w pl k v Hc Hr V) as (x & w' & W & Hc').
  destruct (write_any_healthy_any Sync w pl x w' Hh W) as (-> & Hh' & pkt & En & Wr).
  exists pkt, (pw_cipher w'), w'. split; [exact W|]. split; [exact En|]. split; [reflexivity|]. split; [assumption|].
  split; [assumption|]. split; [assumption|]. apply encrypt_vec_len in En. exact En.
Qed.

Definition stuck s n : Prop :=
  lock s = ByDecoy /\ app_at s = AppOut /\
  exists d s' out, thread_at s = ThWrite d /\ do_move s Thread = Some s' /\ output s' = output s ++ out /\ n < len out.

Lemma decoy_sound d : shaper_decoy_payload d -> sound_payload d.
Proof. intros (n & _ & ->). eexists. reflexivity. Qed.

Hypothesis Restless : restless R.

Lemma fills_up : forall f s r got todo heard cap inc o k, (N.to_nat (cap - len o) <= f)%nat -> len o <= cap ->
  resting s -> decoy_strategy (sh_config (st_shaper s)) = Random ->
  counted k (pw_cipher (st_writer s)) -> room (k + (cap - len o)) ->
  exists s' n o', solo cap (Side s 0 r got todo heard) inc o (Side s' n r got todo heard) inc o' /\
    len o' = cap /\ stuck s' n.
Proof.
  induction f as [f IH] using lt_wf_ind. intros s r got todo heard cap inc o k Lf Lo Rs C Hc Hr.
  destruct (Restless (sh_rng (st_shaper s))) as (n & Hn).
  destruct (draws_a_decoy n s r got todo heard cap inc o Rs C Hn) as
    (s1 & d & S1 & Qw & Qc & Ql & Qp & Qd & Qa & Qt & Sd). clear n Hn.
  pose proof Rs as (_ & _ & _ & _ & _ & Hh).
  destruct (sync_write_fine (st_writer s) d k Hh Hc ltac:(intros Ho; specialize (Hr Ho); lia) (decoy_sound d Sd))
    as (pkt & c' & w' & W & En & Qc' & Hc' & Hh' & Wr & Lp).
  set (s2 := Shared w' (st_shaper s1) Free false false AppOut ThCheck (records s1) (returned s1)).
  assert (do_move s1 Thread = Some s2) as M.
  { cbn [do_move]. unfold thread_step. rewrite Qt, Qw, W. destruct s1 as [w1 sh1 lk1 po1 sd1 a1 t1 rc1 rt1].
    cbn [lock poisoned shutdown app_at thread_at] in *. subst. reflexivity. }
  assert (output s2 = output s1 ++ pkt) as O by (unfold output; rewrite Qw; exact Wr).
  destruct (N.le_gt_cases (len pkt) (cap - len o)) as [Fit|Big].
  - destruct (IH (N.to_nat (cap - len (o ++ pkt))) ltac:(rewrite len_app; lia) s2 r got todo heard cap inc (o ++ pkt) (k + 1))
      as (s3 & n & o3 & S3 & L3 & St3).
    + lia.
    + rewrite len_app. lia.
    + unfold resting, s2. repeat split; apply Hh'.
    + unfold s2. cbn [st_shaper]. rewrite Qc. assumption.
    + unfold s2. cbn [st_writer]. rewrite Qc'. assumption.
    + intros Ho. specialize (Hr Ho). rewrite len_app. lia.
    + exists s3, n, o3. split; [|auto]. eapply solo_trans; [exact S1|]. eapply solo_more; [|exact S3].
      exact (puts_last inc (cap - len o) Thread s1 s2 pkt 0 r got todo heard (or_intror eq_refl) M O ltac:(lia)).
  - destruct (N.eq_0_gt_0_cases (cap - len o)) as [Z|Z].
    + exists s1, 0, o. split; [exact S1|]. split; [lia|]. split; [assumption|]. split; [assumption|].
      exists d, s2, pkt. repeat split; auto. lia.
    + exists s1, (cap - len o), (o ++ take (cap - len o) pkt). split; [|split].
      * eapply solo_trans; [exact S1|]. eapply solo_more; [|apply solo_here].
        exact (puts_out inc (cap - len o) Thread s1 s2 pkt (cap - len o) 0 r got todo heard (or_intror eq_refl) M O
          ltac:(lia) ltac:(lia)).
      * rewrite len_app, len_take. lia.
      * split; [assumption|]. split; [assumption|]. exists d, s2, pkt. repeat split; auto.
Qed.

(** Then the application calls [write]. *)
Lemma stuck_call s n pl : stuck s n ->
  exists s', do_move s (CallWrite pl) = Some s' /\ app_at s' = AppLock pl /\ forall inc cap (o : bytes) r got todo heard a' inc' out, len o = cap ->
    ~ operates inc (cap - len o) (Side s' n r got todo heard) a' inc' out.
Proof.
  intros (Lk & A & d & s1 & out & T & M & O & Ln). destruct s as [w sh lk po sd a t rc rt].
  cbn [lock app_at thread_at] in *. subst lk a t. eexists. split; [reflexivity|]. split; [reflexivity|].
  unfold set_app. cbn [st_writer st_shaper lock poisoned shutdown thread_at records returned].
  intros inc cap o r got todo heard a' inc' out' Lo H.
  cbn [do_move thread_step thread_at st_writer] in M. injection M as <-.
  assert (len out <> 0) as Lz by lia.
  inversion H; subst; try discriminate.
  - match goal with Hm : _ = App \/ _ = Thread |- _ => destruct Hm as [->| ->] end; [discriminate|].
    match goal with Hd : do_move _ Thread = Some _ |- _ => cbn [do_move thread_step thread_at st_writer] in Hd; injection Hd as <- end.
    match goal with Ho : output _ = output _ |- _ => rename Ho into O2 end.
    assert (len (output (Shared w sh ByDecoy po sd (AppLock pl) (ThWrite d) rc rt)) + len out =
            len (output (Shared w sh ByDecoy po sd (AppLock pl) (ThWrite d) rc rt))) as Q; [|lia].
    rewrite <- len_app. f_equal. rewrite <- O2 at 2. unfold output in *. cbn [st_writer] in *.
    destruct (sync_write w d) as [[x w']| |]; symmetry; exact O.
  - lia.
  - lia.
Qed.

Theorem deadlock_ahead sa ra gota pla ta ha sb rb gotb plb tb hb cap lr rl ka kb :
  resting sa -> resting sb ->
  decoy_strategy (sh_config (st_shaper sa)) = Random -> decoy_strategy (sh_config (st_shaper sb)) = Random ->
  len lr <= cap -> len rl <= cap ->
  counted ka (pw_cipher (st_writer sa)) -> room (ka + cap) -> counted kb (pw_cipher (st_writer sb)) -> room (kb + cap) ->
  exists st, duplex_run cap (Duplex (Side sa 0 ra gota (Say pla :: ta) ha) (Side sb 0 rb gotb (Say plb :: tb) hb) lr rl) st /\
    deadlocked cap st /\ ~ is_done (left st) /\ ~ is_done (right st).
Proof.
  intros Ra Rb Ca Cb La Lb Ka Xa Kb Xb.
  destruct (fills_up _ sa ra gota (Say pla :: ta) ha cap rl lr ka (le_n _) La Ra Ca Ka) as (sa1 & na & lr1 & Sa & Fa & Ta).
  { intros Ho. specialize (Xa Ho). lia. }
  destruct (fills_up _ sb rb gotb (Say plb :: tb) hb cap lr1 rl kb (le_n _) Lb Rb Cb Kb) as (sb1 & nb & rl1 & Sb & Fb & Tb).
  { intros Ho. specialize (Xb Ho). lia. }
  destruct (stuck_call _ _ pla Ta) as (sa2 & Ma & Wa & Da). destruct (stuck_call _ _ plb Tb) as (sb2 & Mb & Wb & Db).
  exists (Duplex (Side sa2 na ra gota ta ha) (Side sb2 nb rb gotb tb hb) lr1 rl1). split; [|split].
  - eapply duplex_trans; [apply solo_left, Sa|]. eapply duplex_trans; [apply solo_right, Sb|].
    eapply duplex_more; [apply left_operates, calls_write; exact Ma|]. rewrite app_nil_r.
    eapply duplex_more; [apply right_operates, calls_write; exact Mb|]. rewrite app_nil_r. constructor.
  - intros st' H. inversion H; subst.
    + eapply Da; [|eassumption]. congruence.
    + eapply Db; [|eassumption]. congruence.
  - split; intros [_ Q]; cbn [left right sd_shared] in Q; congruence.
Qed.

End WithLaws.

(** ** Without shaping every program goes on to its end *)

Section Quiet.
Context {E : Env} {EL : EnvLaws E} {G : Type} {R : Rng G}.
Implicit Types (s : @shared G) (a b : @side G).

Definition todo_of a : list act := map Say (in_flight (app_at (sd_shared a))) ++ sd_todo a.

Lemma said_app l1 l2 : said (l1 ++ l2) = said l1 ++ said l2.
Proof. apply flat_map_app. Qed.

Lemma load_app l1 l2 : load (l1 ++ l2) = load l1 + load l2.
Proof.
  unfold load. rewrite map_app. induction (map _ l1) as [|x l IH]; [reflexivity|]. unfold sum in *. cbn [app fold_right]. lia.
Qed.

Definition quiet s : Prop :=
  sh_config (st_shaper s) = Config Disabled Disabled /\ poisoned s = false /\ locked s /\ healthy (pw_writer (st_writer s)) /\
  (match thread_at s with ThWrite _ | ThPanicked => False | _ => True end) /\
  (match app_at s with AppOut | AppLock _ | AppPad _ | AppWrite _ => True | _ => False end).

Definition fine_payload (pl : payload) : Prop := sound_payload pl /\ size_of pl + 1 <= 4000014.

Definition able a : Prop :=
  quiet (sd_shared a) /\ Forall fine_payload (said (todo_of a)) /\
  exists k, counted k (pw_cipher (st_writer (sd_shared a))) /\ room (k + len (said (todo_of a))).

(** How much of the packet being written is in the pipe. *)
Definition partly s (n : N) (part : bytes) : Prop :=
  n = 0 /\ part = [] \/
  exists pl pkt c', app_at s = AppWrite pl /\
    encrypt_to_vec (pw_cipher (st_writer s)) (snd (seen pl)) (fst (seen pl)) None = Ret (pkt, c') /\
    part = take n pkt /\ n < len pkt.

(** One direction, from [a] to [b], with [p] in the pipe. *)
Definition link (cap : N) a b (p : bytes) (cnt : nat) (all : list (packet_type * bytes)) : Prop :=
  exists ms pkts part hs,
    send_all (sr_cipher (sd_reader b)) ms = Ret (pkts, pw_cipher (st_writer (sd_shared a))) /\
    length ms = cnt /\
    Forall (fun m => m_aad m = None /\ len (m_contents m) + 1 <= 4000014) ms /\
    (session_leftover (sr_reader (sd_reader b)) ++ sd_got b) ++ p = List.concat pkts ++ part /\
    partly (sd_shared a) (sd_sent a) part /\
    len p + load (said (todo_of a)) <= cap + sd_sent a /\
    sd_heard b = map Ok hs /\
    map seen hs ++ map view ms ++ map seen (said (todo_of a)) = all.

Definition inv (cap : N) alla allb (na nb : nat) a b (lr rl : bytes) : Prop :=
  able a /\ able b /\
  (length (sd_heard a) + hearings (sd_todo a) = na)%nat /\ (length (sd_heard b) + hearings (sd_todo b) = nb)%nat /\
  exists ca cb, link cap a b lr cb alla /\ link cap b a rl ca allb /\ concert (todo_of a) (todo_of b) ca cb.

Lemma inv_swap cap alla allb na nb a b lr rl : inv cap alla allb na nb a b lr rl -> inv cap allb alla nb na b a rl lr.
Proof.
  intros (A & B & H1 & H2 & ca & cb & L1 & L2 & C). repeat split; try apply A; try apply B; try assumption.
  exists cb, ca. split; [assumption|]. split; [assumption|]. now apply concert_swap.
Qed.

(** What the threads do. *)
Lemma quiet_move s m s' k : quiet s -> m = App \/ m = Thread -> do_move s m = Some s' ->
  Forall sound_payload (in_flight (app_at s)) -> counted k (pw_cipher (st_writer s)) -> room k ->
  quiet s' /\
  (st_writer s' = st_writer s /\ in_flight (app_at s') = in_flight (app_at s) /\
   (forall pl, app_at s = AppWrite pl -> app_at s' = AppWrite pl) \/
   exists pl, m = App /\ app_at s = AppWrite pl /\ sync_write (st_writer s) pl = Ret (Ok tt, st_writer s') /\ app_at s' = AppOut).
Proof.
  intros (C & P & L & Hh & T & A) Hm M Snd Hc Hr. pose proof (locked_move _ _ _ L M) as L'.
  destruct s as [w sh lk po sd ap t rc rt].
  cbn [sh_config st_shaper poisoned st_writer thread_at app_at] in *. subst po. destruct Hm as [-> | ->]; cbn [do_move] in M.
  - unfold app_step in M. cbn [app_at lock poisoned st_shaper st_writer thread_at] in M. destruct ap as [|pl|pl|d pl|pl| | |]; try contradiction.
    + discriminate.
    + destruct lk; try discriminate. injection M as <-. split; [repeat split; try assumption; try apply L'; apply Hh|].
      left. repeat split. discriminate.
    + injection M as <-. cbn [in_flight] in Snd. inversion Snd as [|? ? (v & V) _]; subst.
      assert (exists ct, payload_contents pl = Ret ct) as (ct & Q).
      { unfold payload_view in V. destruct (payload_type pl); [|discriminate..]. cbn [bind] in V.
        destruct (payload_contents pl) as [ct| |]; [eauto|discriminate..]. }
      assert (shaper_pad sh pl = Ret (None, sh, [len ct])) as Sp.
      { unfold shaper_pad. rewrite Q, C. reflexivity. }
      rewrite Sp in *. split; [repeat split; try assumption; try apply L'; apply Hh|]. left. repeat split. discriminate.
    + cbn [in_flight] in Snd. inversion Snd as [|? ? V _]; subst.
      destruct (sync_write_fine w pl k Hh Hc Hr V) as (pkt & c' & w' & W & _ & _ & _ & Hh' & _).
      injection M as <-. rewrite W in *. split; [repeat split; try assumption; try apply L'; apply Hh'|].
      right. exists pl. repeat split. exact W.
  - unfold thread_step in M. cbn [app_at lock poisoned st_shaper st_writer thread_at shutdown] in M.
    destruct t; try contradiction; try discriminate; injection M as <-.
    + split; [repeat split; try assumption; try apply L'; try apply Hh; destruct sd; exact I|]. left. repeat split. auto.
    + split; [repeat split; try assumption; try apply L'; apply Hh|]. left. repeat split. auto.
    + destruct lk; (split; [repeat split; try assumption; try apply L'; apply Hh|]); left; repeat split; auto.
    + unfold shaper_decoy in *. rewrite C in *. cbn [decoy_strategy] in *.
      split; [repeat split; try assumption; try apply L'; apply Hh|]. left. repeat split. auto.
Qed.

Lemma offer_stream r got :
  session_stream Sync (sr_reader (offer r got)) = (session_leftover (sr_reader r) ++ got, Closed).
Proof.
  unfold session_stream, offer. cbn [sr_reader].
  destruct (sr_reader r); cbn [set_inner session_inner]; destruct got; cbn [flatten session_leftover]; rewrite ?app_nil_r; reflexivity.
Qed.

(** A reader waits for the rest of a packet. *)
Lemma part_is_cut c pt t aad pkt c' (w more : bytes) : encrypt_to_vec c pt t aad = Ret (pkt, c') -> len pt + 1 <= 4000014 ->
  pkt = w ++ more -> len w < len pkt -> cut_short c w.
Proof.
  intros En L Q Lw. pose proof (decrypt_len_of_sent _ _ _ _ _ _ En) as D. pose proof (encrypt_vec_len _ _ _ _ _ _ En) as Lp.
  destruct (N.lt_ge_cases (len w) 3) as [S|S]; [now left|]. right.
  rewrite Q, take_app_le in D by assumption. eexists _, _. split; [exact D|].
  rewrite N.mod_small by (change (2 ^ 24) with 16777216; lia). rewrite len_drop. lia.
Qed.

Lemma cut_waits r w : session_stream Sync (sr_reader r) = (w, Closed) -> cut_short (sr_cipher r) w ->
  exists r' al, sync_read r = Ret (Err eof, r', al).
Proof.
  intros Hs Cut. enough (exists x r' al, sync_read r = Ret (x, r', al)) as (x & r' & al & H).
  { pose proof (sync_read_end _ _ _ _ _ _ Hs Cut H) as ->. eauto. }
  unfold sync_read. change NUM_LENGTH_BYTES with 3.
  destruct (session_read_exact_stream Sync (sr_reader r) 3 _ _ Hs) as [I1 I2].
  destruct Cut as [L|(n & c1 & D & L)].
  - destruct (I2 L) as (sr1 & ->). eauto.
  - destruct (N.lt_ge_cases (len w) 3) as [L3|L3].
    { destruct (I2 L3) as (sr1 & ->). eauto. }
    destruct (I1 L3) as (sr1 & -> & Hs1 & _). rewrite D. cbn [bind].
    destruct (session_read_exact_stream Sync sr1 n _ _ Hs1) as [_ J2]. destruct (J2 L) as (sr2 & ->). eauto.
Qed.

(** A packet is there, or the reader waits. *)
Lemma split_front (w p x y : bytes) : w ++ p = x ++ y ->
  (exists m, w = x ++ m /\ y = m ++ p) \/ (exists m, x = w ++ m /\ p = m ++ y /\ len w < len x).
Proof.
  intros H. destruct (N.lt_ge_cases (len w) (len x)) as [L|L].
  - right. exists (drop (len w) x). assert (take (len w) x = w) as T.
    { rewrite <- (take_app_le (len w) x y) by lia. rewrite <- H. now apply take_app_exact. }
    assert (x = w ++ drop (len w) x) as Q by (rewrite <- T at 1; symmetry; apply take_drop).
    split; [exact Q|]. split; [|assumption]. rewrite Q, <- app_assoc in H. now apply app_inv_head in H.
  - left. exists (drop (len x) w). assert (take (len x) w = x) as T.
    { rewrite <- (take_app_le (len x) w p) by lia. rewrite H. now apply take_app_exact. }
    assert (w = x ++ drop (len x) w) as Q by (rewrite <- T at 1; symmetry; apply take_drop).
    split; [exact Q|]. rewrite Q, <- app_assoc in H. now apply app_inv_head in H.
Qed.

Lemma link_read cap a b p cnt all : link cap a b p cnt all -> Forall fine_payload (said (todo_of a)) ->
  let r := offer (sd_reader b) (sd_got b) in
  (exists cnt' x r' al, cnt = S cnt' /\ sync_read r = Ret (Ok x, r', al) /\
     forall t, link cap a (Side (sd_shared b) (sd_sent b) r' (fst (flatten Sync (session_inner (sr_reader r')))) t
       (sd_heard b ++ [Ok x])) p cnt' all) \/
  (exists r' al, sync_read r = Ret (Err eof, r', al) /\ (cnt <> O -> p <> [])).
Proof.
  intros (ms & pkts & part & hs & Sa & Lm & Fm & W & Pt & Fit & Hh & All) Ff. cbn zeta.
  pose proof (offer_stream (sd_reader b) (sd_got b)) as St.
  set (w := session_leftover (sr_reader (sd_reader b)) ++ sd_got b) in *.
  set (r := offer (sd_reader b) (sd_got b)) in *.
  assert (sr_cipher r = sr_cipher (sd_reader b)) as Cr by reflexivity.
  destruct ms as [|m ms]; cbn [send_all] in Sa.
  - right. injection Sa as <- Qc. cbn [List.concat app] in W.
    assert (cut_short (sr_cipher r) w) as Cut.
    { rewrite Cr, Qc. destruct Pt as [[_ ->]|(pl & pkt & c' & A & En & -> & Ln)].
      - left. apply app_eq_nil in W. destruct W as [-> _]. cbn. lia.
      - assert (fine_payload pl) as [_ Sz].
        { unfold todo_of in Ff. rewrite A in Ff. cbn in Ff. now inversion Ff. }
        eapply part_is_cut with (more := p ++ drop (sd_sent a) pkt); [exact En|exact Sz| |].
        + rewrite app_assoc, W. symmetry. apply take_drop.
        + apply (f_equal len) in W. rewrite len_app, len_take in W. lia. }
    destruct (cut_waits _ _ St Cut) as (r' & al & Q). exists r', al. split; [exact Q|]. cbn in Lm. lia.
  - apply bind_ret_inv in Sa. destruct Sa as ([pkt c1] & En & Sa).
    apply bind_ret_inv in Sa. destruct Sa as ([pkts' c2] & Sa & Q). injection Q as <- ->.
    inversion Fm as [|? ? [Aad Sz] Fm']; subst. rewrite Aad in En. cbn [List.concat] in W. rewrite <- app_assoc in W.
    destruct (split_front _ _ _ _ W) as [(more & Qw & Qm)|(more & Qp & Qm & Lw)].
    + left. rewrite Qw in St.
      assert (recv_one (sr_cipher r) None (pkt ++ more) = Ret (Some (m_type m, m_contents m), c1, more)) as Ro.
      { rewrite Cr. eapply recv_one_sent; [|exact En]. change (2 ^ 24) with 16777216. lia. }
      destruct (sync_read_packet _ _ _ _ _ _ _ St Ro) as [Ok1 _].
      destruct (Ok1 Sz) as (hd & r' & Rd & Hd & Rc & Rs). exists (length ms), (Decrypted (hd :: m_contents m)), r', (Some (len (m_contents m) + 17)).
      split; [reflexivity|]. split; [exact Rd|]. intros t.
      exists ms, pkts', part, (hs ++ [Decrypted (hd :: m_contents m)]).
      cbn [sd_reader sd_got sd_heard]. rewrite Rc. split; [exact Sa|]. split; [reflexivity|]. split; [assumption|].
      split. { unfold session_stream in Rs. destruct (flatten Sync (session_inner (sr_reader r'))) as [f e]. cbn [fst].
               injection Rs as -> _. symmetry. exact Qm. }
      split; [assumption|]. split; [assumption|]. split; [rewrite Hh, map_app; reflexivity|].
      rewrite map_app, <- app_assoc. cbn [map app seen view]. rewrite Hd. reflexivity.
    + right.
      assert (cut_short (sr_cipher r) w) as Cut by (rewrite Cr; eapply part_is_cut; eassumption).
      destruct (cut_waits _ _ St Cut) as (r' & al & Q). exists r', al. split; [exact Q|]. intros _ ->.
      destruct more; [|discriminate]. rewrite app_nil_r in Qp. subst. lia.
Qed.

(** ** The invariant *)

Lemma said_say l : said (map Say l) = l.
Proof. induction l as [|x l IH]; [reflexivity|]. cbn. now rewrite <- IH at 2. Qed.

Lemma able_same a a' : able a -> quiet (sd_shared a') -> st_writer (sd_shared a') = st_writer (sd_shared a) ->
  todo_of a' = todo_of a -> able a'.
Proof. intros (_ & Ff & k & Hc & Hr) Q W T. split; [assumption|]. rewrite T, W. eauto. Qed.

Lemma link_out cap a a' b p cnt all : link cap a b p cnt all -> st_writer (sd_shared a') = st_writer (sd_shared a) ->
  todo_of a' = todo_of a -> sd_sent a' = sd_sent a ->
  (forall pl, app_at (sd_shared a) = AppWrite pl -> app_at (sd_shared a') = AppWrite pl) -> link cap a' b p cnt all.
Proof.
  intros (ms & pkts & part & hs & Sa & Lm & Fm & W & Pt & Fit & Hh & All) Qw T N A.
  exists ms, pkts, part, hs. rewrite T, N, Qw. repeat split; try assumption.
  destruct Pt as [Pt|(pl & pkt & c' & Q & En & Rest)]; [now left|right]. exists pl, pkt, c'. rewrite Qw. auto.
Qed.

Lemma link_in cap a b b' p cnt all : link cap a b p cnt all -> sd_reader b' = sd_reader b -> sd_got b' = sd_got b ->
  sd_heard b' = sd_heard b -> link cap a b' p cnt all.
Proof. intros H Q1 Q2 Q3. unfold link in *. rewrite Q1, Q2, Q3. exact H. Qed.

Lemma take_more {A} n k (l : list A) : take n l ++ take k (drop n l) = take (n + k) l.
Proof.
  rewrite take_drop_comm. rewrite <- (take_drop n (take (n + k) l)) at 2. f_equal.
  unfold take. rewrite firstn_firstn. f_equal. lia.
Qed.

(** What a write puts out. *)
Lemma quiet_output s m s' out k : quiet s -> m = App \/ m = Thread -> do_move s m = Some s' ->
  Forall sound_payload (in_flight (app_at s)) -> counted k (pw_cipher (st_writer s)) -> room k ->
  output s' = output s ++ out -> out <> [] ->
  exists pl, app_at s = AppWrite pl /\ quiet s' /\ app_at s' = AppOut /\
    encrypt_to_vec (pw_cipher (st_writer s)) (snd (seen pl)) (fst (seen pl)) None = Ret (out, pw_cipher (st_writer s')) /\
    counted (k + 1) (pw_cipher (st_writer s')) /\ len out = size_of pl + 20.
Proof.
  intros Q Hm M Snd Hc Hr O Ne. pose proof Q as (_ & _ & _ & Hh & _).
  destruct (quiet_move _ _ _ _ Q Hm M Snd Hc Hr) as [Q' [(W & _)|(pl & _ & A & W & A')]].
  - exfalso. apply Ne. unfold output in O. rewrite W in O. symmetry in O. rewrite <- app_nil_r in O. now apply app_inv_head in O.
  - exists pl. split; [assumption|]. split; [assumption|]. split; [assumption|].
    rewrite A in Snd. cbn [in_flight] in Snd. inversion Snd as [|? ? V _]; subst.
    destruct (sync_write_fine _ pl k Hh Hc Hr V) as (pkt & c' & w' & W' & En & Qc & Hc' & _ & Wr & Lp).
    rewrite W in W'. injection W' as <-. unfold output in O. rewrite Wr in O. apply app_inv_head in O. subst. auto.
Qed.

Lemma partly_is s n part pl pkt c' : partly s n part -> app_at s = AppWrite pl ->
  encrypt_to_vec (pw_cipher (st_writer s)) (snd (seen pl)) (fst (seen pl)) None = Ret (pkt, c') -> part = take n pkt.
Proof.
  intros [[-> ->]|(pl' & pkt' & c2 & A' & En' & -> & _)] A En; [reflexivity|].
  rewrite A in A'. injection A' as <-. rewrite En in En'. now injection En' as <- <-.
Qed.

Lemma operates_inv cap alla allb na nb a b lr rl a' rl' out :
  inv cap alla allb na nb a b lr rl -> operates rl (cap - len lr) a a' rl' out ->
  inv cap alla allb na nb a' b (lr ++ out) rl'.
Proof.
  intros (A & B & H1 & H2 & ca & cb & L1 & L2 & C) Op.
  pose proof A as (Qu & Ff & k & Hc & Hr).
  assert (Snd : Forall sound_payload (in_flight (app_at (sd_shared a)))).
  { unfold todo_of in Ff. rewrite said_app, said_say in Ff. apply Forall_app in Ff. destruct Ff as [Ff _].
    eapply Forall_impl; [|exact Ff]. intros pl [Q _]. exact Q. }
  assert (Rk : room k) by (intros Ho; specialize (Hr Ho); lia).
  inversion Op as [s s' n r got pl todo heard Mv|m s s' n r got todo heard Hm Mv O|m s s' o k' n r got todo heard Hm Mv O Hk Ln|
    m s s' o n r got todo heard Hm Mv O Ln|x inc' s n r got todo heard r' al Qi Ao Rd|s n r got todo heard x r' al Ao Rd Nx];
    subst a a'; try subst rl'; try subst out; try subst rl;
    cbn [sd_shared sd_sent sd_reader sd_got sd_todo sd_heard] in *.
  - (* calls [write] *)
    rewrite app_nil_r. pose proof Qu as (Q1 & Q2 & Q3 & Q4 & Q5 & Q6). pose proof (locked_move _ _ _ Q3 Mv) as Lk.
    destruct s as [w sh lk po sd ap t rc rt]. cbn [do_move app_at] in Mv. destruct ap; try discriminate. injection Mv as <-.
    split; [eapply able_same; [exact A| |reflexivity|reflexivity]; repeat split; try assumption; try apply Lk; apply Q4|].
    split; [assumption|]. split; [exact H1|]. split; [exact H2|].
    exists ca, cb. split; [eapply link_out; [exact L1|reflexivity|reflexivity|reflexivity|discriminate]|].
    split; [eapply link_in; [exact L2|reflexivity..]|]. exact C.
  - (* a move without output *)
    rewrite app_nil_r. destruct (quiet_move _ _ _ _ Qu Hm Mv Snd Hc Rk) as [Q' [(W & Fl & Aw)|(pl & _ & Ap & W & _)]].
    + assert (T : todo_of (Side s' n r got todo heard) = todo_of (Side s n r got todo heard)).
      { unfold todo_of. cbn [sd_shared sd_todo]. now rewrite Fl. }
      split; [eapply able_same; [exact A|exact Q'|exact W|exact T]|].
      split; [assumption|]. split; [exact H1|]. split; [exact H2|].
      exists ca, cb. split; [eapply link_out; [exact L1|exact W|exact T|reflexivity|exact Aw]|].
      split; [eapply link_in; [exact L2|reflexivity..]|]. rewrite T. exact C.
    + exfalso. pose proof Qu as (_ & _ & _ & Hh & _). rewrite Ap in Snd. cbn [in_flight] in Snd.
      inversion Snd as [|? ? V _]; subst.
      destruct (sync_write_fine _ pl k Hh Hc Rk V) as (pkt & c' & w' & W' & _ & _ & _ & _ & Wr & Lp).
      rewrite W in W'. injection W' as <-. unfold output in O. rewrite Wr in O.
      rewrite <- app_nil_r in O. apply app_inv_head in O. subst pkt. rewrite len_nil in Lp. lia.
  - (* a part *)
    assert (o <> []) as Ne by (intros ->; rewrite len_nil in Ln; lia).
    destruct (quiet_output _ _ _ _ _ Qu Hm Mv Snd Hc Rk O Ne) as (pl & Ap & Q' & Ap' & En & Hc' & Lp).
    assert (T : todo_of (Side s (n + k') r got todo heard) = todo_of (Side s n r got todo heard)) by reflexivity.
    split; [eapply able_same; [exact A|exact Qu|reflexivity|reflexivity]|].
    split; [assumption|]. split; [exact H1|]. split; [exact H2|]. exists ca, cb.
    split; [|split; [eapply link_in; [exact L2|reflexivity..]|exact C]].
    destruct L1 as (ms & pkts & part & hs & Sa & Lm & Fm & W & Pt & Fit & Hh & All).
    cbn [sd_shared sd_sent sd_reader sd_got sd_todo sd_heard] in *.
    exists ms, pkts, (take (n + k') o), hs. cbn [sd_shared sd_sent sd_reader sd_got sd_todo sd_heard].
    split; [exact Sa|]. split; [exact Lm|]. split; [exact Fm|]. split.
    { rewrite app_assoc, W, (partly_is _ _ _ _ _ _ Pt Ap En), <- app_assoc. f_equal. apply take_more. }
    split; [right; exists pl, o, (pw_cipher (st_writer s')); auto|].
    split; [rewrite T, len_app, len_take, len_drop; lia|]. split; [exact Hh|]. rewrite T. exact All.
  - (* the last part *)
    assert (o <> []) as Ne by (intros ->; rewrite len_nil in Ln; lia).
    destruct (quiet_output _ _ _ _ _ Qu Hm Mv Snd Hc Rk O Ne) as (pl & Ap & Q' & Ap' & En & Hc' & Lp).
    assert (T : todo_of (Side s n r got todo heard) = Say pl :: todo).
    { unfold todo_of. cbn [sd_shared sd_todo]. now rewrite Ap. }
    assert (T' : todo_of (Side s' 0 r got todo heard) = todo).
    { unfold todo_of. cbn [sd_shared sd_todo]. now rewrite Ap'. }
    rewrite T in *. change (said (Say pl :: todo)) with (pl :: said todo) in *.
    pose proof (Forall_inv Ff) as Fp. pose proof (Forall_inv_tail Ff) as Ff'.
    split. { split; [exact Q'|]. rewrite T'. split; [assumption|]. exists (k + 1). split; [exact Hc'|].
             intros Ho. specialize (Hr Ho). rewrite len_cons in Hr. lia. }
    split; [assumption|]. split; [exact H1|]. split; [exact H2|]. exists ca, (S cb).
    split; [|split; [eapply link_in; [exact L2|reflexivity..]|rewrite T'; now apply concert_left_says in C]].
    destruct L1 as (ms & pkts & part & hs & Sa & Lm & Fm & W & Pt & Fit & Hh & All). rewrite T in *.
    cbn [sd_shared sd_sent sd_reader sd_got sd_todo sd_heard] in *.
    exists (ms ++ [as_msg (seen pl)]), (pkts ++ [o]), [], hs. cbn [sd_shared sd_sent sd_reader sd_got sd_todo sd_heard].
    split. { eapply send_all_join; [exact Sa|]. cbn [send_all as_msg m_contents m_type m_aad]. rewrite En. reflexivity. }
    split; [rewrite app_length; cbn; lia|].
    split; [apply Forall_app; split; [exact Fm|]; constructor; [|constructor]; split; [reflexivity|apply Fp]|]. split.
    { rewrite app_assoc, W, (partly_is _ _ _ _ _ _ Pt Ap En), <- app_assoc, take_drop, concat_app. cbn [List.concat].
      now rewrite !app_nil_r. }
    split; [now left|]. rewrite T'. change (said (Say pl :: todo)) with ([pl] ++ said todo) in Fit, All.
    rewrite load_app in Fit. change (load [pl]) with (size_of pl + 20 + 0) in Fit.
    split; [rewrite len_app, len_drop; lia|]. split; [exact Hh|]. rewrite <- All, map_app, <- !app_assoc.
    cbn [map app]. do 3 f_equal. now destruct (seen pl).
  - (* a byte *)
    rewrite app_nil_r. split; [eapply able_same; [exact A|exact Qu|reflexivity|reflexivity]|].
    split; [assumption|]. split; [exact H1|]. split; [exact H2|]. exists ca, cb.
    split; [eapply link_out; [exact L1|reflexivity|reflexivity|reflexivity|auto]|]. split; [|exact C].
    destruct L2 as (ms & pkts & part & hs & Sa & Lm & Fm & W & Pt & Fit & Hh & All).
    exists ms, pkts, part, hs. cbn [sd_shared sd_sent sd_reader sd_got sd_todo sd_heard] in *. repeat split; try assumption.
    + rewrite <- W, <- !app_assoc. reflexivity.
    + rewrite len_cons in Fit. lia.
  - (* a read returns *)
    rewrite app_nil_r. assert (T : forall r got heard t, todo_of (Side s n r got t heard) = t).
    { intros. unfold todo_of. cbn [sd_shared sd_todo]. now rewrite Ao. }
    pose proof B as (_ & Fb & _).
    destruct (link_read _ _ _ _ _ _ L2 Fb) as [(ca' & y & r1 & al1 & -> & Rd1 & Lk)|(r1 & al1 & Rd1 & _)];
      cbn [sd_shared sd_sent sd_reader sd_got sd_todo sd_heard] in *; rewrite Rd in Rd1; [|congruence].
    injection Rd1 as -> <- <-. rewrite T in C. unfold able in A. rewrite T in *.
    split. { split; [exact Qu|]. rewrite T. split; [exact Ff|]. exists k. auto. }
    split; [assumption|]. split.
    { cbn [sd_todo sd_heard]. rewrite app_length. cbn [length]. unfold hearings in *. cbn [filter length] in H1. lia. }
    split; [exact H2|]. exists ca', cb. split; [|split; [apply Lk|rewrite T; now apply concert_left_hears in C]].
    destruct L1 as (ms & pkts & part & hs & Sa & Lm & Fm & W & Pt & Fit & Hh & All). rewrite T in *.
    exists ms, pkts, part, hs. rewrite T. repeat split; assumption.
Qed.

Lemma run_inv cap alla allb na nb st st' : duplex_run cap st st' ->
  inv cap alla allb na nb (left st) (right st) (to_right st) (to_left st) ->
  inv cap alla allb na nb (left st') (right st') (to_right st') (to_left st').
Proof.
  intros H. induction H as [st|st st1 st2 S H IH]; [auto|]. intros I. apply IH. clear IH H.
  destruct S as [a a' b lr rl rl' out Op|a b b' lr rl lr' out Op]; cbn [left right to_right to_left] in *.
  - eapply operates_inv; eassumption.
  - apply inv_swap. eapply operates_inv; [apply inv_swap; exact I|exact Op].
Qed.

(** ** Going on *)

(** A call in progress comes to its end. *)
Lemma settles cap a b inc o cnt all : able a -> link cap a b o cnt all ->
  exists a' o', solo cap a inc o a' inc o' /\ app_at (sd_shared a') = AppOut /\ sd_todo a' = sd_todo a.
Proof.
  intros A L. destruct a as [s n r got todo heard].
  assert (Wr : forall s pl, able (Side s n r got todo heard) -> link cap (Side s n r got todo heard) b o cnt all -> app_at s = AppWrite pl ->
    exists a' o', solo cap (Side s n r got todo heard) inc o a' inc o' /\ app_at (sd_shared a') = AppOut /\ sd_todo a' = todo).
  { clear s A L. intros s pl A L Ap. pose proof A as (Qu & Ff & k & Hc & Hr). pose proof Qu as (_ & _ & _ & Hh & _).
    assert (T : todo_of (Side s n r got todo heard) = Say pl :: todo).
    { unfold todo_of. cbn [sd_shared sd_todo]. now rewrite Ap. }
    rewrite T in *. change (said (Say pl :: todo)) with (pl :: said todo) in *. inversion Ff as [|? ? [V Sz] _]; subst.
    destruct (sync_write_fine (st_writer s) pl k Hh Hc ltac:(intros Ho; specialize (Hr Ho); lia) V)
      as (pkt & c' & w' & W & En & _ & _ & _ & Wt & Lp).
    destruct L as (ms & pkts & part & hs & _ & _ & _ & _ & Pt & Fit & _). rewrite T in Fit.
    change (said (Say pl :: todo)) with ([pl] ++ said todo) in Fit. rewrite load_app in Fit.
    change (load [pl]) with (size_of pl + 20 + 0) in Fit. cbn [sd_shared sd_sent] in *.
    assert (n < len pkt) as Ln.
    { destruct Pt as [[-> _]|(pl' & pkt' & c2 & Ap' & En' & _ & Ln)]; [lia|].
      rewrite Ap in Ap'. injection Ap' as <-. rewrite En in En'. injection En' as <- <-. exact Ln. }
    eexists _, _. split; [eapply solo_more; [|apply solo_here]|].
    - eapply puts_last with (m := App) (out := pkt) (s' := app_return (set_writer s w') pl (Ok tt)); [now left| |exact Wt|lia].
      cbn [do_move]. unfold app_step. rewrite Ap, W. reflexivity.
    - split; reflexivity. }
  assert (Pd : forall s pl, able (Side s n r got todo heard) -> link cap (Side s n r got todo heard) b o cnt all -> app_at s = AppPad pl ->
    exists a' o', solo cap (Side s n r got todo heard) inc o a' inc o' /\ app_at (sd_shared a') = AppOut /\ sd_todo a' = todo).
  { intros s0 pl A0 L0 Ap.
    assert (exists s1, do_move s0 App = Some s1 /\ st_writer s1 = st_writer s0 /\ app_at s1 = AppWrite pl) as (s1 & M & W & Ap1).
    { pose proof A0 as ((Cf & _) & Ff & _). unfold todo_of in Ff. cbn [sd_shared sd_todo] in *. rewrite Ap in Ff. cbn in Ff.
      inversion Ff as [|? ? [(v & V) _] _]; subst.
      assert (exists ct, payload_contents pl = Ret ct) as (ct & Q).
      { unfold payload_view in V. destruct (payload_type pl); [|discriminate..]. cbn [bind] in V.
        destruct (payload_contents pl) as [ct| |]; [eauto|discriminate..]. }
      assert (shaper_pad (st_shaper s0) pl = Ret (None, st_shaper s0, [len ct])) as Sp.
      { unfold shaper_pad. rewrite Q, Cf. reflexivity. }
      cbn [do_move]. unfold app_step. rewrite Ap, Sp. eauto. }
    assert (O : output s1 = output s0) by (unfold output; now rewrite W).
    assert (T : todo_of (Side s1 n r got todo heard) = todo_of (Side s0 n r got todo heard)).
    { unfold todo_of. cbn [sd_shared sd_todo]. now rewrite Ap, Ap1. }
    destruct (Wr s1 pl) as (a' & o' & S1 & Q1 & Q2); [| |exact Ap1|].
    - pose proof A0 as (Qu & Ff & k & Hc & Hr).
      assert (Snd : Forall sound_payload (in_flight (app_at s0))).
      { unfold todo_of in Ff. cbn [sd_shared sd_todo] in Ff. rewrite said_app, said_say in Ff. apply Forall_app in Ff. destruct Ff as [Ff _].
        eapply Forall_impl; [|exact Ff]. intros p [Q _]. exact Q. }
      destruct (quiet_move _ _ _ k Qu (or_introl eq_refl) M Snd Hc ltac:(intros Ho; specialize (Hr Ho); lia)) as [Q' _].
      eapply able_same; [exact A0|exact Q'|exact W|exact T].
    - eapply link_out; [exact L0|exact W|exact T|reflexivity|]. intros pl'. cbn [sd_shared]. congruence.
    - exists a', o'. split; [|auto]. eapply solo_trans; [|exact S1]. eapply solo_move with (m := App); [now left|exact M|exact O]. }
  assert (Lk : forall s pl, able (Side s n r got todo heard) -> link cap (Side s n r got todo heard) b o cnt all -> app_at s = AppLock pl ->
    lock s = Free ->
    exists a' o', solo cap (Side s n r got todo heard) inc o a' inc o' /\ app_at (sd_shared a') = AppOut /\ sd_todo a' = todo).
  { intros s0 pl A0 L0 Ap Fr.
    pose proof A0 as (Qu & Ff & k & Hc & Hr). pose proof Qu as (_ & Po & _).
    cbn [sd_shared] in *. set (s1 := set_app (set_lock s0 ByApp) (AppPad pl)).
    assert (M : do_move s0 App = Some s1).
    { cbn [do_move]. unfold app_step. rewrite Ap, Fr, Po. reflexivity. }
    assert (T : todo_of (Side s1 n r got todo heard) = todo_of (Side s0 n r got todo heard)).
    { unfold todo_of. cbn [sd_shared sd_todo]. now rewrite Ap. }
    destruct (Pd s1 pl) as (a' & o' & S1 & Q1 & Q2); [| |reflexivity|].
    - assert (Snd : Forall sound_payload (in_flight (app_at s0))).
      { unfold todo_of in Ff. cbn [sd_shared sd_todo] in Ff. rewrite said_app, said_say in Ff. apply Forall_app in Ff. destruct Ff as [Ff _].
        eapply Forall_impl; [|exact Ff]. intros p [Q _]. exact Q. }
      destruct (quiet_move _ _ _ k Qu (or_introl eq_refl) M Snd Hc ltac:(intros Ho; specialize (Hr Ho); lia)) as [Q' _].
      eapply able_same; [exact A0|exact Q'|reflexivity|exact T].
    - eapply link_out; [exact L0|reflexivity|exact T|reflexivity|]. intros pl'. cbn [sd_shared]. congruence.
    - exists a', o'. split; [|auto]. eapply solo_trans; [|exact S1]. eapply solo_move with (m := App); [now left|exact M|reflexivity]. }
  pose proof A as ((Cf & Po & Lo & Hh & Th & Ap) & Ff & k & Hc & Hr). cbn [sd_shared sd_todo] in *.
  destruct (app_at s) as [|pl|pl|d pl|pl| | |] eqn:Qa; try contradiction.
  - exists (Side s n r got todo heard), o. split; [constructor|]. auto.
  - destruct (lock s) eqn:Fr.
    + eapply Lk; eassumption.
    + exfalso. destruct Lo as [Lo _]. rewrite Fr, Qa in Lo. cbn [app_inside] in Lo. destruct (thread_inside (thread_at s)); discriminate.
    + assert (thread_at s = ThDecoy) as Td.
      { destruct Lo as [Lo _]. rewrite Fr, Qa in Lo. cbn [app_inside] in Lo.
        destruct (thread_at s); try discriminate; [reflexivity|contradiction]. }
      assert (exists s1, do_move s Thread = Some s1 /\ st_writer s1 = st_writer s /\ app_at s1 = app_at s /\ lock s1 = Free) as
        (s1 & M & W & A1 & F1).
      { cbn [do_move]. unfold thread_step. rewrite Td. unfold shaper_decoy. rewrite Cf. cbn [decoy_strategy]. eauto. }
      assert (T : todo_of (Side s1 n r got todo heard) = todo_of (Side s n r got todo heard)).
      { unfold todo_of. cbn [sd_shared sd_todo]. now rewrite A1. }
      assert (Snd : Forall sound_payload (in_flight (app_at s))).
      { unfold todo_of in Ff. cbn [sd_shared sd_todo] in Ff. rewrite said_app, said_say in Ff. apply Forall_app in Ff. destruct Ff as [Ff _].
        eapply Forall_impl; [|exact Ff]. intros p [Q _]. exact Q. }
      destruct (Lk s1 pl) as (a' & o' & S1 & Q1 & Q2); [| |congruence|assumption|].
      * pose proof A as (Qu & _).
        destruct (quiet_move _ _ _ k Qu (or_intror eq_refl) M Snd Hc ltac:(intros Ho; specialize (Hr Ho); lia)) as [Q' _].
        eapply able_same; [exact A|exact Q'|exact W|exact T].
      * eapply link_out; [exact L|exact W|exact T|reflexivity|]. intros pl'. cbn [sd_shared]. congruence.
      * exists a', o'. split; [|auto]. eapply solo_trans; [|exact S1].
        eapply solo_move with (m := Thread); [now right|exact M|unfold output; now rewrite W].
  - eapply Pd; eassumption.
  - eapply Wr; eassumption.
Qed.

(** A packet on its way is read. *)
Lemma hears cap : forall f a b inc o cnt all todo, (length inc <= f)%nat ->
  link cap b a inc (S cnt) all -> Forall fine_payload (said (todo_of b)) ->
  app_at (sd_shared a) = AppOut -> sd_todo a = Hear :: todo ->
  exists a' inc', solo cap a inc o a' inc' o /\ app_at (sd_shared a') = AppOut /\ sd_todo a' = todo.
Proof.
  induction f as [|f IH]; intros a b inc o cnt all todo Lf L Ff Ao Td; destruct a as [s n r got td heard];
    cbn [sd_shared sd_todo] in *; subst td;
    destruct (link_read _ _ _ _ _ _ L Ff) as [(ca' & y & r1 & al1 & _ & Rd & _)|(r1 & al1 & Rd & Ne)];
    cbn [sd_reader sd_got] in Rd;
    try (eexists _, _; split; [eapply solo_more; [eapply read_returns; [exact Ao|exact Rd|discriminate]|rewrite app_nil_r; apply solo_here]|];
         split; [exact Ao|reflexivity]);
    (destruct inc as [|x inc]; [exfalso; apply Ne; auto|]).
  - cbn in Lf. lia.
  - destruct (IH (Side s n r (got ++ [x]) (Hear :: todo) heard) b inc o cnt all todo) as (a' & inc' & S1 & Q);
      [cbn in Lf; lia| |exact Ff|exact Ao|reflexivity|].
    + destruct L as (ms & pkts & part & hs & Sa & Lm & Fm & W & Pt & Fit & Hh & All).
      exists ms, pkts, part, hs. cbn [sd_shared sd_sent sd_reader sd_got sd_todo sd_heard] in *. repeat split; try assumption.
      * rewrite <- W, <- !app_assoc. reflexivity.
      * rewrite len_cons in Fit. lia.
    + exists a', inc'. split; [|exact Q]. eapply solo_more; [eapply takes_in; [reflexivity|exact Ao|exact Rd]|].
      rewrite app_nil_r. exact S1.
Qed.

Lemma goes_on cap alla allb na nb : forall f a b lr rl,
  (length (sd_todo a) + length (sd_todo b) <= f)%nat ->
  inv cap alla allb na nb a b lr rl ->
  exists st, duplex_run cap (Duplex a b lr rl) st /\ is_done (left st) /\ is_done (right st).
Proof.
  induction f as [f IH] using lt_wf_ind. intros a0 b0 lr0 rl0 Lf I0.
  (* both calls in progress end *)
  assert (exists a b lr rl, duplex_run cap (Duplex a0 b0 lr0 rl0) (Duplex a b lr rl) /\
    app_at (sd_shared a) = AppOut /\ app_at (sd_shared b) = AppOut /\ sd_todo a = sd_todo a0 /\ sd_todo b = sd_todo b0) as
    (a & b & lr & rl & Run & Aa & Ab & Ta & Tb).
  { destruct I0 as (A0 & B0 & H1 & H2 & ca & cb & L1 & L2 & C).
    destruct (settles _ _ _ rl0 _ _ _ A0 L1) as (a & lr & S1 & Aa & Ta).
    destruct (settles _ _ _ lr _ _ _ B0 L2) as (b & rl & S2 & Ab & Tb).
    exists a, b, lr, rl. split; [|auto]. eapply duplex_trans; [apply solo_left, S1|apply solo_right, S2]. }
  pose proof (run_inv _ _ _ _ _ _ _ Run I0) as I. cbn [left right to_right to_left] in I.
  rewrite <- Ta, <- Tb in Lf. clear I0 Ta Tb.
  enough (exists st, duplex_run cap (Duplex a b lr rl) st /\ is_done (left st) /\ is_done (right st)) as (st & Q1 & Q2).
  { exists st. split; [|exact Q2]. eapply duplex_trans; eassumption. }
  clear Run a0 b0 lr0 rl0. pose proof I as (A & B & H1 & H2 & ca & cb & L1 & L2 & C).
  assert (todo_of a = sd_todo a) as Ta by (unfold todo_of; now rewrite Aa).
  assert (todo_of b = sd_todo b) as Tb by (unfold todo_of; now rewrite Ab).
  rewrite Ta, Tb in C. remember (sd_todo a) as ta0 eqn:Q1. remember (sd_todo b) as tb0 eqn:Q2.
  destruct C as [x1 x2|pl ta tb x1 x2 C|ta tb x1 x2 C|pl ta tb x1 x2 C|ta tb x1 x2 C].
  - exists (Duplex a b lr rl). split; [constructor|]. cbn [left right]. repeat split; congruence.
  - assert (exists s', do_move (sd_shared a) (CallWrite pl) = Some s') as (s' & M) by (cbn [do_move]; rewrite Aa; eauto).
    assert (duplex_run cap (Duplex a b lr rl) (Duplex (Side s' (sd_sent a) (sd_reader a) (sd_got a) ta (sd_heard a)) b lr rl)) as Run.
    { destruct a as [s n r got td heard]. cbn [sd_shared sd_sent sd_reader sd_got sd_todo sd_heard] in *. subst td.
      apply solo_left. eapply solo_more; [eapply calls_write; exact M|]. rewrite app_nil_r. constructor. }
    pose proof (run_inv _ _ _ _ _ _ _ Run I) as I'. cbn [left right to_right to_left] in I'.
    cbn [length] in Lf.
    edestruct (IH (length ta + length tb)%nat) as (st & R1 & D); [lia| |exact I'|]; [cbn [sd_todo]; rewrite <- Q2; lia|].
    exists st. split; [|exact D]. eapply duplex_trans; eassumption.
  - destruct (hears cap _ a b rl lr x1 allb ta (le_n _) L2) as (a' & rl' & S1 & _ & Q); [apply B|exact Aa|now symmetry|].
    pose proof (solo_left _ _ _ _ _ _ _ b S1) as Run. pose proof (run_inv _ _ _ _ _ _ _ Run I) as I'. cbn [left right to_right to_left] in I'.
    cbn [length] in Lf.
    edestruct (IH (length ta + length tb)%nat) as (st & R1 & D); [lia| |exact I'|]; [rewrite Q, <- Q2; lia|].
    exists st. split; [|exact D]. eapply duplex_trans; eassumption.
  - assert (exists s', do_move (sd_shared b) (CallWrite pl) = Some s') as (s' & M) by (cbn [do_move]; rewrite Ab; eauto).
    assert (duplex_run cap (Duplex a b lr rl) (Duplex a (Side s' (sd_sent b) (sd_reader b) (sd_got b) tb (sd_heard b)) lr rl)) as Run.
    { destruct b as [s n r got td heard]. cbn [sd_shared sd_sent sd_reader sd_got sd_todo sd_heard] in *. subst td.
      apply solo_right. eapply solo_more; [eapply calls_write; exact M|]. rewrite app_nil_r. constructor. }
    pose proof (run_inv _ _ _ _ _ _ _ Run I) as I'. cbn [left right to_right to_left] in I'.
    cbn [length] in Lf.
    edestruct (IH (length ta + length tb)%nat) as (st & R1 & D); [lia| |exact I'|]; [cbn [sd_todo]; rewrite <- Q1; lia|].
    exists st. split; [|exact D]. eapply duplex_trans; eassumption.
  - destruct (hears cap _ b a lr rl x2 alla tb (le_n _) L1) as (b' & lr' & S1 & _ & Q); [apply A|exact Ab|now symmetry|].
    pose proof (solo_right _ _ _ _ _ _ _ a S1) as Run. pose proof (run_inv _ _ _ _ _ _ _ Run I) as I'. cbn [left right to_right to_left] in I'.
    cbn [length] in Lf.
    edestruct (IH (length ta + length tb)%nat) as (st & R1 & D); [lia| |exact I'|]; [rewrite Q, <- Q1; lia|].
    exists st. split; [|exact D]. eapply duplex_trans; eassumption.
Qed.

End Quiet.
