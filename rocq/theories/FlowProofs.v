(** * FlowProofs: one direction with a reading thread *)
From Coq Require Import List NArith Bool Lia Wf_nat.
From Coq.Strings Require Import Byte.
From Verif Require Import Base BaseFacts Env FsChacha Cipher Histories CipherProofs Handshake Transport TransportProofs Io SpecIo
  IoProofs Futures FuturesProofs Sessions SessionProofs ReaderProofs HsSteps
  Traffic TrafficIo SpecTraffic SpecIntegrity IntegrityProofs TrafficProofs TrafficIoProofs TrafficLiveProofs SpecDuplex
  DuplexProofs SpecFlow.
Import ListNotations.
Local Open Scope N_scope.

Section WithLaws.
Context {E : Env} {EL : EnvLaws E} {G : Type} {R : Rng G} {RL : RngLaws G R}.
Implicit Types (s : @shared G) (st : @flow G).

(** ** The reader *)

Definition begins (c : cipher) (part : bytes) : Prop :=
  part = [] \/ exists d pkt c' n, encrypt_to_vec c (snd (seen d)) (fst (seen d)) None = Ret (pkt, c') /\
    size_of d + 1 <= 4000014 /\ part = take n pkt /\ n < len pkt.

Lemma pipe_read r got p ms pkts c part : send_all (sr_cipher r) ms = Ret (pkts, c) ->
  Forall (fun m => m_aad m = None /\ len (m_contents m) + 1 <= 4000014) ms ->
  (session_leftover (sr_reader r) ++ got) ++ p = List.concat pkts ++ part -> begins c part ->
  (exists m ms' pkts' x r' al, ms = m :: ms' /\ sync_read (offer r got) = Ret (Ok x, r', al) /\ seen x = view m /\
     send_all (sr_cipher r') ms' = Ret (pkts', c) /\
     (session_leftover (sr_reader r') ++ fst (flatten Sync (session_inner (sr_reader r')))) ++ p = List.concat pkts' ++ part) \/
  (exists r' al, sync_read (offer r got) = Ret (Err eof, r', al) /\ (ms <> [] -> p <> [])).
Proof.
  intros Sa Fm W Pt. pose proof (offer_stream r got) as St.
  set (w := session_leftover (sr_reader r) ++ got) in *.
  set (r0 := offer r got) in *.
  assert (sr_cipher r0 = sr_cipher r) as Cr by reflexivity.
  destruct ms as [|m ms]; cbn [send_all] in Sa.
  - right. injection Sa as <- Qc. cbn [List.concat app] in W.
    assert (cut_short (sr_cipher r0) w) as Cut.
    { rewrite Cr, Qc. destruct Pt as [->|(d & pkt & c' & n & En & Sz & -> & Ln)].
      - left. apply app_eq_nil in W. destruct W as [-> _]. cbn. lia.
      - eapply part_is_cut with (more := p ++ drop n pkt); [exact En|exact Sz| |].
        + rewrite app_assoc, W. symmetry. apply take_drop.
        + apply (f_equal len) in W. rewrite len_app, len_take in W. lia. }
    destruct (cut_waits _ _ St Cut) as (r' & al & Q). exists r', al. split; [exact Q|]. congruence.
  - apply bind_ret_inv in Sa. destruct Sa as ([pkt c1] & En & Sa).
    apply bind_ret_inv in Sa. destruct Sa as ([pkts' c2] & Sa & Q). injection Q as <- ->.
    inversion Fm as [|? ? [Aad Sz] Fm']; subst. rewrite Aad in En. cbn [List.concat] in W. rewrite <- app_assoc in W.
    destruct (split_front _ _ _ _ W) as [(more & Qw & Qm)|(more & Qp & Qm & Lw)].
    + left. rewrite Qw in St.
      assert (recv_one (sr_cipher r0) None (pkt ++ more) = Ret (Some (m_type m, m_contents m), c1, more)) as Ro.
      { rewrite Cr. eapply recv_one_sent; [|exact En]. change (2 ^ 24) with 16777216. lia. }
      destruct (sync_read_packet _ _ _ _ _ _ _ St Ro) as [Ok1 _].
      destruct (Ok1 Sz) as (hd & r' & Rd & Hd & Rc & Rs).
      exists m, ms, pkts', (Decrypted (hd :: m_contents m)), r', (Some (len (m_contents m) + 17)).
      split; [reflexivity|]. split; [exact Rd|]. split; [cbn; now rewrite Hd|]. rewrite Rc. split; [exact Sa|].
      unfold session_stream in Rs. destruct (flatten Sync (session_inner (sr_reader r'))) as [f e]. cbn [fst].
      injection Rs as -> _. symmetry. exact Qm.
    + right.
      assert (cut_short (sr_cipher r0) w) as Cut by (rewrite Cr; eapply part_is_cut; eassumption).
      destruct (cut_waits _ _ St Cut) as (r' & al & Q). exists r', al. split; [exact Q|]. intros _ ->.
      destruct more; [|discriminate]. rewrite app_nil_r in Qp. subst. lia.
Qed.

(** ** The writer *)

Definition writing s : option payload :=
  match app_at s with
  | AppWritePad d _ => Some d
  | AppWrite pl => Some pl
  | _ => match thread_at s with ThWrite d => Some d | _ => None end
  end.

Definition sane s : Prop :=
  poisoned s = false /\ app_at s <> AppPanicked /\ thread_at s <> ThPanicked /\ locked s /\
  healthy (pw_writer (st_writer s)) /\ Forall fine_payload (in_flight (app_at s)) /\
  (forall d pl, app_at s = AppWritePad d pl -> shaper_decoy_payload d) /\ decoy_next s /\ dropped_ok s /\
  Forall (fun x => snd x = Ok tt) (returned s).

Lemma decoy_fine d : shaper_decoy_payload d -> fine_payload d.
Proof.
  intros D. split; [now apply decoy_sound|]. destruct D as (n & B & ->). unfold size_of. cbn. rewrite len_zeros. lia.
Qed.

Lemma sane_writing s d : sane s -> writing s = Some d -> fine_payload d.
Proof.
  intros (_ & _ & _ & _ & _ & F & P & D & _) W. unfold writing in W.
  destruct (app_at s) eqn:A; try (destruct (thread_at s) eqn:T; try discriminate; injection W as <-; apply decoy_fine, D; assumption).
  - injection W as <-. eapply decoy_fine, P. reflexivity.
  - injection W as <-. now inversion F.
Qed.

Lemma genuine_decoy d : shaper_decoy_payload d -> genuine_only [seen d] = [].
Proof. intros (n & _ & ->). reflexivity. Qed.

Lemma write_out w pl x w' : healthy (pw_writer w) -> sync_write w pl = Ret (x, w') ->
  x = Ok tt /\ healthy (pw_writer w') /\
  exists pkt, encrypt_to_vec (pw_cipher w) (snd (seen pl)) (fst (seen pl)) None = Ret (pkt, pw_cipher w') /\
    written (pw_writer w') = written (pw_writer w) ++ pkt /\ len pkt = size_of pl + 20.
Proof.
  intros Hh W. destruct (write_any_healthy_any Sync w pl x w' Hh W) as (-> & Hh' & pkt & En & Wr).
  split; [reflexivity|]. split; [assumption|]. exists pkt. split; [exact En|]. split; [exact Wr|].
  apply encrypt_vec_len in En. exact En.
Qed.

Lemma sane_move s m s' : sane s -> Forall fine_payload (calls [m]) -> do_move s m = Some s' ->
  poisoned s' = true /\ st_writer s' = st_writer s \/ sane s' /\
  (st_writer s' = st_writer s /\ returned s' = returned s /\ (forall d, writing s = Some d -> writing s' = Some d) \/
   exists d pkt more, (m = App \/ m = Thread) /\ writing s = Some d /\
     encrypt_to_vec (pw_cipher (st_writer s)) (snd (seen d)) (fst (seen d)) None = Ret (pkt, pw_cipher (st_writer s')) /\
     output s' = output s ++ pkt /\ len pkt = size_of d + 20 /\
     returned s' = returned s ++ more /\ genuine_only (map seen (map fst more)) = genuine_only [seen d]).
Proof.
  intros (P & A & T & L & Hh & F & Pd & D & Dr & Rt) Fm M.
  pose proof (locked_move _ _ _ L M) as L'. pose proof (decoy_next_move _ _ _ D M) as D'.
  pose proof (dropped_move _ _ _ Dr M) as Dr'.
  destruct s as [w sh lk po sd a t rc rt]. cbn [poisoned app_at thread_at st_writer returned] in *. subst po.
  assert (Silent : forall s1 : @shared G, Some s1 = Some s' -> st_writer s1 = w -> poisoned s1 = false -> app_at s1 <> AppPanicked ->
    thread_at s1 <> ThPanicked -> Forall fine_payload (in_flight (app_at s1)) ->
    (forall d pl, app_at s1 = AppWritePad d pl -> shaper_decoy_payload d) -> returned s1 = rt ->
    (forall d, writing (Shared w sh lk false sd a t rc rt) = Some d -> writing s1 = Some d) ->
    poisoned s' = true /\ st_writer s' = w \/ sane s' /\ (st_writer s' = w /\ returned s' = rt /\
      (forall d, writing (Shared w sh lk false sd a t rc rt) = Some d -> writing s' = Some d) \/
   exists d pkt more, (m = App \/ m = Thread) /\ writing (Shared w sh lk false sd a t rc rt) = Some d /\
     encrypt_to_vec (pw_cipher w) (snd (seen d)) (fst (seen d)) None = Ret (pkt, pw_cipher (st_writer s')) /\
     output s' = output (Shared w sh lk false sd a t rc rt) ++ pkt /\ len pkt = size_of d + 20 /\
     returned s' = rt ++ more /\ genuine_only (map seen (map fst more)) = genuine_only [seen d])).
  { intros s1 Q Q1 Q2 Q3 Q4 Q5 Q6 Q7 Q8. injection Q as ->. right. split.
    - unfold sane. rewrite Q1, Q7. auto 12.
    - left. auto. }
  destruct m as [pl| | |]; unfold calls in Fm; cbn [flat_map Datatypes.app] in Fm; cbn [do_move app_at] in M.
  - destruct a; try discriminate. eapply Silent; [exact M|reflexivity|reflexivity|discriminate|exact T|exact Fm|discriminate|reflexivity|auto].
  - destruct a; try discriminate; [|contradiction A; reflexivity].
    eapply Silent; [exact M|reflexivity|reflexivity|discriminate|exact T|constructor|discriminate|reflexivity|auto].
  - unfold app_step in M. cbn [app_at lock poisoned st_shaper st_writer thread_at] in M. destruct a; try discriminate.
    + destruct lk; try discriminate.
      eapply Silent; [exact M|reflexivity|reflexivity|discriminate|exact T|exact F|discriminate|reflexivity|].
      cbn. intros d. auto.
    + destruct (shaper_pad sh pl) as [[[[d|] sh'] rec']| |] eqn:Q; try (left; injection M as <-; split; reflexivity);
        apply shaper_pad_spec in Q; destruct Q as [_ Q];
        destruct L as [L X]; cbn in L, X;
        (eapply Silent; [exact M|reflexivity|reflexivity|discriminate|exact T|exact F| |reflexivity|]).
      * intros ? ? Z. cbn in Z. injection Z as <- <-. tauto.
      * unfold writing. cbn [app_at thread_at]. destruct t; discriminate.
      * discriminate.
      * unfold writing. cbn [app_at thread_at]. destruct t; discriminate.
    + destruct (sync_write w d) as [[x w']| |] eqn:W; try (left; injection M as <-; split; reflexivity).
      destruct (write_out _ _ _ _ Hh W) as (-> & Hh' & pkt & En & Wr & Lp). injection M as <-. right.
      pose proof (Pd d pl eq_refl) as Sd. split.
      * split; [reflexivity|]. split; [discriminate|]. split; [exact T|]. split; [exact L'|]. split; [exact Hh'|].
        split; [exact F|]. split; [discriminate|]. split; [exact D'|]. split; [exact Dr'|]. exact Rt.
      * right. exists d, pkt, []. split; [now left|]. split; [reflexivity|]. split; [exact En|]. split; [exact Wr|]. split; [exact Lp|].
        split; [now rewrite app_nil_r|]. symmetry. now apply genuine_decoy.
    + destruct (sync_write w pl) as [[x w']| |] eqn:W; try (left; injection M as <-; split; reflexivity).
      destruct (write_out _ _ _ _ Hh W) as (-> & Hh' & pkt & En & Wr & Lp). injection M as <-. right. split.
      * split; [reflexivity|]. split; [discriminate|]. split; [exact T|]. split; [exact L'|]. split; [exact Hh'|].
        split; [constructor|]. split; [discriminate|]. split; [exact D'|]. split; [exact Dr'|].
        cbn [returned app_return]. apply Forall_app. split; [exact Rt|]. constructor; [reflexivity|constructor].
      * right. exists pl, pkt, [(pl, Ok tt)]. split; [now left|]. split; [reflexivity|]. split; [exact En|]. split; [exact Wr|]. split; [exact Lp|].
        split; reflexivity.
    + destruct t; try discriminate;
        (eapply Silent; [exact M|reflexivity|reflexivity|discriminate|exact T|constructor|discriminate|reflexivity|auto]).
  - unfold thread_step in M. cbn [app_at lock poisoned st_shaper st_writer thread_at shutdown] in M.
    destruct t; try discriminate.
    + eapply Silent; [exact M|reflexivity|reflexivity|exact A|destruct sd; discriminate|exact F|exact Pd|reflexivity|].
      unfold writing. destruct a; cbn; try discriminate; auto.
    + eapply Silent; [exact M|reflexivity|reflexivity|exact A|discriminate|exact F|exact Pd|reflexivity|].
      unfold writing. destruct a; cbn; try discriminate; auto.
    + destruct lk; (eapply Silent; [exact M|reflexivity|reflexivity|exact A|discriminate|exact F|exact Pd|reflexivity|]);
        unfold writing; destruct a; cbn; try discriminate; auto.
    + destruct (shaper_decoy sh) as [[[d|] sh'] rec'] eqn:Q;
        (eapply Silent; [exact M|reflexivity|reflexivity|exact A|discriminate|exact F|exact Pd|reflexivity|]);
        unfold writing; destruct a; cbn; try discriminate; auto.
    + destruct (sync_write w d) as [[x w']| |] eqn:W; try (left; injection M as <-; split; reflexivity).
      destruct (write_out _ _ _ _ Hh W) as (-> & Hh' & pkt & En & Wr & Lp). injection M as <-. right.
      pose proof (D d eq_refl) as Sd. split.
      * split; [reflexivity|]. split; [exact A|]. split; [discriminate|]. split; [exact L'|]. split; [exact Hh'|].
        split; [exact F|]. split; [exact Pd|]. split; [exact D'|]. split; [exact Dr'|]. exact Rt.
      * right. exists d, pkt, []. split; [now right|]. split.
        { destruct L as [_ X]. cbn in X. unfold writing. cbn. destruct a; try reflexivity; discriminate. }
        split; [exact En|]. split; [exact Wr|]. split; [exact Lp|].
        split; [cbn; now rewrite app_nil_r|]. symmetry. now apply genuine_decoy.
Qed.

(** ** The invariant *)

Definition partly_in s (n : N) (part : bytes) : Prop :=
  n = 0 /\ part = [] \/
  exists d pkt c', writing s = Some d /\
    encrypt_to_vec (pw_cipher (st_writer s)) (snd (seen d)) (fst (seen d)) None = Ret (pkt, c') /\
    part = take n pkt /\ n < len pkt.

Definition stream s (n : N) (p : bytes) (r : sync_reader) (got : bytes) (heard : list (result perror payload)) (ms : list msg) : Prop :=
  exists pkts part hs,
    send_all (sr_cipher r) ms = Ret (pkts, pw_cipher (st_writer s)) /\
    Forall (fun m => m_aad m = None /\ len (m_contents m) + 1 <= 4000014) ms /\
    (session_leftover (sr_reader r) ++ got) ++ p = List.concat pkts ++ part /\ partly_in s n part /\
    heard = map Ok hs /\
    genuine_only (map seen hs ++ map view ms) = genuine_only (map seen (map fst (returned s))).

Definition flows st : Prop :=
  sane (fl_shared st) /\ exists ms, stream (fl_shared st) (fl_sent st) (fl_pipe st) (fl_reader st) (fl_got st) (fl_heard st) ms.

Lemma genuine_app a b : genuine_only (a ++ b) = genuine_only a ++ genuine_only b.
Proof. apply filter_app. Qed.

Lemma partly_of s n part d pkt c' : partly_in s n part -> writing s = Some d ->
  encrypt_to_vec (pw_cipher (st_writer s)) (snd (seen d)) (fst (seen d)) None = Ret (pkt, c') -> part = take n pkt.
Proof.
  intros [[-> ->]|(d' & pkt' & c2 & A' & En' & -> & _)] A En; [reflexivity|].
  rewrite A in A'. injection A' as <-. rewrite En in En'. now injection En' as <- <-.
Qed.

Lemma partly_begins s n part : sane s -> partly_in s n part -> begins (pw_cipher (st_writer s)) part.
Proof.
  intros Sn [[_ ->]|(d & pkt & c' & A & En & -> & Ln)]; [now left|right].
  exists d, pkt, c', n. split; [exact En|]. split; [apply (sane_writing s d Sn A)|]. auto.
Qed.

(** A move that leaves the stream alone. *)
Lemma stream_silent s s' n p r got heard ms : stream s n p r got heard ms ->
  st_writer s' = st_writer s -> returned s' = returned s -> (forall d, writing s = Some d -> writing s' = Some d) ->
  stream s' n p r got heard ms.
Proof.
  intros (pkts & part & hs & Sa & Fm & W & Pt & Hh & All) Qw Qr Qd. exists pkts, part, hs. rewrite Qw, Qr.
  repeat split; try assumption. destruct Pt as [Pt|(d & pkt & c' & A & En & Rest)]; [now left|right].
  exists d, pkt, c'. rewrite Qw. auto.
Qed.

(** The bytes of the packet being written. *)
Lemma stream_part s n p r got heard ms d pkt c' k : stream s n p r got heard ms -> writing s = Some d ->
  encrypt_to_vec (pw_cipher (st_writer s)) (snd (seen d)) (fst (seen d)) None = Ret (pkt, c') -> n + k < len pkt ->
  stream s (n + k) (p ++ take k (drop n pkt)) r got heard ms.
Proof.
  intros (pkts & part & hs & Sa & Fm & W & Pt & Hh & All) A En Ln. exists pkts, (take (n + k) pkt), hs.
  repeat split; try assumption.
  - rewrite app_assoc, W, (partly_of _ _ _ _ _ _ Pt A En), <- app_assoc. f_equal. apply take_more.
  - right. exists d, pkt, c'. auto.
Qed.

Lemma stream_last s s' n p r got heard ms d pkt more : stream s n p r got heard ms -> sane s -> writing s = Some d ->
  encrypt_to_vec (pw_cipher (st_writer s)) (snd (seen d)) (fst (seen d)) None = Ret (pkt, pw_cipher (st_writer s')) ->
  returned s' = returned s ++ more -> genuine_only (map seen (map fst more)) = genuine_only [seen d] ->
  stream s' 0 (p ++ drop n pkt) r got heard (ms ++ [as_msg (seen d)]).
Proof.
  intros (pkts & part & hs & Sa & Fm & W & Pt & Hh & All) Sn A En Qr Qg. exists (pkts ++ [pkt]), [], hs.
  split. { eapply send_all_join; [exact Sa|]. cbn [send_all as_msg m_contents m_type m_aad]. rewrite En. reflexivity. }
  split. { apply Forall_app. split; [exact Fm|]. constructor; [|constructor]. split; [reflexivity|].
           apply (sane_writing s d Sn A). }
  split. { rewrite app_assoc, W, (partly_of _ _ _ _ _ _ Pt A En), <- app_assoc, take_drop, concat_app. cbn [List.concat].
           now rewrite !app_nil_r. }
  split; [now left|]. split; [exact Hh|].
  rewrite Qr, !map_app, app_assoc, !genuine_app, <- genuine_app, All, Qg. do 2 f_equal. cbn. now destruct (seen d).
Qed.

Lemma poisoned_stays s m s' : do_move s m = Some s' -> poisoned s = true -> poisoned s' = true.
Proof.
  intros M P. destruct (poisoned s') eqn:Q; [reflexivity|]. rewrite (poisoned_back _ _ _ M Q) in P. discriminate.
Qed.

Lemma no_output (o : bytes) s s' : output s' = output s ++ o -> st_writer s' = st_writer s -> o = [].
Proof. intros O W. unfold output in O. rewrite W in O. rewrite <- app_nil_r in O at 1. apply app_inv_head in O. auto. Qed.

Lemma goes_flows cap st st' : flows st -> flow_goes cap st st' -> poisoned (fl_shared st') = true \/ flows st'.
Proof.
  intros [Sn (ms & St)] Go.
  assert (C0 : forall m, m = App \/ m = Thread -> Forall fine_payload (calls [m])) by (intros m [->| ->]; constructor).
  destruct Go as [m s s' n p r got heard Hm Mv O|m s s' o k n p r got heard Hm Mv O Hk Fit Ln|
    m s s' o n p r got heard Hm Mv O Ln Fit|s n b p r got heard r' al Rd|s n p r got heard x r' al Rd Nx];
    cbn [fl_shared fl_sent fl_pipe fl_reader fl_got fl_heard] in *.
  - destruct (sane_move _ _ _ Sn (C0 _ Hm) Mv) as [Po|[Sn' [(Qw & Qr & Qd)|(d & pkt & more & _ & _ & _ & O' & Lp & _)]]];
      [left; apply Po| |].
    + right. split; [exact Sn'|]. exists ms. eapply stream_silent; eassumption.
    + exfalso. rewrite O in O'. symmetry in O'. rewrite <- app_nil_r in O'. apply app_inv_head in O'. subst pkt.
      rewrite len_nil in Lp. lia.
  - destruct (sane_move _ _ _ Sn (C0 _ Hm) Mv) as [Po|[Sn' [(Qw & _)|(d & pkt & more & _ & A & En & O' & _)]]].
    + exfalso. destruct Po as [_ Qw]. apply (no_output _ _ _ O) in Qw. subst o. rewrite len_nil in Ln. lia.
    + exfalso. apply (no_output _ _ _ O) in Qw. subst o. rewrite len_nil in Ln. lia.
    + rewrite O' in O. apply app_inv_head in O. subst o. right. split; [exact Sn|]. exists ms.
      eapply stream_part; eassumption.
  - destruct (sane_move _ _ _ Sn (C0 _ Hm) Mv) as [Po|[Sn' [(Qw & _)|(d & pkt & more & _ & A & En & O' & _ & Qr & Qg)]]].
    + left. apply Po.
    + exfalso. apply (no_output _ _ _ O) in Qw. subst o. rewrite len_nil in Ln. lia.
    + rewrite O' in O. apply app_inv_head in O. subst o. right. split; [exact Sn'|]. eexists.
      eapply stream_last; eassumption.
  - right. split; [exact Sn|]. exists ms. destruct St as (pkts & part & hs & Sa & Fm & W & Rest). exists pkts, part, hs.
    split; [exact Sa|]. split; [exact Fm|]. split; [|exact Rest].
    cbn [fl_shared fl_sent fl_pipe fl_reader fl_got fl_heard]. rewrite <- W, <- !app_assoc. reflexivity.
  - right. split; [exact Sn|]. destruct St as (pkts & part & hs & Sa & Fm & W & Pt & Hh & All).
    destruct (pipe_read _ _ _ _ _ _ _ Sa Fm W (partly_begins _ _ _ Sn Pt)) as
      [(m & ms' & pkts' & y & r1 & al1 & -> & Rd1 & Sy & Sa' & W')|(r1 & al1 & Rd1 & _)];
      rewrite Rd in Rd1; [|congruence].
    injection Rd1 as -> <- <-. exists ms', pkts', part, (hs ++ [y]). split; [exact Sa'|]. split; [now inversion Fm|].
    split; [exact W'|]. split; [exact Pt|]. split; [rewrite Hh, map_app; reflexivity|].
    cbn [fl_shared]. rewrite <- All, map_app, <- app_assoc. cbn [map app]. now rewrite Sy.
Qed.

Lemma step_flows cap st st' : flows st -> flow_step cap st st' -> poisoned (fl_shared st') = true \/ flows st'.
Proof.
  intros Fl H. destruct H as [st st' Go|pl s s' n p r got heard M V Sz|s s' n p r got heard M].
  - eapply goes_flows; eassumption.
  - destruct Fl as [Sn (ms & St)]. cbn [fl_shared fl_sent fl_pipe fl_reader fl_got fl_heard] in *.
    destruct (sane_move _ (CallWrite pl) _ Sn ltac:(constructor; [split; assumption|constructor]) M) as
      [Po|[Sn' [(Qw & Qr & Qd)|(d & pkt & more & [?|?] & _)]]]; try discriminate; [left; apply Po|].
    right. split; [exact Sn'|]. exists ms. eapply stream_silent; eassumption.
  - destruct Fl as [Sn (ms & St)]. cbn [fl_shared fl_sent fl_pipe fl_reader fl_got fl_heard] in *.
    destruct (sane_move _ CallDrop _ Sn ltac:(constructor) M) as
      [Po|[Sn' [(Qw & Qr & Qd)|(d & pkt & more & [?|?] & _)]]]; try discriminate; [left; apply Po|].
    right. split; [exact Sn'|]. exists ms. eapply stream_silent; eassumption.
Qed.

Lemma step_poisoned cap st st' : flow_step cap st st' -> poisoned (fl_shared st) = true -> poisoned (fl_shared st') = true.
Proof.
  intros H P. destruct H as [st st' Go|pl s s' n p r got heard M V Sz|s s' n p r got heard M]; [destruct Go|..];
    cbn [fl_shared] in *; try assumption; eapply poisoned_stays; eassumption.
Qed.

Lemma run_poisoned cap st st' : flow_run (flow_step cap) st st' -> poisoned (fl_shared st) = true -> poisoned (fl_shared st') = true.
Proof. intros H. induction H; [auto|]. intros P. apply IHflow_run. eapply step_poisoned; eassumption. Qed.

Lemma run_flows cap st st' : flow_run (flow_step cap) st st' -> flows st -> poisoned (fl_shared st') = false -> flows st'.
Proof.
  intros H. induction H as [st|st st1 st2 S H IH]; [auto|]. intros Fl P.
  destruct (step_flows _ _ _ Fl S) as [Po|Fl1]; [|auto]. rewrite (run_poisoned _ _ _ H Po) in P. discriminate.
Qed.

Lemma goes_steps cap st st' : flow_run (flow_goes cap) st st' -> flow_run (flow_step cap) st st'.
Proof. intros H. induction H; [constructor|]. eapply flow_more; [apply flow_on; eassumption|assumption]. Qed.

Lemma goes_trans cap (x y z : flow) : flow_run (flow_goes cap) x y -> flow_run (flow_goes cap) y z -> flow_run (flow_goes cap) x z.
Proof. intros H. induction H; intros; [assumption|]. eapply flow_more; eauto. Qed.

(** ** Going on *)

(** Everything is read. *)
Lemma drains cap : forall f ms s n p r got heard, (length p + length ms <= f)%nat -> sane s -> stream s n p r got heard ms ->
  exists r' got' heard', flow_run (flow_goes cap) (Flow s n p r got heard) (Flow s n [] r' got' heard') /\
    stream s n [] r' got' heard' [].
Proof.
  induction f as [|f IH]; intros ms s n p r got heard Lf Sn St; pose proof St as (pkts & part & hs & Sa & Fm & W & Pt & Hh & All).
  { destruct p; [|cbn in Lf; lia]. destruct ms; [|cbn in Lf; lia]. exists r, got, heard. split; [constructor|exact St]. }
  destruct (pipe_read _ _ _ _ _ _ _ Sa Fm W (partly_begins _ _ _ Sn Pt)) as
    [(m & ms' & pkts' & y & r1 & al1 & -> & Rd1 & Sy & Sa' & W')|(r1 & al1 & Rd1 & Ne)].
  - destruct (IH ms' s n p r1 (fst (flatten Sync (session_inner (sr_reader r1)))) (heard ++ [Ok y])) as (r' & got' & heard' & Run & St').
    + cbn in Lf. lia.
    + exact Sn.
    + exists pkts', part, (hs ++ [y]). split; [exact Sa'|]. split; [now inversion Fm|].
      split; [exact W'|]. split; [exact Pt|]. split; [rewrite Hh, map_app; reflexivity|].
      rewrite <- All, map_app, <- app_assoc. cbn [map app]. now rewrite Sy.
    + exists r', got', heard'. split; [|exact St']. eapply flow_more; [|exact Run]. eapply flow_returns; [exact Rd1|discriminate].
  - destruct p as [|b p].
    + destruct ms; [|exfalso; apply Ne; congruence]. exists r, got, heard. split; [constructor|exact St].
    + destruct (IH ms s n p r (got ++ [b]) heard) as (r' & got' & heard' & Run & St').
      * cbn in Lf. lia.
      * exact Sn.
      * exists pkts, part, hs. split; [exact Sa|]. split; [exact Fm|]. split; [|auto].
        rewrite <- W, <- !app_assoc. reflexivity.
      * exists r', got', heard'. split; [|exact St']. eapply flow_more; [|exact Run]. eapply flow_takes. exact Rd1.
Qed.

(** A write comes to its end, byte by byte. *)
Lemma writes cap : 1 <= cap -> forall f ms s n p r got heard m s' d pkt more, (N.to_nat (len pkt - n) <= f)%nat ->
  sane s -> stream s n p r got heard ms -> m = App \/ m = Thread -> do_move s m = Some s' -> writing s = Some d ->
  encrypt_to_vec (pw_cipher (st_writer s)) (snd (seen d)) (fst (seen d)) None = Ret (pkt, pw_cipher (st_writer s')) ->
  output s' = output s ++ pkt -> len pkt = size_of d + 20 ->
  returned s' = returned s ++ more -> genuine_only (map seen (map fst more)) = genuine_only [seen d] ->
  exists p' r' got' heard' ms', flow_run (flow_goes cap) (Flow s n p r got heard) (Flow s' 0 p' r' got' heard') /\
    stream s' 0 p' r' got' heard' ms'.
Proof.
  intros Hcap. induction f as [|f IH]; intros ms s n p r got heard m s' d pkt more Lf Sn St Hm M A En O Lp Qr Qg;
    (assert (n < len pkt) as Ln by
      (destruct St as (pkts & part & hs & _ & _ & _ & Pt & _);
       destruct Pt as [[-> _]|(d' & pkt' & c2 & A' & En' & _ & Ln)]; [lia|];
       rewrite A in A'; injection A' as <-; rewrite En in En'; injection En' as <- _; exact Ln));
    [lia|].
  destruct (drains cap _ _ _ _ _ _ _ _ (le_n _) Sn St) as (r1 & got1 & heard1 & Run & St1).
  destruct (N.eq_dec (n + 1) (len pkt)) as [Last|More].
  - eexists _, _, _, _, _. split.
    + eapply goes_trans; [exact Run|]. eapply flow_more; [|constructor].
      eapply flow_puts_last; [exact Hm|exact M|exact O|exact Ln|rewrite len_nil; lia].
    + eapply stream_last; eassumption.
  - assert (n + 1 < len pkt) as Ln1 by lia.
    pose proof (stream_part _ _ _ _ _ _ _ _ _ _ 1 St1 A En Ln1) as St2.
    destruct (IH _ s (n + 1) _ r1 got1 heard1 m s' d pkt more ltac:(lia) Sn St2 Hm M A En O Lp Qr Qg)
      as (p' & r' & got' & heard' & ms' & Run2 & St3).
    exists p', r', got', heard', ms'. split; [|exact St3]. eapply goes_trans; [exact Run|].
    eapply flow_more; [|exact Run2].
    eapply flow_puts; [exact Hm|exact M|exact O|lia|rewrite len_nil; lia|exact Ln1].
Qed.

Lemma does cap st m s' : 1 <= cap -> flows st -> m = App \/ m = Thread -> do_move (fl_shared st) m = Some s' -> poisoned s' = false ->
  exists st', flow_run (flow_goes cap) st st' /\ fl_shared st' = s' /\ flows st'.
Proof.
  intros Hcap [Sn (ms & St)] Hm M P. destruct st as [s n p r got heard].
  cbn [fl_shared fl_sent fl_pipe fl_reader fl_got fl_heard] in *.
  destruct (sane_move _ m _ Sn ltac:(destruct Hm as [->| ->]; constructor) M) as
    [[Po _]|[Sn' [(Qw & Qr & Qd)|(d & pkt & more & _ & A & En & O & Lp & Qr & Qg)]]].
  - congruence.
  - exists (Flow s' n p r got heard). split; [|split; [reflexivity|]].
    + eapply flow_more; [|constructor]. eapply flow_moves; [exact Hm|exact M|unfold output; now rewrite Qw].
    + split; [exact Sn'|]. exists ms. eapply stream_silent; eassumption.
  - destruct (writes cap Hcap _ _ _ _ _ _ _ _ _ _ _ _ _ (le_n _) Sn St Hm M A En O Lp Qr Qg)
      as (p' & r' & got' & heard' & ms' & Run & St').
    exists (Flow s' 0 p' r' got' heard'). split; [exact Run|]. split; [reflexivity|]. split; [exact Sn'|]. exists ms'. exact St'.
Qed.

Lemma plays cap : 1 <= cap -> forall ms st s', flows st -> Forall (fun m => m = App \/ m = Thread) ms ->
  play (fl_shared st) ms = Some s' -> poisoned s' = false ->
  exists st', flow_run (flow_goes cap) st st' /\ fl_shared st' = s' /\ flows st'.
Proof.
  intros Hcap. induction ms as [|m ms IH]; intros st s' Fl Fm H P; cbn [play] in H.
  - injection H as <-. exists st. split; [constructor|]. auto.
  - destruct (do_move (fl_shared st) m) as [s1|] eqn:M; [|discriminate].
    assert (poisoned s1 = false) as P1.
    { clear - H P. revert s1 H. induction ms as [|m ms IH]; intros s1 H; cbn [play] in H; [injection H as <-; exact P|].
      destruct (do_move s1 m) as [s2|] eqn:M; [|discriminate]. eapply poisoned_back; [exact M|]. now apply IH. }
    destruct (does cap st m s1 Hcap Fl (Forall_inv Fm) M P1) as (st1 & R1 & Q1 & F1).
    rewrite <- Q1 in H. destruct (IH st1 s' F1 (Forall_inv_tail Fm) H P) as (st' & R2 & Q2 & F2).
    exists st'. split; [eapply goes_trans; eassumption|]. auto.
Qed.

Lemma app_or_thread n m : Forall (fun x => x = App \/ x = Thread) (repeat Thread n ++ repeat App m).
Proof. apply Forall_app. split; [induction n|induction m]; cbn [repeat]; constructor; auto. Qed.

Lemma calls_none n m : calls (repeat Thread n ++ repeat App m) = [].
Proof.
  rewrite calls_app. replace (calls (repeat Thread n)) with (@nil payload) by (clear; induction n; auto).
  clear. induction m; auto.
Qed.

Lemma len_moves n m : len (repeat Thread n ++ repeat App m) = N.of_nat (n + m).
Proof. unfold len. rewrite app_length, !repeat_length. reflexivity. Qed.

Lemma threads_keep : forall n s s', play s (repeat Thread n) = Some s' -> app_at s' = app_at s /\ returned s' = returned s.
Proof.
  induction n as [|n IH]; intros s s' H; cbn [repeat play] in H; [injection H as <-; auto|].
  cbn [do_move] in H. destruct (thread_step s) as [s1|] eqn:T; [|discriminate].
  destruct (thread_keeps_app _ _ T) as [A1 R1]. destruct (IH _ _ H) as [A2 R2]. split; congruence.
Qed.

Lemma sane_fine s k : sane s -> counted k (pw_cipher (st_writer s)) -> fine k s.
Proof.
  intros (P & A & T & L & Hh & F & Pd & D & _) C. split; [exact P|]. split; [exact A|]. split; [exact T|]. split; [exact C|].
  split; [eapply Forall_impl; [|exact F]; intros pl [V _]; exact V|].
  split; [intros d pl Q; eapply decoy_sound, Pd, Q|]. intros d Q. apply decoy_sound, D, Q.
Qed.

(** The call in progress returns. *)
Lemma call_ends s k : sane s -> counted k (pw_cipher (st_writer s)) -> (overflow_checks = true -> k + 6 < 2 ^ 32) ->
  exists n m s', (n + m <= 6)%nat /\ play s (repeat Thread n ++ repeat App m) = Some s' /\
    fine (k + N.of_nat (n + m)) s' /\
    app_at s' = (match app_at s with AppJoin | AppDropped => AppDropped | _ => AppOut end) /\
    map fst (returned s') = map fst (returned s) ++ in_flight (app_at s).
Proof.
  intros Sn C Hr. pose proof (sane_fine _ _ Sn C) as Fi. pose proof Sn as (P & A & T & L & Hh & F & Pd & D & Dr & Rt).
  assert (Fin : forall n m s', (n + m <= 6)%nat -> play s (repeat Thread n ++ repeat App m) = Some s' -> fine (k + N.of_nat (n + m)) s').
  { intros n m s' Ln H. rewrite <- len_moves. eapply fine_play; [exact Fi| |rewrite calls_none; constructor|exact H].
    rewrite len_moves. intros Ho. specialize (Hr Ho). lia. }
  assert (Call : forall pl, in_flight (app_at s) = [pl] -> exists n m s', (n + m <= 6)%nat /\
    play s (repeat Thread n ++ repeat App m) = Some s' /\ fine (k + N.of_nat (n + m)) s' /\
    app_at s' = AppOut /\ map fst (returned s') = map fst (returned s) ++ [pl]).
  { intros pl I.
    assert (exists n s1, (n <= 2)%nat /\ play s (repeat Thread n) = Some s1 /\ lock s1 <> ByDecoy /\ app_at s1 = app_at s /\
      returned s1 = returned s) as (n & s1 & Ln & P1 & Lk1 & A1 & R1).
    { destruct (lock s) eqn:Lk; try (exists O, s; repeat split; try reflexivity; [lia|congruence]).
      destruct (thread_lets_go s Lk L) as (n & s1 & Ln & P1 & F1 & A1 & R1). exists n, s1. repeat split; try assumption. congruence. }
    destruct (app_finishes 4 s1 pl) as (m & s' & Lm & P2 & Q).
    - rewrite A1. destruct (app_at s); cbn; lia.
    - now rewrite A1.
    - eapply locked_play; eassumption.
    - exact Lk1.
    - assert (play s (repeat Thread n ++ repeat App m) = Some s') as P3 by (rewrite play_app, P1; exact P2).
      pose proof (Fin n m s' ltac:(lia) P3) as F3. exists n, m, s'. split; [lia|]. split; [exact P3|]. split; [exact F3|].
      destruct Q as [Q|[Q (x & Rx)]]; [exfalso; destruct F3 as (_ & F3 & _); contradiction|].
      split; [exact Q|]. rewrite Rx, R1, map_app. reflexivity. }
  destruct (app_at s) as [|pl|pl|d pl|pl| | |] eqn:Qa; try (apply Call; reflexivity); [| | |contradiction].
  - exists O, O, s. split; [lia|]. split; [reflexivity|]. split; [now replace (k + N.of_nat (0 + 0)) with k by lia|].
    split; [exact Qa|]. now rewrite app_nil_r.
  - destruct (join_returns 5 s) as (i & s' & Li & P1 & A1); [apply Dr; auto|exact D|exact Qa|destruct (thread_at s); cbn; lia|].
    exists i, 1%nat, s'. split; [lia|]. split; [exact P1|]. split; [apply Fin; [lia|exact P1]|]. split; [exact A1|].
    rewrite app_nil_r. f_equal. rewrite play_app in P1. destruct (play s (repeat Thread i)) as [s1|] eqn:P2; [|discriminate].
    destruct (threads_keep _ _ _ P2) as [A2 R2]. cbn [play do_move] in P1. unfold app_step in P1. rewrite A2, Qa in P1.
    destruct (thread_at s1); try discriminate; injection P1 as <-; exact R2.
  - exists O, O, s. split; [lia|]. split; [reflexivity|]. split; [now replace (k + N.of_nat (0 + 0)) with k by lia|].
    split; [exact Qa|]. now rewrite app_nil_r.
Qed.

Theorem comes_through cap st k : 1 <= cap -> flows st -> counted k (pw_cipher (st_writer (fl_shared st))) ->
  (overflow_checks = true -> k + 8 < 2 ^ 32) ->
  exists st' hs, flow_run (flow_goes cap) st st' /\
    app_at (fl_shared st') = (match app_at (fl_shared st) with AppJoin | AppDropped => AppDropped | _ => AppOut end) /\
    lock (fl_shared st') = Free /\ fl_pipe st' = [] /\
    map fst (returned (fl_shared st')) = map fst (returned (fl_shared st)) ++ in_flight (app_at (fl_shared st)) /\
    Forall (fun x => snd x = Ok tt) (returned (fl_shared st')) /\
    fl_heard st' = map Ok hs /\ genuine_only (map seen hs) = genuine_only (map seen (map fst (returned (fl_shared st')))).
Proof.
  intros Hcap Fl C Hr. pose proof Fl as [Sn _].
  destruct (call_ends _ _ Sn C ltac:(intros Ho; specialize (Hr Ho); lia)) as (n & m & s1 & Ln & P1 & F1 & A1 & R1).
  destruct (plays cap Hcap _ st s1 Fl (app_or_thread n m) P1 ltac:(apply F1)) as (st1 & Run1 & Q1 & Fl1). subst s1.
  pose proof Fl1 as [Sn1 _]. pose proof Sn1 as (_ & _ & _ & L1 & _).
  assert (exists st2, flow_run (flow_goes cap) st1 st2 /\ flows st2 /\ lock (fl_shared st2) = Free /\
    app_at (fl_shared st2) = app_at (fl_shared st1) /\ returned (fl_shared st2) = returned (fl_shared st1)) as
    (st2 & Run2 & Fl2 & Lk2 & A2 & R2).
  { destruct (lock (fl_shared st1)) eqn:Lk.
    - exists st1. split; [constructor|]. auto.
    - exfalso. destruct L1 as [L1 _]. rewrite Lk, A1 in L1. destruct (app_at (fl_shared st)); cbn in L1;
        destruct (thread_inside (thread_at (fl_shared st1))); discriminate.
    - destruct (thread_lets_go _ Lk L1) as (j & s2 & Lj & P2 & F2 & A2 & R2).
      rewrite <- (app_nil_r (repeat Thread j)) in P2. change [] with (repeat App 0) in P2.
      assert (fine (k + N.of_nat (n + m) + N.of_nat (j + 0)) s2) as F3.
      { rewrite <- (len_moves j 0). eapply fine_play; [exact F1| |rewrite calls_none; constructor|exact P2].
        rewrite len_moves. intros Ho. specialize (Hr Ho). lia. }
      destruct (plays cap Hcap _ st1 s2 Fl1 (app_or_thread j 0) P2 ltac:(apply F3)) as (st2 & Run2 & Q2 & Fl2). subst s2.
      exists st2. auto. }
  destruct st2 as [s2 n2 p2 r2 g2 h2]. destruct Fl2 as [Sn2 (ms & St2)].
  cbn [fl_shared fl_sent fl_pipe fl_reader fl_got fl_heard] in *.
  destruct (drains cap _ _ _ _ _ _ _ _ (le_n _) Sn2 St2) as (r3 & g3 & h3 & Run3 & pkts & part & hs & _ & _ & _ & _ & Hh & All).
  exists (Flow s2 n2 [] r3 g3 h3), hs. cbn [fl_shared fl_sent fl_pipe fl_reader fl_got fl_heard].
  split; [eapply goes_trans; [exact Run1|]; eapply goes_trans; eassumption|].
  split; [now rewrite A2|]. split; [exact Lk2|]. split; [reflexivity|]. split; [now rewrite R2|].
  split; [apply Sn2|]. split; [exact Hh|]. cbn [map app] in All. now rewrite app_nil_r in All.
Qed.

Lemma flows_new out sh recs r : sr_cipher r = out -> session_leftover (sr_reader r) = [] -> flows (flow_new out sh recs r).
Proof.
  intros C L. split.
  - split; [reflexivity|]. split; [discriminate|]. split; [discriminate|]. split; [apply locked_new|].
    split; [split; constructor|]. split; [constructor|]. split; [discriminate|]. split; [unfold decoy_next; cbn; discriminate|].
    split; [split; cbn; [intros []; discriminate|discriminate]|constructor].
  - exists [], [], [], []. cbn [flow_new fl_shared fl_sent fl_pipe fl_reader fl_got fl_heard]. rewrite C, L.
    split; [reflexivity|]. split; [constructor|]. split; [reflexivity|]. split; [left; split; reflexivity|]. split; reflexivity.
Qed.

(** ** What the writer does without the reader *)

Lemma solo_flow cap a inc o a' inc' o' : solo cap a inc o a' inc' o' -> len o <= cap -> sd_todo a = [] ->
  forall r got heard, flow_run (flow_goes cap) (Flow (sd_shared a) (sd_sent a) o r got heard)
    (Flow (sd_shared a') (sd_sent a') o' r got heard) /\ inc' = inc /\ len o' <= cap.
Proof.
  intros H. induction H as [a inc o|a inc o a1 inc1 out a2 inc2 o2 Op H IH]; intros Lo Td r got heard; [repeat split; [constructor|assumption]|].
  destruct Op as [s s' n r0 g0 pl t0 h0 M|m s s' n r0 g0 t0 h0 Hm M O|m s s' out k n r0 g0 t0 h0 Hm M O Hk Ln|
    m s s' out n r0 g0 t0 h0 Hm M O Ln|b inc' s n r0 g0 t0 h0 r' al Qi Ao Rd|s n r0 g0 t0 h0 x r' al Ao Rd Nx];
    cbn [sd_shared sd_sent sd_todo] in *; try discriminate; subst t0.
  - rewrite app_nil_r in IH. destruct (IH Lo eq_refl r got heard) as (Run & Q & L2). split; [|auto].
    eapply flow_more; [|exact Run]. eapply flow_moves; eassumption.
  - destruct (IH ltac:(rewrite len_app, len_take; lia) eq_refl r got heard) as (Run & Q & L2). split; [|auto].
    eapply flow_more; [|exact Run]. eapply flow_puts; try eassumption; lia.
  - destruct (IH ltac:(rewrite len_app, len_drop; lia) eq_refl r got heard) as (Run & Q & L2). split; [|auto].
    eapply flow_more; [|exact Run]. eapply flow_puts_last; try eassumption; lia.
Qed.

(** The decoys fill the pipe; then the application drops the writer. *)
Theorem drop_waits s n p r got heard cap k : restless R -> resting s -> n = 0 ->
  decoy_strategy (sh_config (st_shaper s)) = Random -> len p <= cap ->
  counted k (pw_cipher (st_writer s)) -> room (k + (cap - len p)) ->
  exists st, flow_run (flow_step cap) (Flow s n p r got heard) st /\ app_at (fl_shared st) = AppJoin /\
    forall st', flow_goes cap st st' -> fl_shared st' = fl_shared st /\ fl_sent st' = fl_sent st /\
      ((exists b, fl_pipe st = b :: fl_pipe st') \/ exists x, fl_heard st' = fl_heard st ++ [x]).
Proof.
  intros Rs Re -> C Lp Hc Hr.
  destruct (fills_up Rs _ s r got [] heard cap [] p k (le_n _) Lp Re C Hc Hr) as (s1 & n1 & p1 & So & Fp & (Lk & A & d & s2 & out & T & M & O & Ln)).
  destruct (solo_flow _ _ _ _ _ _ _ So Lp eq_refl r got heard) as (Run & _ & _). cbn [sd_shared sd_sent] in Run.
  exists (Flow (set_app (set_shutdown s1) AppJoin) n1 p1 r got heard). split; [|split; [reflexivity|]].
  - assert (T1 : forall x y z : @flow G, flow_run (flow_step cap) x y -> flow_step cap y z -> flow_run (flow_step cap) x z).
    { intros x y z H. induction H; intros; [eapply flow_more; [eassumption|constructor]|]. eapply flow_more; eauto. }
    eapply T1; [apply goes_steps; exact Run|]. apply flow_drop. cbn [do_move]. now rewrite A.
  - assert (Mv : forall m s', m = App \/ m = Thread -> do_move (set_app (set_shutdown s1) AppJoin) m = Some s' ->
      output s' = output s1 ++ out).
    { intros m s' [->| ->] Q; cbn [do_move] in Q.
      - unfold app_step in Q. cbn [app_at set_app thread_at set_shutdown] in Q. rewrite T in Q. discriminate.
      - cbn [do_move] in M. unfold thread_step in M, Q. cbn [thread_at set_app set_shutdown st_writer] in Q. rewrite T in M, Q.
        injection M as <-. injection Q as <-. rewrite <- O. unfold output.
        destruct (sync_write (st_writer s1) d) as [[x w']| |]; reflexivity. }
    intros st' H. inversion H as [m0 s0 s0' n0 p0 r0 g0 h0 Hm M0 O0|m0 s0 s0' o0 k0 n0 p0 r0 g0 h0 Hm M0 O0 Hk Fit L0|
      m0 s0 s0' o0 n0 p0 r0 g0 h0 Hm M0 O0 L0 Fit|s0 n0 b0 p0 r0 g0 h0 r' al Rd|s0 n0 p0 r0 g0 h0 x r' al Rd Nx]; subst;
      cbn [fl_shared fl_sent fl_pipe fl_heard]; eauto; exfalso; pose proof (Mv _ _ Hm M0) as Q; rewrite O0 in Q.
    + change (output (set_app (set_shutdown s1) AppJoin)) with (output s1) in Q.
      rewrite <- app_nil_r in Q at 1. apply app_inv_head in Q. subst out. rewrite len_nil in Ln. lia.
    + lia.
    + change (output (set_app (set_shutdown s1) AppJoin)) with (output s1) in Q. apply app_inv_head in Q. subst o0. lia.
Qed.

End WithLaws.
