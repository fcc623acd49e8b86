(** * UnsplitProofs: a session that is not split behaves as its two halves *)
From Coq Require Import List NArith Bool Lia.
From Coq.Strings Require Import Byte.
From Verif Require Import Base BaseFacts Env FsChacha Cipher Histories CipherProofs Handshake Transport Io Futures
  FuturesProofs Sessions SessionProofs EndpointProofs ReaderProofs SpecUnsplit.
Import ListNotations.
Local Open Scope N_scope.

Section Unsplit.
Context {E : Env} {EL : EnvLaws E}.

(** ** Blocking *)

Theorem unsplit_is_split : forall us p rs r ws w,
  read_many (use_reads us) (RSync (p_reader p)) = Ret (rs, r) ->
  write_many Sync (p_writer p) (use_writes us) = Ret (ws, w) ->
  exists gs r', r = RSync r' /\ unsplit us p = Ret (gs, Protocol r' w) /\
    got_reads gs = rs /\ got_writes gs = ws /\ Forall2 answers_use us gs.
Proof.
  induction us as [|[|pl] us IH]; intros p rs r ws w Hr Hw.
  - cbn in *. injection Hr as <- <-. injection Hw as <- <-. exists [], (p_reader p). destruct p. repeat split. constructor.
  - change (use_reads (UseRead :: us)) with (S (use_reads us)) in Hr. cbn [read_many read_any] in Hr.
    apply bind_ret_inv in Hr. destruct Hr as ([x r1] & Q & Hr).
    apply bind_ret_inv in Q. destruct Q as ([[y r2] a] & Q & Q'). injection Q' as <- <-.
    apply bind_ret_inv in Hr. destruct Hr as ([xs r3] & Hr & Hx). injection Hx as <- <-.
    destruct (IH (Protocol r2 (p_writer p)) _ _ _ _ Hr Hw) as (gs & r' & -> & U & G1 & G2 & F).
    exists (GotRead y :: gs), r'. cbn [unsplit]. unfold protocol_read. rewrite Q. cbn [bind]. rewrite U. cbn [bind].
    split; [reflexivity|]. split; [reflexivity|]. cbn [got_reads got_writes flat_map app].
    unfold got_reads in G1. unfold got_writes in G2. rewrite G1, G2. repeat split. now constructor.
  - change (use_writes (UseWrite pl :: us)) with (pl :: use_writes us) in Hw. cbn [write_many write_any] in Hw.
    apply bind_ret_inv in Hw. destruct Hw as ([x w1] & Q & Hw).
    apply bind_ret_inv in Hw. destruct Hw as ([xs w2] & Hw & Hx). injection Hx as <- <-.
    destruct (IH (Protocol (p_reader p) w1) _ _ _ _ Hr Hw) as (gs & r' & -> & U & G1 & G2 & F).
    exists (GotWrite x :: gs), r'. cbn [unsplit]. unfold protocol_write. rewrite Q. cbn [bind]. rewrite U. cbn [bind].
    split; [reflexivity|]. split; [reflexivity|]. cbn [got_reads got_writes flat_map app].
    unfold got_reads in G1. unfold got_writes in G2. rewrite G1, G2. repeat split. now constructor.
Qed.

(** ** Asynchronous *)

Lemma poll_ready_fresh f r x r' f' : poll_read f r = Ret (Ready x, r', f') -> f' = FreshFuture.
Proof.
  assert (P : forall c sr pb n, phase_payload c sr pb n = Ret (Ready x, r', f') -> f' = FreshFuture).
  { intros c sr pb n H. unfold phase_payload in H. apply bind_ret_inv in H. destruct H as ([[[y sr'] pb'] n'] & _ & H).
    destruct y; [|discriminate|now injection H].
    apply bind_ret_inv in H. destruct H as (m & _ & H). apply bind_ret_inv in H. destruct H as ([[z c'] b] & _ & H).
    destruct z; [|now injection H]. apply bind_ret_inv in H. destruct H as (p & _ & H). now injection H. }
  assert (L : forall c sr lb n, phase_length c sr lb n = Ret (Ready x, r', f') -> f' = FreshFuture).
  { intros c sr lb n H. unfold phase_length in H. apply bind_ret_inv in H. destruct H as ([[[y sr'] lb'] n'] & _ & H).
    destruct y; [|discriminate|now injection H].
    apply bind_ret_inv in H. destruct H as ([m c'] & _ & H). eapply P; eassumption. }
  intros H. unfold poll_read in H. destruct f, (tr_state r); try discriminate; eauto.
Qed.

Lemma run_schedule_app : forall a1 a2 f r,
  run_schedule (a1 ++ a2) f r =
  let! (xs, r1, f1) := run_schedule a1 f r in
  let! (ys, r2, f2) := run_schedule a2 f1 r1 in Ret (xs ++ ys, r2, f2).
Proof.
  induction a1 as [|[|] a1 IH]; intros a2 f r; cbn [app run_schedule bind].
  - destruct (run_schedule a2 f r) as [[[ys r2] f2]| |]; reflexivity.
  - destruct (poll_read f r) as [[[x r1] f1]| |]; cbn [bind]; try reflexivity. rewrite IH.
    destruct (run_schedule a1 f1 r1) as [[[ys r2] f2]| |]; cbn [bind]; try reflexivity.
    destruct (run_schedule a2 f2 r2) as [[[zs r3] f3]| |]; cbn [bind]; try reflexivity. now destruct x.
  - apply IH.
Qed.

(** What the reader sees of one use. *)
Lemma async_step_reader u b p gs b' p' :
  async_step u b p = Ret (Some (gs, b', p')) ->
  run_schedule (reader_part [u]) (read_borrow b) (t_reader p) = Ret (got_reads gs, t_reader p', read_borrow b').
Proof.
  intros H. destruct u as [|pl| |].
  - assert ((let! (x, p, f) := protocol_poll_read (read_borrow b) p in
            Ret (Some match x with Ready a => ([GotRead a], NotBorrowed, p) | NotReady => ([], ByRead f, p) end))
            = Ret (Some (gs, b', p'))) as H' by (destruct b; [exact H|exact H|discriminate H]).
    clear H. apply bind_ret_inv in H'. destruct H' as ([[x p1] f1] & Q & H). unfold protocol_poll_read in Q.
    apply bind_ret_inv in Q. destruct Q as ([[y r1] f2] & Q & Q'). injection Q' as <- <- <-.
    cbn [reader_part flat_map app run_schedule]. rewrite Q. cbn [bind].
    destruct y as [a|]; injection H as <- <- <-; cbn [got_reads flat_map app read_borrow t_reader]; [|reflexivity].
    now rewrite (poll_ready_fresh _ _ _ _ _ Q).
  - destruct b; try discriminate H. cbn [async_step] in H. apply bind_ret_inv in H. destruct H as ([[x p1] f1] & Q & H).
    unfold protocol_start_write in Q. apply bind_ret_inv in Q. destruct Q as ([y w1] & _ & Q).
    assert (t_reader p1 = t_reader p) as Er.
    { destruct y as [f|e]; [|now injection Q as _ <- _]. injection Q as Q. unfold protocol_poll_write in Q.
      destruct (poll_write f _) as [[z w2] f2]. injection Q as _ <- _. reflexivity. }
    destruct x as [a|]; injection H as <- <- <-; cbn; now rewrite Er.
  - destruct b as [| |f]; try discriminate H. cbn [async_step] in H. unfold protocol_poll_write in H.
    destruct (poll_write f (t_writer p)) as [[[a|] w1] f1]; injection H as <- <- <-; reflexivity.
  - assert (Ret (Some ([], NotBorrowed, p)) = Ret (Some (gs, b', p'))) as H' by (destruct b; exact H).
    injection H' as <- <- <-. reflexivity.
Qed.

Theorem async_reader : forall us b p gs b' p',
  async_unsplit us b p = Ret (Some (gs, b', p')) ->
  run_schedule (reader_part us) (read_borrow b) (t_reader p) = Ret (got_reads gs, t_reader p', read_borrow b').
Proof.
  induction us as [|u us IH]; intros b p gs b' p' H; cbn [async_unsplit] in H.
  - injection H as <- <- <-. reflexivity.
  - apply bind_ret_inv in H. destruct H as (x & Q & H). destruct x as [[[g1 b1] p1]|]; [|discriminate].
    apply bind_ret_inv in H. destruct H as (y & Q2 & H). destruct y as [[[g2 b2] p2]|]; [|discriminate].
    injection H as <- <- <-. change (u :: us) with ([u] ++ us). unfold reader_part. rewrite flat_map_app.
    fold (reader_part [u]). fold (reader_part us). rewrite run_schedule_app, (async_step_reader _ _ _ _ _ _ Q).
    cbn [bind]. rewrite (IH _ _ _ _ _ Q2). cbn [bind]. unfold got_reads. now rewrite flat_map_app.
Qed.

(** The result a write in progress will have, and the writer after it. *)
Definition settle (b : borrow) (w : pwriter) : list (result perror unit) * pwriter :=
  match b with
  | ByWrite f => let '(x, w') := finish_write f w in ([x], w')
  | _ => ([], w)
  end.

Lemma start_is_write p pl x p1 : start_write p pl = Ret (x, p1) ->
  tokio_write p pl = Ret match x with Err e => (Err (Internal e), p1) | Ok f => finish_write f p1 end.
Proof.
  intros H. unfold start_write in H. unfold tokio_write. apply bind_ret_inv in H. destruct H as (ct & -> & H).
  apply bind_ret_inv in H. destruct H as (t & -> & H). cbn [bind].
  apply bind_ret_inv in H. destruct H as ([[y c] pkt] & -> & H). cbn [bind].
  destruct y; injection H as <- <-; [|reflexivity].
  unfold finish_write. cbn [pw_writer pw_cipher]. destruct (write_flush Tokio (pw_writer p) pkt) as [z w]. reflexivity.
Qed.

Lemma poll_settles f w x w' f' : poll_write f w = (x, w', f') ->
  finish_write f w = match x with Ready a => (a, w') | NotReady => finish_write f' w' end.
Proof.
  intros H. pose proof (poll_write_finish f w) as Q. rewrite H in Q. destruct x; [assumption|]. now destruct Q.
Qed.

Theorem async_writer : forall us b p gs b' p',
  async_unsplit us b p = Ret (Some (gs, b', p')) -> writes_kept us b p ->
  exists ys,
    write_many Tokio (snd (settle b (t_writer p))) (begun_writes us) = Ret (ys, snd (settle b' (t_writer p'))) /\
    fst (settle b (t_writer p)) ++ ys = got_writes gs ++ fst (settle b' (t_writer p')).
Proof.
  induction us as [|u us IH]; intros b p gs b' p' H K; cbn [async_unsplit writes_kept] in *.
  - injection H as <- <- <-. exists []. cbn. now rewrite app_nil_r.
  - destruct K as [K0 K]. apply bind_ret_inv in H. destruct H as (x & Q & H). rewrite Q in K.
    destruct x as [[[g1 b1] p1]|]; [|discriminate].
    apply bind_ret_inv in H. destruct H as (y & Q2 & H). destruct y as [[[g2 b2] p2]|]; [|discriminate].
    injection H as <- <- <-. destruct (IH _ _ _ _ _ Q2 K) as (ys & W & G). clear IH Q2 K.
    unfold got_writes. rewrite flat_map_app. fold (got_writes g1). fold (got_writes g2).
    destruct u as [|pl| |].
    + assert ((let! (x, p, f) := protocol_poll_read (read_borrow b) p in
            Ret (Some match x with Ready a => ([GotRead a], NotBorrowed, p) | NotReady => ([], ByRead f, p) end))
            = Ret (Some (g1, b1, p1)) /\ settle b (t_writer p) = ([], t_writer p)) as [H' ->]
        by (destruct b; [split; [exact Q|reflexivity]|split; [exact Q|reflexivity]|discriminate Q]).
      clear Q. apply bind_ret_inv in H'. destruct H' as ([[x p3] f1] & Q & H). unfold protocol_poll_read in Q.
      apply bind_ret_inv in Q. destruct Q as ([[y r1] f2] & _ & Q'). injection Q' as <- <- <-.
      cbn [begun_writes flat_map app]. fold (begun_writes us).
      destruct y as [a|]; injection H as <- <- <-; cbn [settle snd fst t_writer got_writes flat_map app] in *; eauto.
    + destruct b; try discriminate Q. cbn [async_step] in Q. apply bind_ret_inv in Q. destruct Q as ([[x p3] f1] & Q & H).
      unfold protocol_start_write in Q. apply bind_ret_inv in Q. destruct Q as ([y w1] & S & Q).
      pose proof (start_is_write _ _ _ _ S) as Tw.
      cbn [begun_writes flat_map app]. fold (begun_writes us). cbn [settle fst snd app] in *.
      cbn [write_many write_any]. rewrite Tw.
      destruct y as [f|e]; cbn [t_reader t_writer] in Q.
      * injection Q as Q. unfold protocol_poll_write in Q. cbn [t_reader t_writer] in Q.
        destruct (poll_write f w1) as [[z w2] f2] eqn:P. pose proof (poll_settles _ _ _ _ _ P) as ->.
        injection Q as -> <- ->. destruct x as [a|]; injection H as <- <- <-; cbn [settle fst snd t_writer] in *.
        -- cbn [bind]. rewrite W. cbn [bind]. eexists. split; [reflexivity|]. cbn [got_writes flat_map app] in *. now rewrite <- G.
        -- destruct (finish_write f1 w2) as [a w3]. cbn [bind fst snd] in *. rewrite W. cbn [bind].
           eexists. split; [reflexivity|]. cbn [got_writes flat_map app] in *. exact G.
      * injection Q as <- <- <-. injection H as <- <- <-. cbn [settle fst snd t_writer] in *.
        cbn [bind]. rewrite W. cbn [bind]. eexists. split; [reflexivity|]. cbn [got_writes flat_map app] in *. now rewrite <- G.
    + destruct b as [| |f]; try discriminate Q. cbn [async_step] in Q. unfold protocol_poll_write in Q.
      destruct (poll_write f (t_writer p)) as [[z w2] f2] eqn:P. pose proof (poll_settles _ _ _ _ _ P) as Fw.
      cbn [begun_writes flat_map app]. fold (begun_writes us). cbn [settle]. rewrite Fw.
      destruct z as [a|]; injection Q as <- <- <-; cbn [settle fst snd t_writer] in *.
      * exists ys. split; [assumption|]. cbn [got_writes flat_map app] in *. now rewrite <- G.
      * destruct (finish_write f2 w2) as [a w3]. cbn [fst snd] in *. exists ys. split; [assumption|]. exact G.
    + assert (Ret (Some ([], NotBorrowed, p)) = Ret (Some (g1, b1, p1))) as H' by (destruct b; exact Q).
      injection H' as <- <- <-. cbn [begun_writes flat_map app]. fold (begun_writes us).
      assert (settle b (t_writer p) = ([], t_writer p)) as ->.
      { destruct b as [| |f]; try reflexivity. destruct (K0 eq_refl f eq_refl). }
      exists ys. cbn [settle fst snd app got_writes flat_map] in *. auto.
Qed.

(** Nothing panics. *)
Definition sound_use (u : async_use) : Prop :=
  match u with StartWrite pl => exists v, payload_view pl = Ret v | _ => True end.

Lemma start_write_total p pl k v : counted k (pw_cipher p) -> room k -> payload_view pl = Ret v ->
  exists x p', start_write p pl = Ret (x, p') /\ counted (k + 1) (pw_cipher p').
Proof.
  intros C R V. destruct v as [t ct]. unfold payload_view in V. apply bind_ret_inv in V. destruct V as (t' & T & V).
  apply bind_ret_inv in V. destruct V as (ct' & Ct & V). injection V as -> ->.
  destruct (encrypt_vec_ret k (pw_cipher p) ct t None C R) as (pkt & c' & En & C').
  unfold start_write. rewrite Ct, T. cbn [bind]. change (encryption_buffer_len (len ct)) with (len ct + 20).
  rewrite encrypt_exact, En. cbn [bind]. eauto.
Qed.

Lemma poll_write_cipher f p x p' f' : poll_write f p = (x, p', f') -> pw_cipher p' = pw_cipher p.
Proof.
  intros H. destruct (polls_write_prefix 1 f p (match x with Ready a => Some a | NotReady => None end) p') as [Q _];
    [|exact Q].
  cbn [polls_write]. rewrite H. now destruct x.
Qed.

Theorem async_total : forall us b p c wire k,
  stands (t_reader p) c wire -> future_fits (read_borrow b) (t_reader p) -> counted k c -> counted k (pw_cipher (t_writer p)) ->
  room (k + len us) -> Forall sound_use us ->
  exists y, async_unsplit us b p = Ret y.
Proof.
  induction us as [|u us IH]; intros b p c wire k S Fit C Cw Hr F; cbn [async_unsplit]; [eauto|].
  rewrite len_cons in Hr. assert (room k) as Hr0 by (intros Ho; specialize (Hr Ho); lia).
  assert (room (k + 1 + len us)) as Hr1 by (intros Ho; specialize (Hr Ho); lia).
  assert (counted (k + 1) c) as C1 by (eapply counted_mono; [|eassumption]; lia).
  assert (counted (k + 1) (pw_cipher (t_writer p))) as Cw1 by (eapply counted_mono; [|eassumption]; lia).
  inversion F as [|? ? F1 F2]; subst.
  assert (Go : forall gs b' p' c' wire', stands (t_reader p') c' wire' -> future_fits (read_borrow b') (t_reader p') ->
    counted (k + 1) c' -> counted (k + 1) (pw_cipher (t_writer p')) ->
    exists y, (let! y := async_unsplit us b' p' in
      Ret match y with None => None | Some (gs', b, p) => Some (gs ++ gs', b, p) end) = Ret y).
  { intros gs b' p' c' wire' S' Fit' C' Cw'. destruct (IH b' p' c' wire' (k + 1)) as (y & ->); try assumption.
    cbn [bind]. eauto. }
  destruct u as [|pl| |]; cbn [async_step].
  - assert (Rd : exists x r1 f1 c1 w1, poll_read (read_borrow b) (t_reader p) = Ret (x, r1, f1) /\
      stands r1 c1 w1 /\ counted (k + 1) c1 /\ future_fits f1 r1).
    { destruct (poll_total _ _ c wire k S Fit C Hr0) as (x & r1 & f1 & P).
      destruct (poll_sound _ _ _ _ _ _ _ S Fit P) as ([O _] & Fit1 & _).
      exists x, r1, f1.
      assert (exists c1 w1, stands r1 c1 w1 /\ counted (k + 1) c1) as (c1 & w1 & S1 & Hc1).
      { destruct x as [[q|[k0 s|e]]|].
        - destruct O as (hd & contents & c1 & rest & _ & R & S1 & _).
          destruct (recv_one_total k c None wire C Hr0) as (p1 & c2 & rest2 & R2 & Hc2).
          rewrite R in R2. injection R2 as _ <- _. eauto.
        - destruct O; eauto.
        - destruct O; eauto.
        - destruct O; eauto. }
      eauto 6. }
    destruct Rd as (x & r1 & f1 & c1 & w1 & P & S1 & Hc1 & Fit1). unfold protocol_poll_read.
    destruct b as [|f|f].
    + cbn [read_borrow] in *. rewrite P. cbn [bind]. destruct x as [a|].
      * apply (Go _ _ _ c1 w1); try assumption.
      * apply (Go _ _ _ c1 w1); assumption.
    + cbn [read_borrow] in *. rewrite P. cbn [bind]. destruct x as [a|].
      * apply (Go _ _ _ c1 w1); try assumption.
      * apply (Go _ _ _ c1 w1); assumption.
    + cbn [bind]. eauto.
  - destruct b; try (cbn [bind]; eauto; fail).
    destruct F1 as (v & V). destruct (start_write_total _ _ _ _ Cw Hr0 V) as (x & w1 & Q & Cw2).
    unfold protocol_start_write. rewrite Q. cbn [bind]. destruct x as [f|e].
    + unfold protocol_poll_write. cbn [t_reader t_writer]. destruct (poll_write f w1) as [[z w2] f2] eqn:P.
      pose proof (poll_write_cipher _ _ _ _ _ P) as Ec. cbn [bind].
      destruct z as [a|]; apply (Go _ _ _ c wire); cbn [t_reader t_writer read_borrow]; try assumption; try exact I; now rewrite Ec.
    + cbn [bind]. apply (Go _ _ _ c wire); cbn [t_reader t_writer read_borrow]; try assumption; exact I.
  - destruct b as [| |f]; try (cbn [bind]; eauto; fail).
    unfold protocol_poll_write. destruct (poll_write f (t_writer p)) as [[z w2] f2] eqn:P.
    pose proof (poll_write_cipher _ _ _ _ _ P) as Ec. cbn [bind].
    destruct z as [a|]; apply (Go _ _ _ c wire); cbn [t_reader t_writer read_borrow]; try assumption; try exact I; now rewrite Ec.
  - destruct b; cbn [bind]; apply (Go _ _ _ c wire); cbn [read_borrow]; try assumption; exact I.
Qed.

End Unsplit.

(** ** Raw reads *)

Lemma read_err_content s n k s' : read s n = (ReadErr k, s') -> content s = content s'.
Proof.
  induction s as [|[bs|k0|] s IH]; cbn [read]; intros H; try discriminate.
  - destruct (len bs <=? n); discriminate.
  - now injection H as _ <-.
  - now apply IH.
Qed.

Lemma session_read_content sr n x sr' : 0 < n -> session_read sr n = (x, sr') ->
  session_content sr = (match x with Data bs => bs | ReadErr _ => [] end) ++ session_content sr'.
Proof.
  intros Hn H. destruct x as [bs|k].
  - now destruct (session_read_delivers _ _ _ _ Hn H).
  - destruct sr as [cur [|] s|l pos s]; cbn [session_read] in H.
    + destruct (read s n) as [x s'] eqn:R. injection H as -> <-. exact (read_err_content _ _ _ _ R).
    + destruct cur as [|b cur]; [|discriminate].
      destruct (read s n) as [x s'] eqn:R. injection H as -> <-. exact (read_err_content _ _ _ _ R).
    + destruct (pos <? len l); [discriminate|].
      destruct (read s n) as [x s'] eqn:R. injection H as -> <-. cbn [session_content app].
      now rewrite (read_err_content _ _ _ _ R).
Qed.
