(** * IoRunProofs: what a completed I/O handshake is; two endpoints; synchronous reads; writes *)
From Coq Require Import List NArith Bool Lia ZArith.
From Coq.Strings Require Import Byte.
From Coq Require Import ZifyBool ZifyNat ZifyN.
From Verif Require Import Base BaseFacts Env FsChacha Spec FsChachaProofs Cipher CipherFacts
  Histories CipherProofs Handshake SpecHandshake HsDriver HandshakeProofs HsRunProofs
  Transport Io SpecIo Futures Sessions TransportProofs NoFuel IoProofs FuturesProofs.
Import ListNotations.
Local Open Scope N_scope.

Section WithEnv.
Context {E : Env}.

(** ** One received packet *)

Lemma recv_one_parts c a wire t x c' rest :
  recv_one c a wire = Ret (Some (t, x), c', rest) ->
  exists c1, decrypt_packet_len c (take 3 wire) = Ret (len x + 17, c1) /\
    len wire = len x + 20 + len rest /\ rest = drop (len x + 20) wire.
Proof.
  unfold recv_one. destruct (len wire <? 3) eqn:L3; [discriminate|].
  destruct (decrypt_packet_len _ _) as [[n c1]| |] eqn:D; cbn [bind]; try discriminate.
  assert (17 <= n) as Hn.
  { apply packet_len_range in D; [lia|]. rewrite len_take. lia. }
  destruct (len (drop 3 wire) <? n) eqn:Ln; [discriminate|].
  assert (len (take n (drop 3 wire)) = n) as L1 by (autorewrite with len in *; lia).
  intros H. apply bind_ret_inv in H. destruct H as ([[z c2] buf] & H & K).
  rewrite <- L1 in H at 2. apply decrypt_body in H; [|lia]. destruct z as [t'|e]; [|discriminate].
  destruct H as (hd & contents & -> & -> & Lc).
  change (drop 1 (hd :: contents)) with contents in K. injection K as <- -> <- <-.
  assert (len x + 17 = n) as Ex by lia. exists c1. rewrite Ex. split; [reflexivity|].
  rewrite drop_drop. replace (3 + n) with (len x + 20) by lia. split; [|reflexivity].
  autorewrite with len in *. lia.
Qed.

Lemma pure_step fuel h wire t x c rest e a :
  recv_one (inbound (rg_cipher (hs_state h))) (remote_garbage (hs_state h)) wire =
    Ret (Some (t, x), c, rest) ->
  pure_versions (S fuel) h wire e a =
  if MAX_PACKET_SIZE_FOR_ALLOCATION <? len x + 17 then Ret (Err (Internal PacketTooBig), a) else
  match t with
  | Genuine => Ret (Ok (c, outbound (rg_cipher (hs_state h)), (rest, e)), a ++ [len x + 17])
  | Decoy => pure_versions fuel (with_inbound h None c) rest e (a ++ [len x + 17])
  end.
Proof.
  intros H. destruct (recv_one_parts _ _ _ _ _ _ _ H) as (c1 & D & L & R).
  unfold recv_one in H. cbn [pure_versions].
  rewrite (proj2 (N.ltb_ge _ _)) in * by lia.
  unfold hs_decrypt_packet_len in *. rewrite D in *. cbn [bind] in *.
  assert (len (drop 3 wire) <? len x + 17 = false) as Ln by (rewrite len_drop; lia).
  rewrite Ln in *.
  destruct (MAX_PACKET_SIZE_FOR_ALLOCATION <? len x + 17) eqn:Cap; [reflexivity|].
  unfold receive_version. cbn [hs_state remote_garbage rg_cipher inbound].
  set (n := len x + 17) in *.
  set (ct := take n (drop 3 wire)) in *.
  assert (len ct = n) as Hct by (unfold ct; rewrite len_take; lia).
  pose proof (decrypt_agree c1 ct (zeros (n - 16)) (remote_garbage (hs_state h))) as A.
  specialize (A ltac:(lia) ltac:(rewrite len_zeros; lia)).
  destruct (decrypt_in_place c1 ct _) as [[[y c2] b]| |] eqn:P; cbn [bind] in *.
  - destruct y as [[t' pt]|e'].
    + destruct A as [A _]. rewrite A in H. cbn [bind] in H. injection H as <- _ <- <-.
      destruct t'; reflexivity.
    + destruct A as [(e'' & A) _]. rewrite A in H. cbn [bind] in H. discriminate.
  - rewrite A in H. discriminate.
  - contradiction.
Qed.

Lemma pure_inv fuel h wire e a y a' :
  pure_versions (S fuel) h wire e a = Ret (Ok y, a') ->
  exists t x c rest, recv_one (inbound (rg_cipher (hs_state h))) (remote_garbage (hs_state h)) wire =
    Ret (Some (t, x), c, rest).
Proof.
  intros H. unfold recv_one. cbn [pure_versions] in H.
  destruct (len wire <? 3) eqn:L3; [discriminate|].
  unfold hs_decrypt_packet_len in H.
  destruct (decrypt_packet_len _ _) as [[n c1]| |] eqn:D; cbn [bind] in *; try discriminate.
  assert (17 <= n) as Hn.
  { apply packet_len_range in D; [lia|]. rewrite len_take. lia. }
  destruct (_ <? n); [discriminate|].
  destruct (len (drop 3 wire) <? n) eqn:Ln; [discriminate|].
  unfold receive_version in H. cbn [hs_state remote_garbage rg_cipher inbound] in H.
  set (ct := take n (drop 3 wire)) in *.
  assert (len ct = n) as Hct by (unfold ct; rewrite len_take; lia).
  pose proof (decrypt_agree c1 ct (zeros (n - 16)) (remote_garbage (hs_state h))) as A.
  specialize (A ltac:(lia) ltac:(rewrite len_zeros; lia)).
  destruct (decrypt_in_place c1 ct _) as [[[x c2] b]| |] eqn:P; cbn [bind] in *; try discriminate.
  destruct x as [[t pt]|e']; [|discriminate].
  destruct A as [A _]. rewrite A. cbn [bind]. eauto.
Qed.

Theorem pure_versions_iff : forall fuel h wire e a i o rest e' a',
  (length wire < fuel)%nat ->
  pure_versions fuel h wire e a = Ret (Ok (i, o, (rest, e')), a') <->
  e' = e /\ exists ds x,
    Forall is_decoy_packet ds /\
    recv_all (inbound (rg_cipher (hs_state h)))
      (remote_garbage (hs_state h) :: repeat None (length ds)) wire =
      Ret (Some (ds ++ [(Genuine, x)]), i, rest) /\
    o = outbound (rg_cipher (hs_state h)) /\
    Forall fits (ds ++ [(Genuine, x)]) /\
    a' = a ++ map (fun p => len (snd p) + 17) (ds ++ [(Genuine, x)]).
Proof.
  unfold fits. change MAX_PACKET_SIZE_FOR_ALLOCATION with 4000014.
  induction fuel as [|fuel IH]; intros h wire e a i o rest e' a' Hf; [lia|]. split.
  - intros H. destruct (pure_inv _ _ _ _ _ _ _ H) as (t & x & ic & rest' & R).
    rewrite (pure_step _ _ _ _ _ _ _ _ _ R) in H.
    change MAX_PACKET_SIZE_FOR_ALLOCATION with 4000014 in H.
    pose proof (recv_one_len _ _ _ _ _ _ R) as RL. unfold len in RL.
    destruct (4000014 <? len x + 17) eqn:Cap; [discriminate|].
    destruct t.
    + injection H as <- <- <- <- <-. split; [reflexivity|]. exists [], x. split; [constructor|]. split.
      { cbn [recv_all length repeat app]. rewrite R. reflexivity. }
      split; [reflexivity|]. split; [|reflexivity]. constructor; [cbn [snd]; lia|constructor].
    + apply IH in H; [|lia]. destruct H as (-> & ds & y & Hd & Ha & -> & Hs & ->).
      split; [reflexivity|]. exists ((Decoy, x) :: ds), y. split; [now constructor|]. split.
      { cbn [length repeat app]. cbn [recv_all]. rewrite R. cbn [bind].
        cbn [with_inbound hs_state rg_cipher inbound remote_garbage] in Ha.
        cbn [recv_all] in Ha. rewrite Ha. reflexivity. }
      split; [reflexivity|]. split; [constructor; [cbn [snd]; lia|assumption]|].
      rewrite <- app_assoc. reflexivity.
  - intros (-> & ds & x & Hd & Ha & -> & Hs & ->). cbn [recv_all] in Ha.
    apply bind_ret_inv in Ha. destruct Ha as ([[[[t y]|] ic1] rest1] & R & Ha); [|discriminate].
    rewrite (pure_step _ _ _ _ _ _ _ _ _ R). change MAX_PACKET_SIZE_FOR_ALLOCATION with 4000014.
    pose proof (recv_one_len _ _ _ _ _ _ R) as RL. unfold len in RL.
    destruct ds as [|[t' d] ds]; cbn [length repeat recv_all app] in Ha.
    + cbn [bind] in Ha. injection Ha as -> -> <- <-. inversion Hs as [|? ? S1 S2]; subst. cbn [snd] in S1.
      rewrite (proj2 (N.ltb_ge _ _)) by lia. reflexivity.
    + inversion Hd as [|? ? H1 H2]; subst. unfold is_decoy_packet in H1. cbn [fst] in H1. subst t'.
      apply bind_ret_inv in Ha. destruct Ha as ([[oo ic2] rest2] & Ha & Hb).
      destruct oo as [l|]; [|discriminate]. injection Hb as -> <- K3 K4 K5. subst.
      cbn [app] in Hs. inversion Hs as [|? ? S1 S2]; subst. cbn [snd] in S1.
      rewrite (proj2 (N.ltb_ge _ _)) by lia.
      apply IH; [lia|]. split; [reflexivity|]. exists ds, x. split; [assumption|].
      split; [exact Ha|]. split; [reflexivity|]. split; [assumption|].
      rewrite <- app_assoc. reflexivity.
Qed.

(** ** A completed handshake *)

Lemma recv_one_frame c a w p c' rest more :
  recv_one c a w = Ret (Some p, c', rest) -> recv_one c a (w ++ more) = Ret (Some p, c', rest ++ more).
Proof.
  destruct p as [t x]. intros H. destruct (recv_one_parts _ _ _ _ _ _ _ H) as (c1 & D & L & R).
  unfold recv_one in *. rewrite (proj2 (N.ltb_ge _ _)) in H by (rewrite ?len_app; lia).
  rewrite (proj2 (N.ltb_ge _ _)) by (rewrite ?len_app; lia).
  rewrite take_app_le by lia. rewrite D in *. cbn [bind] in *.
  rewrite drop_app_le by lia.
  rewrite (proj2 (N.ltb_ge _ _)) in H by (autorewrite with len; lia).
  rewrite (proj2 (N.ltb_ge _ _)) by (autorewrite with len; lia).
  rewrite take_app_le, drop_app_le by (autorewrite with len; lia).
  destruct (decrypt _ _ _ _) as [[[[t'|e'] c2] b]| |]; cbn [bind] in *; try discriminate.
  injection H as H1 H2 H3 H4. now rewrite H1, H2, H3, H4.
Qed.

Lemma recv_one_unframe c a w p c' rest :
  recv_one c a w = Ret (Some p, c', rest) ->
  exists u, w = u ++ rest /\ recv_one c a u = Ret (Some p, c', []).
Proof.
  destruct p as [t x]. intros H. destruct (recv_one_parts _ _ _ _ _ _ _ H) as (c1 & D & L & R).
  exists (take (len x + 20) w). split; [now rewrite R, take_drop|].
  set (u := take (len x + 20) w) in *. assert (len u = len x + 20) as Lu by (unfold u; rewrite len_take; lia).
  assert (take 3 u = take 3 w) as T3 by (unfold u; rewrite take_take; f_equal; lia).
  assert (take (len x + 17) (drop 3 u) = take (len x + 17) (drop 3 w)) as Tn.
  { assert (w = u ++ rest) as Q by (now unfold u; rewrite R, take_drop). clearbody u. subst w.
    rewrite drop_app_le, take_app_le by (autorewrite with len; lia). reflexivity. }
  unfold recv_one in *. rewrite T3. rewrite D in *. cbn [bind] in *.
  rewrite (proj2 (N.ltb_ge _ _)) in H by lia.
  rewrite (proj2 (N.ltb_ge _ _)) by lia.
  rewrite (proj2 (N.ltb_ge _ _)) in H by (rewrite len_drop; lia).
  rewrite (proj2 (N.ltb_ge _ _)) by (rewrite len_drop; lia).
  rewrite Tn.
  destruct (decrypt _ _ _ _) as [[[[t'|e'] c2] b]| |]; cbn [bind] in *; try discriminate.
  injection H as H1 H2 H3 _. rewrite (drop_all (len x + 17)) by (rewrite len_drop; lia). now rewrite H1, H2, H3.
Qed.

Lemma recv_all_frame : forall aads c w ps c' rest more,
  recv_all c aads w = Ret (Some ps, c', rest) ->
  recv_all c aads (w ++ more) = Ret (Some ps, c', rest ++ more).
Proof.
  induction aads as [|a aads IH]; intros c w ps c' rest more H; cbn [recv_all] in *.
  - injection H as <- <- <-. reflexivity.
  - apply bind_ret_inv in H. destruct H as ([[[p|] c1] r1] & R & H); [|discriminate].
    rewrite (recv_one_frame _ _ _ _ _ _ more R). cbn [bind].
    apply bind_ret_inv in H. destruct H as ([[[l|] c2] r2] & R2 & H); [|discriminate].
    rewrite (IH _ _ _ _ _ more R2). cbn [bind]. injection H as <- <- <-. reflexivity.
Qed.

Lemma recv_all_unframe : forall aads c w ps c' rest,
  recv_all c aads w = Ret (Some ps, c', rest) ->
  exists u, w = u ++ rest /\ recv_all c aads u = Ret (Some ps, c', []).
Proof.
  induction aads as [|a aads IH]; intros c w ps c' rest H; cbn [recv_all] in *.
  - injection H as <- <- <-. exists []. auto.
  - apply bind_ret_inv in H. destruct H as ([[[p|] c1] r1] & R & H); [|discriminate].
    apply bind_ret_inv in H. destruct H as ([[[l|] c2] r2] & R2 & H); [|discriminate].
    injection H as <- <- <-.
    destruct (recv_one_unframe _ _ _ _ _ _ R) as (u1 & -> & U1).
    destruct (IH _ _ _ _ _ R2) as (u2 & -> & U2).
    exists (u1 ++ u2). split; [now rewrite app_assoc|].
    rewrite (recv_one_frame _ _ _ _ _ _ u2 U1). cbn [bind app]. rewrite U2. reflexivity.
Qed.

Lemma finish_forward h' c e n h i o rest e' a :
  len (remote_garbage_terminator (hs_state h')) = 16 ->
  receive_garbage h' c = Ret (Ok (FoundGarbage h n)) ->
  pure_versions (S (length (drop n c))) h (drop n c) e [] = Ret (Ok (i, o, (rest, e')), a) ->
  e' = e /\ completes h' c i rest /\ o = outbound (sv_cipher (hs_state h')).
Proof.
  intros Ht G P.
  destruct (receive_garbage_cases h' c Ht) as [(j & Hj & F & K)|[(_ & _ & K)|(_ & _ & K)]];
    rewrite K in G; try discriminate. injection G as <- <-.
  apply pure_versions_iff in P; [|lia].
  destruct P as (-> & ds & x & Hd & R & -> & Hf & _).
  cbn [hs_state rg_cipher remote_garbage] in *. split; [reflexivity|]. split; [|reflexivity].
  apply recv_all_unframe in R. destruct R as (u & Hu & R).
  pose proof F as [[L T] _]. rewrite Ht in *.
  assert (len (take j c) = j) as Lj by (rewrite len_take; lia).
  exists (take j c), u, ds, x. rewrite Lj. split.
  { rewrite <- Hu. rewrite <- (take_drop j c) at 1. f_equal.
    rewrite <- (take_drop 16 (drop j c)) at 1. now rewrite T, drop_drop. }
  split; [assumption|]. split; [assumption|]. split; [|auto]. exact R.
Qed.

Lemma finish_backward h' c e i rest :
  len (remote_garbage_terminator (hs_state h')) = 16 ->
  completes h' c i rest ->
  exists h n a, receive_garbage h' c = Ret (Ok (FoundGarbage h n)) /\
  pure_versions (S (length (drop n c))) h (drop n c) e [] =
    Ret (Ok (i, outbound (sv_cipher (hs_state h')), (rest, e)), a).
Proof.
  intros Ht (g & pk & ds & x & Hc & Lg & F & R & Hd & Hf).
  pose proof (receive_garbage_found h' c (len g) Ht Lg F) as G. unfold found in G.
  eexists _, _, _. split; [exact G|].
  assert (take (len g) c = g) as -> by (rewrite Hc; now apply take_app_exact).
  assert (drop (len g + 16) c = pk ++ rest) as ->.
  { rewrite Hc, app_assoc. apply drop_app_exact. rewrite len_app. lia. }
  apply pure_versions_iff; [lia|]. split; [reflexivity|]. exists ds, x.
  cbn [hs_state rg_cipher remote_garbage].
  split; [assumption|]. split; [|split; [reflexivity|split; [assumption|reflexivity]]].
  rewrite (recv_all_frame _ _ _ _ _ _ rest R). reflexivity.
Qed.

(** ** The whole handshake *)

Lemma start_inv magic r rnd g h fa :
  party_start magic r rnd g = Ret (Ok (h, fa)) <->
  exists h0, hs_new magic r rnd = Ret (Ok h0) /\
    send_key h0 g (zeros (send_key_len g)) = Ret (Ok h, fa).
Proof.
  unfold party_start. split.
  - intros H. apply bind_ret_inv in H. destruct H as ([h0|e] & H0 & H); [|discriminate].
    apply bind_ret_inv in H. destruct H as ([[h1|e] out] & H1 & H); [|discriminate].
    injection H as <- <-. eauto.
  - intros (h0 & -> & H). cbn [bind]. rewrite H. reflexivity.
Qed.

Lemma key_inv h their d h' wa :
  party_key h their d = Ret (Ok (h', wa)) <->
  exists h0, receive_key h their = Ret (Ok h0) /\
    send_version h0 (zeros (send_version_len d)) d = Ret (Ok h', wa).
Proof.
  unfold party_key. split.
  - intros H. apply bind_ret_inv in H. destruct H as ([h0|e] & H0 & H); [|discriminate].
    apply bind_ret_inv in H. destruct H as ([[h1|e] out] & H1 & H); [|discriminate].
    injection H as <- <-. eauto.
  - intros (h0 & -> & H). cbn [bind]. rewrite H. reflexivity.
Qed.

Lemma hs_new_magic magic r rnd h : hs_new magic r rnd = Ret (Ok h) -> hs_magic h = magic.
Proof.
  unfold hs_new. destruct (_ && _)%bool; [discriminate|]. destruct (sk_valid rnd); [|discriminate].
  intros H; injection H as <-. reflexivity.
Qed.

Lemma start_magic magic r rnd g h fa : party_start magic r rnd g = Ret (Ok (h, fa)) -> hs_magic h = magic.
Proof.
  intros H. apply start_inv in H. destruct H as (h0 & H0 & H1). apply hs_new_magic in H0.
  apply send_key_magic in H1. congruence.
Qed.

End WithEnv.

Section WithLaws.
Context {E : Env} {EL : EnvLaws E}.

(** The handshake on a stream, with all that is looked at. *)
Definition pure_handshake fl magic r rnd g d c e w :=
  let! x := hs_new magic r rnd in
  match x with
  | Err y => Ret (Err (Internal y), w, [])
  | Ok h => pure_hs fl h g d c e w
  end.

Theorem handshake_stream fl magic r rnd g d s w c e :
  len magic = 4 -> flatten fl s = (c, e) -> calm fl s ->
  run_map (hs_view fl) (io_handshake fl magic r rnd g d s w) = pure_handshake fl magic r rnd g d c e w.
Proof.
  intros Hm F C. unfold io_handshake, pure_handshake.
  destruct (hs_new magic r rnd) as [[h|y]| |] eqn:N; cbn [bind run_map]; try reflexivity.
  apply io_handshake_stream; try assumption. now rewrite (hs_new_magic _ _ _ _ N).
Qed.

Lemma pure_handshake_ok fl magic r rnd g d c e w i o rest e' w' a :
  len magic = 4 ->
  pure_handshake fl magic r rnd g d c e w = Ret (Ok (i, o, (rest, e')), w', a) ->
  e' = e /\ exists h fa h' wa,
    party_start magic r rnd g = Ret (Ok (h, fa)) /\ 64 <= len c /\
    party_key h (take 64 c) d = Ret (Ok (h', wa)) /\
    completes h' (drop 64 c) i rest /\ o = outbound (sv_cipher (hs_state h')) /\
    written w' = written w ++ fa ++ wa.
Proof.
  intros Hm H. unfold pure_handshake in H.
  apply bind_ret_inv in H. destruct H as ([h|y] & N & H); [|discriminate].
  pose proof (hs_new_magic _ _ _ _ N) as M. unfold pure_hs in H.
  apply bind_ret_inv in H. destruct H as ([[h1|y] fa] & SK & H); [|discriminate].
  pose proof (send_key_magic _ _ _ _ _ SK) as M1.
  destruct (write_flush fl w fa) as [[[]|k] w1] eqn:W1; [|discriminate].
  apply write_flush_prefix in W1. destruct W1 as [_ W1]. specialize (W1 eq_refl).
  destruct (len c <? 64) eqn:L64; [discriminate|].
  assert (len (take 64 c) = 64) as Lt by (rewrite len_take; lia).
  apply bind_ret_inv in H. destruct H as ([h2|y] & RK & H); [|discriminate].
  apply bind_ret_inv in H. destruct H as ([[h3|y] wa] & SV & H); [|discriminate].
  destruct (write_flush fl w1 wa) as [[[]|k] w2] eqn:W2; [|discriminate].
  apply write_flush_prefix in W2. destruct W2 as [_ W2]. specialize (W2 eq_refl).
  destruct (len (drop 64 c) <? 16) eqn:L16; [discriminate|].
  assert (len (remote_garbage_terminator (hs_state h3)) = 16) as Ht.
  { eapply received_terminator; [|exact Lt|exact RK|exact SV]. congruence. }
  apply bind_ret_inv in H. destruct H as (x & G & H).
  destruct x as [[h4 n|h4]|y]; try discriminate.
  apply bind_ret_inv in H. destruct H as ([x a'] & P & H). injection H as -> <- <-.
  destruct (finish_forward _ _ _ _ _ _ _ _ _ _ Ht G P) as (-> & Q & ->).
  split; [reflexivity|]. exists h1, fa, h3, wa.
  split; [apply start_inv; eauto|]. split; [lia|]. split; [apply key_inv; eauto|].
  split; [assumption|]. split; [reflexivity|]. now rewrite W2, W1, app_assoc.
Qed.

Lemma pure_handshake_complete fl magic r rnd g d c e w i rest h fa h' wa :
  len magic = 4 -> healthy w ->
  party_start magic r rnd g = Ret (Ok (h, fa)) -> 64 <= len c ->
  party_key h (take 64 c) d = Ret (Ok (h', wa)) ->
  completes h' (drop 64 c) i rest ->
  exists w' a, healthy w' /\
    pure_handshake fl magic r rnd g d c e w =
    Ret (Ok (i, outbound (sv_cipher (hs_state h')), (rest, e)), w', a).
Proof.
  intros Hm Hw Hs L64 Hk Q. pose proof (start_magic _ _ _ _ _ _ Hs) as M.
  apply start_inv in Hs. destruct Hs as (h0 & N & SK).
  apply key_inv in Hk. destruct Hk as (h2 & RK & SV).
  assert (len (take 64 c) = 64) as Lt by (rewrite len_take; lia).
  assert (len (remote_garbage_terminator (hs_state h')) = 16) as Ht.
  { eapply received_terminator; [|exact Lt|exact RK|exact SV]. congruence. }
  destruct (write_flush_healthy fl w fa Hw) as (w1 & W1 & Hw1 & _).
  destruct (write_flush_healthy fl w1 wa Hw1) as (w2 & W2 & Hw2 & _).
  destruct (finish_backward h' (drop 64 c) e i rest Ht Q) as (h4 & n & a & G & P).
  unfold pure_handshake, pure_hs. rewrite N. cbn [bind]. rewrite SK. cbn [bind]. rewrite W1.
  rewrite (proj2 (N.ltb_ge _ _)) by assumption. rewrite RK. cbn [bind]. rewrite SV. cbn [bind]. rewrite W2.
  rewrite (proj2 (N.ltb_ge (len (drop 64 c)) 16)).
  2:{ destruct Q as (g0 & pk & ds & x & -> & _). rewrite !len_app. lia. }
  rewrite G. cbn [bind]. rewrite P. cbn [bind]. eauto.
Qed.

(** ** Truncated streams *)

Lemma pure_versions_truncated : forall fuel h wire e a i o rest e0 a',
  pure_versions fuel h wire e a = Ret (Ok (i, o, (rest, e0)), a') ->
  forall k fuel' e' b, k + len rest < len wire -> (length (take k wire) < fuel')%nat ->
  exists b', pure_versions fuel' h (take k wire) e' b = Ret (Err (end_error e'), b').
Proof.
  induction fuel as [|fuel IH]; intros h wire e a i o rest e0 a' H k fuel' e' b Hk Hf; [discriminate|].
  destruct fuel' as [|fuel']; [lia|].
  destruct (pure_inv _ _ _ _ _ _ _ H) as (t & x & ic & rest1 & R).
  destruct (recv_one_parts _ _ _ _ _ _ _ R) as (c1 & D & L & Hr).
  rewrite (pure_step _ _ _ _ _ _ _ _ _ R) in H.
  destruct (MAX_PACKET_SIZE_FOR_ALLOCATION <? len x + 17) eqn:Cap; [discriminate|].
  destruct (N.lt_ge_cases k (len x + 20)) as [K|K].
  - cbn [pure_versions]. rewrite len_take, N.min_l by lia.
    destruct (k <? 3) eqn:K3; [eauto|].
    rewrite take_take, N.min_l by lia. unfold hs_decrypt_packet_len. rewrite D. cbn [bind].
    rewrite Cap. rewrite (proj2 (N.ltb_lt _ _)) by (autorewrite with len; lia). eauto.
  - assert (R' : recv_one (inbound (rg_cipher (hs_state h))) (remote_garbage (hs_state h)) (take k wire) =
      Ret (Some (t, x), ic, take (k - (len x + 20)) rest1)).
    { destruct (recv_one_unframe _ _ _ _ _ _ R) as (u & Hu & U).
      assert (len u = len x + 20) as Lu by (rewrite Hu, len_app in L; lia).
      rewrite Hu, take_app_ge by lia. rewrite Lu.
      apply (recv_one_frame _ _ _ _ _ _ (take (k - (len x + 20)) rest1)) in U. exact U. }
    rewrite (pure_step _ _ _ _ _ _ _ _ _ R'), Cap. destruct t.
    + injection H as <- <- <- <- <-. lia.
    + eapply IH; [exact H|lia|]. apply recv_one_len in R'. set (q := take (k - (len x + 20)) rest1) in *.
      unfold len in R'. lia.
Qed.

Lemma garbage_truncated h' c j k :
  len (remote_garbage_terminator (hs_state h')) = 16 -> j <= 4095 ->
  first_at (remote_garbage_terminator (hs_state h')) c j ->
  receive_garbage h' (take k c) =
  if k <? j + 16 then Ret (Ok (NeedMoreData h')) else receive_garbage h' c.
Proof.
  intros Ht Hj F. pose proof F as [[L T] Min]. rewrite Ht in L.
  assert (Oc : forall i, occurs_at (remote_garbage_terminator (hs_state h')) (take k c) i <->
                occurs_at (remote_garbage_terminator (hs_state h')) c i /\ i + 16 <= k).
  { intros i. rewrite <- Ht. apply occurs_take. }
  destruct (k <? j + 16) eqn:K.
  - destruct (receive_garbage_cases h' (take k c) Ht) as [(i & Hi & [O Mi] & _)|[(_ & L1 & _)|(_ & _ & Q)]].
    + apply Oc in O. destruct O as [O O']. destruct (N.lt_ge_cases i j); [|lia]. now apply Min in O.
    + rewrite len_take in L1. lia.
    + assumption.
  - rewrite (receive_garbage_found h' c j), (receive_garbage_found h' (take k c) j); try assumption.
    + unfold found. rewrite take_take, N.min_l by lia. reflexivity.
    + split; [apply Oc; split; [apply F|lia]|]. intros i Hi O. apply Oc in O. now apply (Min i).
Qed.

Theorem handshake_truncated fl magic r rnd g d c e w i o rest e0 w' a :
  len magic = 4 ->
  pure_handshake fl magic r rnd g d c e w = Ret (Ok (i, o, (rest, e0)), w', a) ->
  forall k e', k + len rest < len c ->
  exists w'' a', pure_handshake fl magic r rnd g d (take k c) e' w = Ret (Err (end_error e'), w'', a').
Proof.
  intros Hm H k e' Hk. unfold pure_handshake in *.
  apply bind_ret_inv in H. destruct H as ([h|y] & N & H); [|discriminate]. rewrite N. cbn [bind].
  pose proof (hs_new_magic _ _ _ _ N) as M. unfold pure_hs in *.
  apply bind_ret_inv in H. destruct H as ([[h1|y] fa] & SK & H); [|discriminate]. rewrite SK. cbn [bind].
  pose proof (send_key_magic _ _ _ _ _ SK) as M1.
  destruct (write_flush fl w fa) as [[[]|kk] w1] eqn:W1; [|discriminate].
  destruct (len c <? 64) eqn:L64; [discriminate|].
  rewrite len_take, N.min_l by lia. destruct (k <? 64) eqn:K64; [eauto|].
  rewrite take_take, N.min_l by lia.
  assert (len (take 64 c) = 64) as Lt by (rewrite len_take; lia).
  apply bind_ret_inv in H. destruct H as ([h2|y] & RK & H); [|discriminate]. rewrite RK. cbn [bind].
  apply bind_ret_inv in H. destruct H as ([[h3|y] wa] & SV & H); [|discriminate]. rewrite SV. cbn [bind].
  destruct (write_flush fl w1 wa) as [[[]|kk] w2] eqn:W2; [|discriminate].
  destruct (len (drop 64 c) <? 16) eqn:L16; [discriminate|].
  replace (drop 64 (take k c)) with (take (k - 64) (drop 64 c)).
  2:{ rewrite take_drop_comm. do 2 f_equal. lia. }
  rewrite len_take, N.min_l by (rewrite len_drop; lia).
  destruct (k - 64 <? 16) eqn:K16; [eauto|].
  assert (len (remote_garbage_terminator (hs_state h3)) = 16) as Ht.
  { eapply received_terminator; [|exact Lt|exact RK|exact SV]. congruence. }
  apply bind_ret_inv in H. destruct H as (x & G & H).
  destruct x as [[h4 n|h4]|y]; try discriminate.
  destruct (receive_garbage_cases h3 (drop 64 c) Ht) as [(j & Hj & F & K)|[(_ & _ & K)|(_ & _ & K)]];
    rewrite K in G; try discriminate. unfold found in *. injection G as <- <-.
  rewrite (garbage_truncated h3 (drop 64 c) j (k - 64) Ht Hj F).
  destruct (k - 64 <? j + 16) eqn:Kj; [cbn [bind]; eauto|].
  rewrite K. cbn [bind].
  apply bind_ret_inv in H. destruct H as ([x a'] & P & H). injection H as -> <- <-.
  replace (drop (j + 16) (take (k - 64) (drop 64 c))) with (take (k - 64 - (j + 16)) (drop (j + 16) (drop 64 c))).
  2:{ rewrite take_drop_comm. do 2 f_equal. lia. }
  destruct (pure_versions_truncated _ _ _ _ _ _ _ _ _ _ P (k - 64 - (j + 16))
    (S (length (take (k - 64 - (j + 16)) (drop (j + 16) (drop 64 c))))) e' []) as (b' & Q).
  { rewrite !len_drop. lia. } { lia. }
  rewrite Q. cbn [bind]. eauto.
Qed.

(** ** Allocations *)

Lemma pure_versions_allocs : forall fuel h wire e a x a',
  Forall (fun n => n <= MAX_PACKET_SIZE_FOR_ALLOCATION) a ->
  pure_versions fuel h wire e a = Ret (x, a') ->
  Forall (fun n => n <= MAX_PACKET_SIZE_FOR_ALLOCATION) a'.
Proof.
  induction fuel as [|fuel IH]; intros h wire e a x a' Ha; cbn [pure_versions]; [discriminate|].
  destruct (_ <? 3); [intros H; injection H as _ <-; assumption|].
  intros H. apply bind_ret_inv in H. destruct H as ([n h1] & _ & H).
  destruct (MAX_PACKET_SIZE_FOR_ALLOCATION <? n) eqn:Cap; [injection H as _ <-; assumption|].
  assert (Forall (fun n => n <= MAX_PACKET_SIZE_FOR_ALLOCATION) (a ++ [n])) as Hn.
  { apply Forall_app. split; [assumption|]. constructor; [lia|constructor]. }
  destruct (len (drop 3 wire) <? n); [injection H as _ <-; assumption|].
  apply bind_ret_inv in H. destruct H as ([[[s|h2]|y] b] & _ & H).
  - injection H as _ <-. assumption.
  - eapply IH; eassumption.
  - injection H as _ <-. assumption.
Qed.

Lemma version_loop_allocs fl : forall fuel h sr a x a',
  Forall (fun n => n <= MAX_PACKET_SIZE_FOR_ALLOCATION) a ->
  version_loop fuel fl h sr a = Ret (x, a') ->
  Forall (fun n => n <= MAX_PACKET_SIZE_FOR_ALLOCATION) a'.
Proof.
  induction fuel as [|fuel IH]; intros h sr a x a' Ha; cbn [version_loop]; [discriminate|].
  destruct (session_read_exact fl sr _) as [[lb|k] sr1]; [|intros H; injection H as _ <-; assumption].
  intros H. apply bind_ret_inv in H. destruct H as ([n h1] & _ & H).
  destruct (MAX_PACKET_SIZE_FOR_ALLOCATION <? n) eqn:Cap; [injection H as _ <-; assumption|].
  assert (Forall (fun n => n <= MAX_PACKET_SIZE_FOR_ALLOCATION) (a ++ [n])) as Hn.
  { apply Forall_app. split; [assumption|]. constructor; [lia|constructor]. }
  destruct (session_read_exact fl sr1 _) as [[pb|k] sr2]; [|injection H as _ <-; assumption].
  apply bind_ret_inv in H. destruct H as ([[[s|h2]|y] b] & _ & H).
  - destruct (into_split s). injection H as _ <-. assumption.
  - eapply IH; eassumption.
  - injection H as _ <-. assumption.
Qed.

Theorem handshake_allocs fl magic r rnd g d s w o :
  io_handshake fl magic r rnd g d s w = Ret o ->
  Forall (fun n => n <= MAX_PACKET_SIZE_FOR_ALLOCATION) (ho_allocs o).
Proof.
  unfold io_handshake, io_handshake_with. intros H.
  apply bind_ret_inv in H. destruct H as ([h|y] & _ & H); [|injection H as <-; constructor].
  apply bind_ret_inv in H. destruct H as ([[h1|y] kb] & _ & H); [|injection H as <-; constructor].
  destruct (write_flush fl w kb) as [[[]|k] w1]; [|injection H as <-; constructor].
  destruct (read_exact fl s _ _) as [[their|k] s1]; [|injection H as <-; constructor].
  apply bind_ret_inv in H. destruct H as ([h2|y] & _ & H); [|injection H as <-; constructor].
  apply bind_ret_inv in H. destruct H as ([[h3|y] vb] & _ & H); [|injection H as <-; constructor].
  destruct (write_flush fl w1 vb) as [[[]|k] w2]; [|injection H as <-; constructor].
  destruct (read_exact fl s1 _ _) as [[gb|k] s2]; [|injection H as <-; constructor].
  apply bind_ret_inv in H. destruct H as ([[x s3] reads] & _ & H).
  destruct x as [[[h4 consumed] gb']|y]; [|injection H as <-; constructor].
  apply bind_ret_inv in H. destruct H as (lo & _ & H). cbn zeta in H.
  apply bind_ret_inv in H. destruct H as ([x a] & V & H). injection H as <-. cbn [ho_allocs].
  eapply version_loop_allocs; [|exact V]. constructor.
Qed.

End WithLaws.
