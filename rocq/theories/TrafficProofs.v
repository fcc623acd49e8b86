(** * TrafficProofs: the shaper, the blocks on the wire, the statistics *)
From Coq Require Import List NArith Bool Lia ZifyBool ZifyN.
From Coq.Strings Require Import Byte.
From Verif Require Import Base BaseFacts Env FsChacha Cipher CipherFacts Histories CipherProofs Handshake
  Transport Io Futures SpecIo Sessions TransportProofs SessionProofs EndpointProofs
  Traffic TrafficIo TrafficFutures SpecTraffic.
Import ListNotations.
Local Open Scope N_scope.

(** ** The shaper *)

Section Shaper.
Context {E : Env} {G : Type} {R : Rng G} {RL : RngLaws G R}.

Lemma random_vec_len lo hi g : lo <= hi -> lo <= len (fst (random_vec lo hi g)) <= hi.
Proof.
  intros H. unfold random_vec. pose proof (gen_range_in lo hi g H) as Q.
  destruct (gen_range lo hi g) as [n g']. cbn [fst] in *. now rewrite fill_bytes_len.
Qed.

Lemma random_decoys_spec : forall n g,
  length (fst (random_decoys n g)) = n /\
  Forall (fun d => 1 <= len d <= 1024) (fst (random_decoys n g)).
Proof.
  induction n as [|n IH]; intros g; cbn [random_decoys].
  - split; [reflexivity|constructor].
  - pose proof (random_vec_len 1 MAX_DECOY_SIZE_BYTES g) as Q.
    destruct (random_vec 1 MAX_DECOY_SIZE_BYTES g) as [d g1]. specialize (IH g1).
    destruct (random_decoys n g1) as [ds g2]. cbn [fst length] in *. destruct IH as [L F].
    change MAX_DECOY_SIZE_BYTES with 1024 in Q.
    split; [now rewrite L|]. constructor; [apply Q; lia|assumption].
Qed.

Theorem shaper_handshake_spec sh g ds sh' recs :
  shaper_handshake sh = (g, ds, sh', recs) ->
  sh_config sh' = sh_config sh /\
  match padding_strategy (sh_config sh) with
  | Disabled => g = None
  | Random => exists x, g = Some x /\ len x <= 4095
  end /\
  match decoy_strategy (sh_config sh) with
  | Disabled => ds = None
  | Random => exists l, ds = Some l /\ len l <= 3 /\ Forall (fun d => 1 <= len d <= 1024) l
  end /\
  recs = match g with Some x => [len x] | None => [] end ++
         match ds with Some l => map (fun d => len d) l | None => [] end /\
  (padding_strategy (sh_config sh) = Disabled -> decoy_strategy (sh_config sh) = Disabled -> sh' = sh).
Proof.
  unfold shaper_handshake. destruct sh as [[pa de] rg]. cbn [sh_config sh_rng padding_strategy decoy_strategy].
  destruct pa.
  - destruct de.
    + intros H. injection H as <- <- <- <-. repeat split.
    + pose proof (gen_range_in 0 3 rg) as Q. destruct (gen_range 0 3 rg) as [n g1].
      pose proof (random_decoys_spec (N.to_nat n) g1) as [L F].
      destruct (random_decoys (N.to_nat n) g1) as [l g2]. cbn [fst] in *.
      intros H. injection H as <- <- <- <-. repeat split; [|discriminate].
      exists l. repeat split; [|assumption]. unfold len. rewrite L. lia.
  - pose proof (random_vec_len 0 MAX_NUM_GARBAGE_BYTES rg) as V.
    destruct (random_vec 0 MAX_NUM_GARBAGE_BYTES rg) as [gb g0]. cbn [fst] in *.
    change MAX_NUM_GARBAGE_BYTES with 4095 in V.
    destruct de.
    + intros H. injection H as <- <- <- <-. repeat split; [|discriminate]. exists gb. split; [reflexivity|lia].
    + pose proof (gen_range_in 0 3 g0) as Q. destruct (gen_range 0 3 g0) as [n g1].
      pose proof (random_decoys_spec (N.to_nat n) g1) as [L F].
      destruct (random_decoys (N.to_nat n) g1) as [l g2]. cbn [fst] in *.
      intros H. injection H as <- <- <- <-. repeat split; [| |discriminate].
      * exists gb. split; [reflexivity|lia].
      * exists l. repeat split; [|assumption]. unfold len. rewrite L. lia.
Qed.

Lemma size_of_decoy bs : size_of (decoy bs) = len bs.
Proof. reflexivity. Qed.

Theorem shaper_decoy_spec sh d sh' recs :
  shaper_decoy sh = (d, sh', recs) ->
  sh_config sh' = sh_config sh /\
  match d with
  | None => recs = []
  | Some d => decoy_strategy (sh_config sh) = Random /\ shaper_decoy_payload d /\ recs = [size_of d]
  end /\
  (decoy_strategy (sh_config sh) = Disabled -> sh' = sh).
Proof.
  unfold shaper_decoy. destruct sh as [[pa de] rg]. cbn [sh_config sh_rng decoy_strategy]. destruct de.
  - intros H. injection H as <- <- <-. repeat split.
  - destruct (gen_range 0 99 rg) as [p g1]. destruct (p <? 85).
    + intros H. injection H as <- <- <-. repeat split. discriminate.
    + unfold zero_decoy. pose proof (gen_range_in 1 MAX_DECOY_SIZE_BYTES g1) as Q.
      destruct (gen_range 1 MAX_DECOY_SIZE_BYTES g1) as [n g2]. cbn [fst] in Q.
      change MAX_DECOY_SIZE_BYTES with 1024 in Q.
      intros H. injection H as <- <- <-. repeat split; [|discriminate].
      exists n. split; [apply Q; lia|reflexivity].
Qed.

Lemma contents_seen pl ct : payload_contents pl = Ret ct -> size_of pl = len ct.
Proof.
  unfold size_of. destruct pl as [[|hd data]|hd ct']; cbn [payload_contents seen snd].
  - discriminate.
  - rewrite slice_ok by (rewrite len_cons; lia). rewrite len_cons. change (drop 1 (hd :: data)) with data.
    rewrite take_all by lia. intros H. now injection H as <-.
  - intros H. now injection H as <-.
Qed.

Theorem shaper_pad_spec sh pl d sh' recs :
  shaper_pad sh pl = Ret (d, sh', recs) ->
  sh_config sh' = sh_config sh /\
  match d with
  | None => padding_strategy (sh_config sh) = Disabled /\ sh' = sh /\ recs = [size_of pl]
  | Some d => padding_strategy (sh_config sh) = Random /\ shaper_decoy_payload d /\ recs = [size_of pl; size_of d]
  end.
Proof.
  unfold shaper_pad. destruct (payload_contents pl) as [ct| |] eqn:C; [|discriminate..]. cbn [bind].
  rewrite (contents_seen _ _ C).
  destruct sh as [[pa de] rg]. cbn [sh_config sh_rng padding_strategy]. destruct pa.
  - intros H. injection H as <- <- <-. repeat split.
  - unfold zero_decoy. pose proof (gen_range_in 1 MAX_DECOY_SIZE_BYTES rg) as Q.
    destruct (gen_range 1 MAX_DECOY_SIZE_BYTES rg) as [n g2]. cbn [fst] in Q.
    change MAX_DECOY_SIZE_BYTES with 1024 in Q.
    intros H. injection H as <- <- <-. repeat split. exists n. split; [apply Q; lia|reflexivity].
Qed.

End Shaper.

(** ** Blocks on the wire *)

Section Blocks.
Context {E : Env} {EL : EnvLaws E}.

Lemma send_all_snoc ms m : forall c ps c1 p c2,
  send_all c ms = Ret (ps, c1) ->
  encrypt_to_vec c1 (m_contents m) (m_type m) (m_aad m) = Ret (p, c2) ->
  send_all c (ms ++ [m]) = Ret (ps ++ [p], c2).
Proof.
  induction ms as [|m0 ms IH]; intros c ps c1 p c2 H En; cbn [send_all app] in *.
  - injection H as <- <-. rewrite En. reflexivity.
  - destruct (encrypt_to_vec c _ _ _) as [[p0 c0]| |]; [|discriminate..]. cbn [bind] in *.
    destruct (send_all c0 ms) as [[ps0 c0']| |] eqn:S; [|discriminate..]. cbn [bind] in *.
    injection H as <- <-. erewrite IH by eassumption. reflexivity.
Qed.

Lemma view_seen pl p : payload_view pl = Ret p -> seen pl = p.
Proof.
  unfold payload_view, payload_type, payload_contents. destruct pl as [[|hd data]|hd ct].
  - discriminate.
  - rewrite slice_ok by (rewrite len_cons; lia). unfold index. cbn -[drop take len]. rewrite len_cons.
    change (drop 1 (hd :: data)) with data. rewrite take_all by lia. intros H. now injection H as <-.
  - cbn [bind]. intros H. now injection H as <-.
Qed.

Lemma write_any_healthy_any fl p pl x p' :
  healthy (pw_writer p) -> write_any fl p pl = Ret (x, p') ->
  x = Ok tt /\ healthy (pw_writer p') /\
  exists pkt, encrypt_to_vec (pw_cipher p) (snd (seen pl)) (fst (seen pl)) None = Ret (pkt, pw_cipher p') /\
    written (pw_writer p') = written (pw_writer p) ++ pkt.
Proof.
  intros Hh H. destruct (write_any_sound _ _ _ _ _ H) as (t & ct & pkt & n & V & En & _).
  assert (write_any fl p (payload_of (t, ct)) = write_any fl p pl) as Eq.
  { unfold payload_view in V. apply bind_ret_inv in V. destruct V as (t' & T & V).
    apply bind_ret_inv in V. destruct V as (ct' & C & V). injection V as -> ->.
    destruct fl; cbn [write_any]; unfold sync_write, tokio_write; rewrite T, C; destruct t; reflexivity. }
  destruct (write_any_healthy fl p t ct pkt _ Hh En) as (p'' & W & Wc & Wh & Ww).
  rewrite Eq, H in W. injection W as -> <-.
  apply view_seen in V. rewrite V. cbn [fst snd]. split; [reflexivity|]. split; [assumption|].
  exists pkt. split; assumption.
Qed.

Lemma wire_of_app a b : wire_of (a ++ b) = wire_of a ++ wire_of b.
Proof. unfold wire_of. now rewrite !map_app. Qed.

Lemma write_step fl p0 pls pkts p1 pl x p2 :
  healthy (pw_writer p1) ->
  send_all (pw_cipher p0) (wire_of pls) = Ret (pkts, pw_cipher p1) ->
  written (pw_writer p1) = written (pw_writer p0) ++ concat pkts ->
  write_any fl p1 pl = Ret (x, p2) ->
  x = Ok tt /\ healthy (pw_writer p2) /\
  exists pkts', send_all (pw_cipher p0) (wire_of (pls ++ [pl])) = Ret (pkts', pw_cipher p2) /\
    written (pw_writer p2) = written (pw_writer p0) ++ concat pkts'.
Proof.
  intros Hh S W H. destruct (write_any_healthy_any _ _ _ _ _ Hh H) as (-> & Hh2 & pkt & En & W2).
  split; [reflexivity|]. split; [assumption|]. exists (pkts ++ [pkt]).
  rewrite wire_of_app. split.
  - cbn [wire_of map]. eapply send_all_snoc; [exact S|exact En].
  - rewrite W2, W, concat_app. cbn [concat]. now rewrite app_nil_r, app_assoc.
Qed.

Theorem serves_wire fl p bs rs p' :
  serves fl p bs rs p' -> healthy (pw_writer p) ->
  healthy (pw_writer p') /\ Forall (fun r => snd r = Ok tt) rs /\
  exists pkts, send_all (pw_cipher p) (wire_of (flat_map block_payloads bs)) = Ret (pkts, pw_cipher p') /\
    written (pw_writer p') = written (pw_writer p) ++ concat pkts.
Proof.
  intros H Hp.
  induction H as [p|p bs rs p1 d x p2 H IH W1|p bs rs p1 pl x p2 H IH W1|p bs rs p1 d pl p2 x p3 H IH W1 W2|p bs rs p1 d pl e p2 H IH W1].
  - split; [assumption|]. split; [constructor|]. exists []. cbn. now rewrite app_nil_r.
  - destruct (IH Hp) as (Hh & F & pkts & S & W). rewrite flat_map_app. cbn [flat_map block_payloads app].
    destruct (write_step _ _ _ _ _ _ _ _ Hh S W W1) as (-> & Hh2 & Q). auto.
  - destruct (IH Hp) as (Hh & F & pkts & S & W). rewrite flat_map_app. cbn [flat_map block_payloads app].
    destruct (write_step _ _ _ _ _ _ _ _ Hh S W W1) as (-> & Hh2 & Q).
    split; [assumption|]. split; [|assumption]. apply Forall_app. split; [assumption|]. repeat constructor.
  - destruct (IH Hp) as (Hh & F & pkts & S & W). rewrite flat_map_app. cbn [flat_map block_payloads app].
    destruct (write_step _ _ _ _ _ _ _ _ Hh S W W1) as (_ & Hh2 & pk2 & S2 & Ww2).
    destruct (write_step _ _ _ _ _ _ _ _ Hh2 S2 Ww2 W2) as (-> & Hh3 & Q).
    rewrite <- app_assoc in Q. split; [assumption|]. split; [|assumption].
    apply Forall_app. split; [assumption|]. repeat constructor.
  - destruct (IH Hp) as (Hh & F & pkts & S & W).
    destruct (write_step _ _ _ _ _ _ _ _ Hh S W W1) as (D & _). discriminate.
Qed.

(** What a receiver that skips decoys keeps. *)
Lemma genuine_only_app a b : genuine_only (a ++ b) = genuine_only a ++ genuine_only b.
Proof. apply filter_app. Qed.

Lemma shaper_decoy_seen d : shaper_decoy_payload d -> exists n, seen d = (Decoy, zeros n) /\ n <= 1024.
Proof. intros (n & L & ->). exists n. split; [reflexivity|lia]. Qed.

Lemma serves_genuine fl p bs rs p' c :
  serves fl p bs rs p' -> Forall (block_ok c) bs ->
  genuine_only (map seen (flat_map block_payloads bs)) = genuine_only (map seen (map fst rs)).
Proof.
  intros H. induction H as [p|p bs rs p1 d x p2 H IH W1|p bs rs p1 pl x p2 H IH W1|p bs rs p1 d pl p2 x p3 H IH W1 W2|p bs rs p1 d pl e p2 H IH W1];
    [reflexivity|intros F; apply Forall_app in F; destruct F as [F1 F2]; specialize (IH F1);
     inversion F2 as [|? ? B _]; subst; cbn [block_ok] in B; rewrite flat_map_app, !map_app, !genuine_only_app, IH..].
  - destruct B as [_ B]. apply shaper_decoy_seen in B. destruct B as (n & B & _).
    cbn [flat_map block_payloads app map]. rewrite B. cbn. now rewrite app_nil_r.
  - reflexivity.
  - destruct B as [_ B]. apply shaper_decoy_seen in B. destruct B as (n & B & _).
    cbn [flat_map block_payloads app map]. rewrite B. reflexivity.
  - destruct B as [_ B]. apply shaper_decoy_seen in B. destruct B as (n & B & _).
    cbn [flat_map block_payloads app map]. rewrite B. reflexivity.
Qed.

(** The writer only grows. *)
Lemma write_any_grows fl p pl x p' : write_any fl p pl = Ret (x, p') ->
  exists m, written (pw_writer p') = written (pw_writer p) ++ m.
Proof.
  intros H. destruct (write_any_sound _ _ _ _ _ H) as (t & ct & pkt & n & _ & _ & W & _). eauto.
Qed.

Lemma write_any_total fl p pl k q :
  counted k (pw_cipher p) -> room k -> payload_view pl = Ret q ->
  exists x p', write_any fl p pl = Ret (x, p') /\ counted (k + 1) (pw_cipher p').
Proof.
  intros Hc Hr V. destruct q as [t ct].
  destruct (encrypt_vec_ret k (pw_cipher p) ct t None Hc Hr) as (pkt & c' & En & Hc').
  unfold payload_view in V. apply bind_ret_inv in V. destruct V as (t' & T & V).
  apply bind_ret_inv in V. destruct V as (ct' & C & V). injection V as -> ->.
  destruct fl; cbn [write_any].
  - unfold sync_write. rewrite T, C. cbn [bind]. rewrite En. cbn [bind].
    destruct (write_flush Sync (pw_writer p) pkt) as [[[]|kk] w]; eexists _, _; split; try reflexivity; assumption.
  - unfold tokio_write. rewrite T, C. cbn [bind].
    change (encryption_buffer_len (len ct)) with (len ct + 20). rewrite encrypt_exact, En. cbn [bind].
    destruct (write_flush Tokio (pw_writer p) pkt) as [[[]|kk] w]; eexists _, _; split; try reflexivity; assumption.
Qed.

End Blocks.
