(** * Property C64: each strategy controls exactly its own traffic *)
From Coq Require Import List NArith Bool Lia.
From Coq.Strings Require Import Byte.
From Verif Require Import Base BaseFacts Env FsChacha Cipher Histories CipherProofs Handshake SpecHandshake HsDriver HandshakeProofs HsRunProofs Transport Io
  Futures SpecIo Sessions SessionProofs Toy PropsHandshake PropsIo
  Traffic TrafficIo TrafficFutures SpecTraffic TrafficProofs TrafficIoProofs TrafficFuturesProofs PropsTraffic.
Import ListNotations.
Local Open Scope N_scope.

(** ** C64 *)
(** The setters of the configuration change one field each. *)
Theorem C64_builders : forall c s,
  padding_strategy (with_padding_strategy c s) = s /\
  decoy_strategy (with_padding_strategy c s) = decoy_strategy c /\
  decoy_strategy (with_decoy_strategy c s) = s /\
  padding_strategy (with_decoy_strategy c s) = padding_strategy c /\
  padding_strategy config_new = Disabled /\ decoy_strategy config_new = Disabled.
Proof. repeat split. Qed.
Print Assumptions C64_builders.

(** Garbage and padding follow the padding strategy; handshake decoys follow the decoy strategy. *)
Theorem C64_handshake : forall (G : Type) (R : Rng G) (RL : RngLaws G R) sh garbage decoys sh' recs,
  shaper_handshake sh = (garbage, decoys, sh', recs) ->
  (garbage = None <-> padding_strategy (sh_config sh) = Disabled) /\
  (decoys = None <-> decoy_strategy (sh_config sh) = Disabled) /\
  sh_config sh' = sh_config sh /\
  sum recs = len (garbage_bytes garbage) + sum (map len (decoy_list decoys)).
Proof.
  intros G R RL sh g d sh' recs H. apply shaper_handshake_spec in H. destruct H as (H0 & H1 & H2 & H3 & _).
  split; [|split; [|split; [assumption|]]].
  - destruct (padding_strategy _); [split; auto|]. destruct H1 as (x & -> & _). split; discriminate.
  - destruct (decoy_strategy _); [split; auto|]. destruct H2 as (x & -> & _). split; discriminate.
  - subst recs. destruct g as [g|], d as [d|]; cbn [garbage_bytes decoy_list app map sum fold_right];
      rewrite ?N.add_0_r; reflexivity.
Qed.
Print Assumptions C64_handshake.

Theorem C64_pad : forall (E : Env) (G : Type) (R : Rng G) (RL : RngLaws G R) sh pl,
  let '(size, g1) := gen_range 1 1024 (sh_rng sh) in
  (sound_payload pl ->
   shaper_pad sh pl =
     match padding_strategy (sh_config sh) with
     | Disabled => Ret (None, sh, [size_of pl])
     | Random => Ret (Some (decoy (zeros size)), Shaper (sh_config sh) g1, [size_of pl; size])
     end) /\
  (~ sound_payload pl -> shaper_pad sh pl = Panic).
Proof.
  intros E G R RL [[pa de] g] pl. cbn [sh_rng sh_config padding_strategy].
  destruct (gen_range 1 1024 g) as [size g1] eqn:D. split.
  - intros Sp. destruct Sp as [[t ct] V]. unfold payload_view in V. apply bind_ret_inv in V. destruct V as (t' & _ & V).
    apply bind_ret_inv in V. destruct V as (ct' & C & _). unfold shaper_pad. rewrite (contents_seen _ _ C), C.
    cbn [bind sh_config sh_rng padding_strategy]. destruct pa; [reflexivity|].
    unfold zero_decoy. change MAX_DECOY_SIZE_BYTES with 1024. rewrite D. now rewrite len_zeros.
  - intros N. unfold shaper_pad. destruct pl as [[|hd data]|hd ct]; [reflexivity| |]; exfalso; apply N.
    + unfold sound_payload, payload_view. cbn [payload_type payload_contents].
      rewrite slice_ok by (rewrite len_cons; lia). eexists. reflexivity.
    + eexists. reflexivity.
Qed.
Print Assumptions C64_pad.

(** A cover decoy is made exactly when the strategy is [Random] and the draw is one of the 15 values 85 to 99;
    its size is the next draw. Otherwise nothing is recorded. *)
Theorem C64_decoy : forall (G : Type) (R : Rng G) (RL : RngLaws G R) sh,
  let '(n, g1) := gen_range 0 99 (sh_rng sh) in
  let '(size, g2) := gen_range 1 1024 g1 in
  shaper_decoy sh =
    match decoy_strategy (sh_config sh) with
    | Disabled => (None, sh, [])
    | Random =>
      if existsb (N.eqb n) [85; 86; 87; 88; 89; 90; 91; 92; 93; 94; 95; 96; 97; 98; 99]
      then (Some (decoy (zeros size)), Shaper (sh_config sh) g2, [size])
      else (None, Shaper (sh_config sh) g1, [])
    end.
Proof.
  intros G R RL [[pa de] g]. cbn [sh_rng sh_config decoy_strategy].
  pose proof (gen_range_in 0 99 g) as Q. destruct (gen_range 0 99 g) as [n g1] eqn:D1. cbn [fst] in Q.
  destruct (gen_range 1 1024 g1) as [size g2] eqn:D2.
  unfold shaper_decoy. cbn [sh_config sh_rng decoy_strategy]. destruct de; [reflexivity|]. rewrite D1.
  specialize (Q ltac:(lia)). destruct (N.ltb_spec n 85) as [L|L].
  - replace (existsb _ _) with false; [reflexivity|]. symmetry. apply not_true_is_false. intros T.
    apply existsb_exists in T. destruct T as (m & I & T). apply N.eqb_eq in T. subst m. cbn in I. lia.
  - replace (existsb _ _) with true.
    + unfold zero_decoy. change MAX_DECOY_SIZE_BYTES with 1024. rewrite D2. now rewrite len_zeros.
    + symmetry. apply existsb_exists. exists n. split; [|apply N.eqb_refl]. cbn. lia.
Qed.
Print Assumptions C64_decoy.

Definition shaping (b : block) : bool := match b with Bare _ => false | _ => true end.

Lemma packet_lens {E : Env} {EL : EnvLaws E} ms : forall c pkts c',
  send_all c ms = Ret (pkts, c') -> len (concat pkts) = sum (map (fun m => len (m_contents m) + 20) ms).
Proof.
  induction ms as [|m ms IH]; intros c pkts c' H; cbn [send_all] in H.
  - injection H as <- <-. reflexivity.
  - apply bind_ret_inv in H. destruct H as ([pkt c1] & En & H).
    apply bind_ret_inv in H. destruct H as ([pkts' c2] & En' & H). injection H as <- <-.
    cbn [concat map sum fold_right]. rewrite len_app, (IH _ _ _ En').
    apply encrypt_vec_len in En. rewrite En. reflexivity.
Qed.

Lemma sum_app a b : sum (a ++ b) = sum a + sum b.
Proof. induction a as [|x a IH]; cbn [app sum fold_right]; [reflexivity|].
  change (x + sum (a ++ b) = x + sum a + sum b). rewrite IH. lia.
Qed.

Lemma served_bytes {E : Env} {EL : EnvLaws E} fl p bs rs p' :
  serves fl p bs rs p' -> healthy (pw_writer p) ->
  len (written (pw_writer p')) = len (written (pw_writer p)) +
    sum (map (fun pl => size_of pl + 20) (flat_map block_payloads bs)).
Proof.
  intros S H. destruct (serves_wire _ _ _ _ _ S H) as (_ & _ & pkts & Q & W). rewrite W, len_app. f_equal.
  rewrite (packet_lens _ _ _ _ Q). f_equal. unfold wire_of. rewrite !map_map. apply map_ext.
  intros pl. unfold size_of. destruct (seen pl). reflexivity.
Qed.

(** What shaping costs on the wire of a session: 21 to 1044 bytes for each cover decoy and each padding. *)
Theorem C64_overhead : forall (E : Env) (EL : EnvLaws E) fl c p bs rs p',
  serves fl p bs rs p' -> healthy (pw_writer p) -> Forall (block_ok c) bs ->
  let sent := len (written (pw_writer p')) - len (written (pw_writer p)) in
  let plain := sum (map (fun r => size_of (fst r) + 20) rs) in
  let extra := len (filter shaping bs) in
  plain + 21 * extra <= sent <= plain + 1044 * extra /\
  (padding_strategy c = Random -> len rs <= extra) /\
  (decoy_strategy c = Disabled -> extra <= len rs) /\
  (padding_strategy c = Disabled -> decoy_strategy c = Disabled -> sent = plain).
Proof.
  intros E EL fl c p bs rs p' S H F. pose proof (served_bytes _ _ _ _ _ S H) as L.
  set (sent := _ - _). set (plain := sum (map (fun r => size_of (fst r) + 20) rs)). set (extra := len (filter shaping bs)). cbn zeta.
  enough (plain + 21 * extra <= sum (map (fun pl => size_of pl + 20) (flat_map block_payloads bs)) <= plain + 1044 * extra /\
    (padding_strategy c = Random -> len rs <= extra) /\
    (decoy_strategy c = Disabled -> extra <= len rs) /\
    (padding_strategy c = Disabled -> decoy_strategy c = Disabled -> extra = 0)) as (Q1 & Q2 & Q3 & Q4).
  { unfold sent. rewrite L. repeat split; [lia|lia|assumption|assumption|].
    intros A B. rewrite (Q4 A B) in Q1. lia. }
  clear L sent. destruct (serves_wire _ _ _ _ _ S H) as (_ & Fok & _).
  subst plain extra. revert F Fok. clear H.
  induction S as [p|p bs rs p1 d x p2 H IH W1|p bs rs p1 pl x p2 H IH W1|p bs rs p1 d pl p2 x p3 H IH W1 W2|p bs rs p1 d pl e p2 H IH W1];
    intros F Fok;
    [cbn; repeat split; lia|
     apply Forall_app in F; destruct F as [F1 F2]; inversion F2 as [|? ? B _]; subst; cbn [block_ok] in B..].
  - destruct (IH F1 Fok) as (Q1 & Q2 & Q3 & Q4). destruct B as [B1 (n & Ln & ->)].
    rewrite flat_map_app, filter_app, map_app, sum_app, len_app. cbn [flat_map block_payloads app filter shaping map].
    change (len [Cover (decoy (zeros n))]) with 1. rewrite size_of_decoy, len_zeros. cbn [sum fold_right].
    rewrite B1 in *. repeat split; try discriminate; lia.
  - apply Forall_app in Fok. destruct Fok as [Fok _]. destruct (IH F1 Fok) as (Q1 & Q2 & Q3 & Q4).
    rewrite flat_map_app, filter_app, !map_app, !sum_app, !len_app. cbn [flat_map block_payloads app filter shaping map].
    change (len (@nil block)) with 0. change (len [(pl, x)]) with 1. cbn [sum fold_right fst].
    rewrite B in *. repeat split; try discriminate; lia.
  - apply Forall_app in Fok. destruct Fok as [Fok _]. destruct (IH F1 Fok) as (Q1 & Q2 & Q3 & Q4).
    destruct B as [B1 (n & Ln & ->)].
    rewrite flat_map_app, filter_app, !map_app, !sum_app, !len_app. cbn [flat_map block_payloads app filter shaping map].
    change (len [Padded (decoy (zeros n)) pl]) with 1. change (len [(pl, x)]) with 1.
    rewrite size_of_decoy, len_zeros. cbn [sum fold_right fst].
    rewrite B1 in *. repeat split; try discriminate; lia.
  - apply Forall_app in Fok. destruct Fok as [_ Fok]. inversion Fok as [|? ? D _]. discriminate.
Qed.
Print Assumptions C64_overhead.

(** Padding is a packet of its own, written and flushed first: the payload's packet then goes out alone, with a
    length that gives the length of the payload away. *)
Theorem C64_padding_is_separate : forall (E : Env) (EL : EnvLaws E) fl p d pl p1 p2 t contents,
  write_any fl p d = Ret (Ok tt, p1) -> write_any fl p1 pl = Ret (Ok tt, p2) -> payload_view pl = Ret (t, contents) ->
  flushed (flushes (pw_writer p)) (flushes (pw_writer p1)) /\
  flushed (flushes (pw_writer p1)) (flushes (pw_writer p2)) /\
  len contents = len (written (pw_writer p2)) - len (written (pw_writer p1)) - 20.
Proof.
  intros E EL fl p d pl p1 p2 t ct H1 H2 V.
  destruct (C38_one_packet E EL _ _ _ _ H1) as (td & cd & _ & Vd & _).
  destruct (C38_flushed E EL _ _ _ _ _ _ _ H1 Vd) as [Q1 _].
  destruct (C38_flushed E EL _ _ _ _ _ _ _ H2 V) as [Q2 _].
  destruct (C38_one_packet E EL _ _ _ _ H2) as (t2 & c2 & pkt & V2 & L2 & W2 & _). rewrite V in V2. injection V2 as <- <-.
  split; [auto|]. split; [auto|]. rewrite W2, len_app. lia.
Qed.
Print Assumptions C64_padding_is_separate.

(** traffic/README.md:23: "the library immediately follows a genuine packet send with a decoy packet".  The decoy goes
    first: a peer that has read one packet of a padded call does not have the payload. *)
Theorem C64_padding_follows_refuted :
  ~ forall (E : Env) (EL : EnvLaws E) (G : Type) (R : Rng G) (RL : RngLaws G R) fl p sh recs pl ms s sc e x r,
      padding_strategy (sh_config sh) = Random -> sound_payload pl -> healthy (pw_writer p) -> written (pw_writer p) = [] ->
      play (shared_new p sh recs) ms = Some s -> calls ms = [pl] -> thread_moves ms = 0%nat -> returned s = [(pl, Ok tt)] ->
      flatten fl sc = (written (pw_writer (st_writer s)), e) ->
      read_many 1 (established fl (pw_cipher p) (session_reader fl [] sc)) = Ret ([x], r) ->
      exists q, x = Ok q /\ seen q = seen pl.
Proof.
  intros H. pose (pl := genuine [x01; x02]). pose (ms := [CallWrite pl; App; App; App; App]).
  destruct (@play (toy true) _ draws (shared_new toy_writer (Shaper all_random [4]) []) ms) as [s|] eqn:P; [|vm_compute in P; discriminate].
  assert (exists r, @read_many (toy true) 1 (established Tokio (pw_cipher toy_writer)
            (session_reader Tokio [] [Chunk (written (pw_writer (st_writer s)))])) = Ret ([Ok (Decrypted (x80 :: zeros 5))], r)) as (r & Rd).
  { vm_compute in P. injection P as <-. eexists. vm_compute. reflexivity. }
  destruct (H (toy true) (toy_laws true) (list N) draws draws_laws Tokio toy_writer (Shaper all_random [4]) [] pl ms s
              [Chunk (written (pw_writer (st_writer s)))] Closed (Ok (Decrypted (x80 :: zeros 5))) r) as (q & Q & S).
  - reflexivity.
  - exists (Genuine, [x01; x02]). reflexivity.
  - split; constructor.
  - reflexivity.
  - exact P.
  - reflexivity.
  - reflexivity.
  - vm_compute in P. injection P as <-. reflexivity.
  - vm_compute in P. injection P as <-. reflexivity.
  - exact Rd.
  - injection Q as <-. vm_compute in S. discriminate.
Qed.
Print Assumptions C64_padding_follows_refuted.

(** The two flights of a shaped handshake: at most 7327 bytes, and the plain 100 without shaping. *)
Theorem C64_handshake_bytes : forall (E : Env) (EL : EnvLaws E) (G : Type) (R : Rng G) (RL : RngLaws G R)
    sh garbage decoys sh' recs magic r sk their,
  shaper_handshake sh = (garbage, decoys, sh', recs) ->
  len magic = 4 -> sk_valid sk = true -> (debug_assertions = true -> sk <> zeros 32) ->
  len their = 64 -> take 4 their <> magic ->
  exists h out h' out',
    party_start magic r sk garbage = Ret (Ok (h, out)) /\ party_key h their decoys = Ret (Ok (h', out')) /\
    len out + len out' = 100 + sum recs + 20 * len (decoy_list decoys) /\
    len out <= 4159 /\ len out' <= 3168 /\
    (padding_strategy (sh_config sh) = Disabled -> len out = 64) /\
    (decoy_strategy (sh_config sh) = Disabled -> len out' = 36).
Proof.
  intros E EL G R RL sh g d sh' recs magic r sk their H Hm Hs Hz Ht Hv.
  destruct (C64_handshake _ _ _ _ _ _ _ _ H) as (P1 & P2 & _ & P3).
  destruct (C41_handshake _ _ _ _ _ _ _ _ H) as (L1 & L2 & L3).
  rewrite (start_ok magic r sk g Hs Hz L1).
  destruct (key_ok magic r (EcdhPoint sk (ellswift_of sk)) g their d Hm Ht Hv ltac:(intros; lia))
    as (m & ps & oc & KF & S & K).
  do 4 eexists. split; [reflexivity|]. split; [exact K|].
  assert (len (terminator m r) = 16) as TL by (destruct (in_order r _ their); eapply terminator_len, KF).
  apply packet_lens in S.
  assert (sum (map (fun m => len (m_contents m) + 20) (version_msgs g (decoy_list d))) =
          20 + sum (map len (decoy_list d)) + 20 * len (decoy_list d)) as VL.
  { clear. generalize (decoy_list d) as l. intros l. revert g. induction l as [|x l IH]; intros g; [reflexivity|].
    cbn [version_msgs map sum fold_right m_contents]. unfold sum in IH. rewrite IH, len_cons. unfold sum. lia. }
  unfold bip_first_flight. rewrite !len_app, TL, S, VL, ellswift_len, P3.
  assert (sum (map len (decoy_list d)) <= 1024 * len (decoy_list d)) as Sm.
  { revert L3. clear. induction 1 as [|x l [_ L] F IH]; [cbn; lia|]. cbn [map sum fold_right]. unfold sum in IH.
    rewrite len_cons. lia. }
  repeat split; try lia.
  - intros A. apply P1 in A. subst g. reflexivity.
  - intros A. apply P2 in A. subst d. reflexivity.
Qed.
Print Assumptions C64_handshake_bytes.

(** Only padding, then only decoys: a draw of 99 makes a cover decoy in the second endpoint, not in the first. *)
Example C64_example :
  let only_padding := with_padding_strategy config_new Random in
  let only_decoys := with_decoy_strategy config_new Random in
  let ms := [Thread; Thread; Thread; Thread; Thread; CallWrite (genuine [x01; x02]); App; App; App] in
  shaper_handshake (Shaper only_padding [3; 2; 5]) = (Some (repeat x5a 3), None, Shaper only_padding [2; 5], [3]) /\
  shaper_handshake (Shaper only_decoys [2; 4; 1; 7]) =
    (None, Some [repeat x5a 5; repeat x5a 2], Shaper only_decoys [7], [5; 2]) /\
  match @play (toy true) _ draws (shared_new toy_writer (Shaper only_padding [99; 4; 7]) []) (ms ++ [App]),
        @play (toy true) _ draws (shared_new toy_writer (Shaper only_decoys [99; 4; 7]) []) ms with
  | Some s, Some s' =>
      records s = [2; 100] /\ len (written (pw_writer (st_writer s))) = 22 + 120 /\
      records s' = [5; 2] /\ len (written (pw_writer (st_writer s'))) = 22 + 25
  | _, _ => False
  end.
Proof. vm_compute. repeat split. Qed.
