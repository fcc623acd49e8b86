(** * Property C85: what padding hides from somebody who sees only how many bytes go by *)
From Coq Require Import List NArith Bool Lia.
From Coq.Strings Require Import Byte.
From Verif Require Import Base BaseFacts Env Toy FsChacha Cipher CipherProofs Handshake Transport Io Futures Sessions SessionProofs
  Traffic TrafficIo TrafficFutures SpecTraffic TrafficProofs TrafficIoProofs TrafficFuturesProofs DuplexProofs
  PropsHandshake PropsTraffic PropsShape.
Import ListNotations.
Local Open Scope N_scope.

(** The bytes of the payloads written so far. *)
Definition contents_of (rs : list (payload * result perror unit)) : N := sum (map (fun r => size_of (fst r)) rs).

Lemma plain_bytes rs : sum (map (fun r : payload * result perror unit => size_of (fst r) + 20) rs) = contents_of rs + 20 * len rs.
Proof.
  induction rs as [|r rs IH]; [reflexivity|]. cbn [map]. unfold contents_of in *. cbn [map sum fold_right].
  unfold sum in IH |- *. rewrite IH, len_cons. lia.
Qed.

(** ** C85 *)
(** Padding only: the number of bytes on the wire gives the bytes of [k] payloads up to 1023 [k]. *)
Theorem C85_tells : forall (E : Env) (EL : EnvLaws E) (G : Type) (R : Rng G) (RL : RngLaws G R) p sh recs ms s wire,
  play (shared_new p sh recs) ms = Some s -> poisoned s = false -> lock s = Free -> healthy (pw_writer p) ->
  padding_strategy (sh_config sh) = Random -> decoy_strategy (sh_config sh) = Disabled ->
  written (pw_writer (st_writer s)) = written (pw_writer p) ++ wire ->
  let k := len (returned s) in
  len wire - 1064 * k <= contents_of (returned s) <= len wire - 41 * k /\ 41 * k <= len wire.
Proof.
  intros E EL G R RL p sh recs ms s wire P Po L H Pd Dc W k.
  destruct (C43_blocks E G R RL _ _ _ _ _ P Po L) as (_ & bs & F & _ & S & _).
  destruct (C64_overhead E EL _ _ _ _ _ _ S H F) as (Q1 & Q2 & Q3 & _).
  specialize (Q2 Pd). specialize (Q3 Dc). rewrite W, len_app, plain_bytes in Q1. fold k in Q1, Q2, Q3. lia.
Qed.
Print Assumptions C85_tells.

(** The same for the task, of the payloads it has handled. *)
Theorem C85_tells_task : forall (E : Env) (EL : EnvLaws E) (G : Type) (R : Rng G) (RL : RngLaws G R) p sh recs n es wire,
  counted n (pw_cipher p) -> (overflow_checks = true -> n + 2 * len es < 2 ^ 32) ->
  Forall event_sound es -> healthy (pw_writer p) ->
  padding_strategy (sh_config sh) = Random -> decoy_strategy (sh_config sh) = Disabled ->
  let t := task_run (task_new p sh recs) es in
  written (pw_writer (tk_writer t)) = written (pw_writer p) ++ wire ->
  exists handled rest, accepted es = handled ++ rest /\ (running t = true -> rest = queue t) /\
    let k := len handled in let total := sum (map (fun c => size_of (cmd_payload c)) handled) in
    len wire - 1064 * k <= total <= len wire - 41 * k /\ 41 * k <= len wire.
Proof.
  intros E EL G R RL p sh recs n es wire C Ho So H Pd Dc t W.
  destruct (C45_in_order E EL G R RL p sh recs n es C Ho So) as (handled & rest & rs & bs & A & Q & F & S & M & _).
  exists handled, rest. split; [exact A|]. split; [exact Q|]. cbn zeta.
  destruct (C64_overhead E EL _ _ _ _ _ _ S H F) as (Q1 & Q2 & Q3 & _).
  specialize (Q2 Pd). specialize (Q3 Dc). fold t in Q1. rewrite W, len_app, plain_bytes in Q1.
  assert (len rs = len handled) as Lr.
  { unfold len. f_equal. transitivity (length (map fst rs)); [now rewrite map_length|]. rewrite M. now rewrite map_length. }
  assert (contents_of rs = sum (map (fun c => size_of (cmd_payload c)) handled)) as Cr.
  { unfold contents_of. rewrite <- (map_map fst size_of), M, map_map. reflexivity. }
  rewrite <- Cr, <- Lr. lia.
Qed.
Print Assumptions C85_tells_task.

(** *** What the draws can hide *)

(** Every payload written in one call, one after the other; the decoy thread does not move. *)
Definition one_by_one (pls : list payload) : list move := flat_map (fun pl => [CallWrite pl; App; App; App; App]) pls.

(** A list of [k] draws from 1 to 1024 with any sum that is possible. *)
Lemma draws_of_sum : forall (k : nat) t, N.of_nat k <= t <= 1024 * N.of_nat k ->
  exists ds, length ds = k /\ Forall (fun d => 1 <= d <= 1024) ds /\ sum ds = t.
Proof.
  induction k as [|k IH]; intros t H.
  - exists []. split; [reflexivity|]. split; [constructor|]. cbn. lia.
  - set (d := N.min 1024 (t - N.of_nat k)). destruct (IH (t - d)) as (ds & L & F & Q).
    + subst d. lia.
    + exists (d :: ds). split; [cbn; now f_equal|]. split; [constructor; [subst d; lia|assumption]|].
      cbn [sum fold_right]. change (d + sum ds = t). subst d. lia.
Qed.

Lemma draw_is d g : 1 <= d <= 1024 -> draw 1 1024 ((d - 1) :: g) = (d, g).
Proof. intros H. cbn [draw]. rewrite N.mod_small by lia. f_equal. lia. Qed.

Section Runs.
Context {E : Env} {EL : EnvLaws E}.

Lemma pads_one {G : Type} {R : Rng G} {RL : RngLaws G R} c g0 g d pl w n rc rt th :
  gen_range 1 1024 g0 = (d, g) -> padding_strategy c = Random -> sound_payload pl -> healthy (pw_writer w) ->
  counted n (pw_cipher w) -> (overflow_checks = true -> n + 2 < 2 ^ 32) ->
  exists w', play (Shared w (Shaper c g0) Free false false AppOut th rc rt) [CallWrite pl; App; App; App; App] =
      Some (Shared w' (Shaper c g) Free false false AppOut th (rc ++ [size_of pl; d]) (rt ++ [(pl, Ok tt)])) /\
    healthy (pw_writer w') /\ counted (n + 2) (pw_cipher w') /\
    exists out, written (pw_writer w') = written (pw_writer w) ++ out /\ len out = size_of pl + d + 40.
Proof.
  intros Hd Pd Sp Hh Hc Hr.
  destruct (sync_write_fine w (decoy (zeros d)) n Hh Hc) as (pk1 & c1 & w1 & W1 & _ & <- & C1 & H1 & O1 & L1).
  { intros Ho. specialize (Hr Ho). lia. }
  { eexists. reflexivity. }
  destruct (sync_write_fine w1 pl (n + 1) H1 C1) as (pk2 & c2 & w2 & W2 & _ & <- & C2 & H2 & O2 & L2).
  { intros Ho. specialize (Hr Ho). lia. }
  { exact Sp. }
  exists w2. split; [|split; [assumption|split; [replace (n + 2) with (n + 1 + 1) by lia; assumption|]]].
  - pose proof (C64_pad E G R RL (Shaper c g0) pl) as Q. cbn [sh_rng sh_config] in Q.
    rewrite Hd in Q. destruct Q as [Q _]. specialize (Q Sp). rewrite Pd in Q.
    cbn [play do_move app_at app_step set_app lock poisoned set_lock st_shaper st_writer returned records thread_at shutdown].
    rewrite Q. cbn [app_step set_app set_shaper set_writer app_at lock poisoned set_lock st_shaper st_writer returned records thread_at shutdown].
    rewrite W1. cbn [app_step set_app set_shaper set_writer app_at lock poisoned set_lock st_shaper st_writer returned records thread_at shutdown].
    rewrite W2. reflexivity.
  - exists (pk1 ++ pk2). split; [now rewrite O2, O1, <- app_assoc|]. rewrite len_app, L1, L2, size_of_decoy, len_zeros. lia.
Qed.

Lemma play_app {G : Type} {R : Rng G} : forall ms (s : shared) ms',
  play s (ms ++ ms') = match play s ms with Some s1 => play s1 ms' | None => None end.
Proof.
  induction ms as [|m ms IH]; intros s ms'; [reflexivity|]. cbn [app play]. destruct (do_move s m) as [s1|]; [apply IH|reflexivity].
Qed.

Lemma pads_all c : forall pls ds w n rc rt th,
  length ds = length pls -> Forall (fun d => 1 <= d <= 1024) ds ->
  padding_strategy c = Random -> Forall sound_payload pls -> healthy (pw_writer w) ->
  counted n (pw_cipher w) -> (overflow_checks = true -> n + 2 * len pls < 2 ^ 32) ->
  exists s out, @play E (list N) draws (Shared w (Shaper c (map (fun d => d - 1) ds)) Free false false AppOut th rc rt) (one_by_one pls) = Some s /\
    lock s = Free /\ poisoned s = false /\ returned s = rt ++ map (fun pl => (pl, Ok tt)) pls /\
    written (pw_writer (st_writer s)) = written (pw_writer w) ++ out /\
    len out = sum (map size_of pls) + sum ds + 40 * len pls.
Proof.
  induction pls as [|pl pls IH]; intros [|d ds] w n rc rt th L F Pd So Hh Hc Hr; try discriminate.
  - exists (Shared w (Shaper c []) Free false false AppOut th rc rt), []. cbn. rewrite !app_nil_r. repeat split.
  - injection L as L. apply Forall_cons_iff in F. destruct F as [Fd F]. apply Forall_cons_iff in So. destruct So as [Sp So].
    rewrite len_cons in Hr.
    destruct (pads_one (G := list N) (R := draws) (RL := draws_laws) c ((d - 1) :: map (fun d => d - 1) ds) (map (fun d => d - 1) ds) d pl w n rc rt th
      (draw_is d _ Fd) Pd Sp Hh Hc ltac:(intros Ho; specialize (Hr Ho); lia)) as (w' & P & H' & C' & o1 & O1 & L1).
    destruct (IH ds w' (n + 2) (rc ++ [size_of pl; d]) (rt ++ [(pl, Ok tt)]) th L F Pd So H' C'
      ltac:(intros Ho; specialize (Hr Ho); lia)) as (s & o2 & P2 & A & B & Rt & O2 & L2).
    exists s, (o1 ++ o2). change (one_by_one (pl :: pls)) with ([CallWrite pl; App; App; App; App] ++ one_by_one pls).
    rewrite play_app. cbn [map]. rewrite P. split; [exact P2|]. split; [exact A|]. split; [exact B|].
    split; [rewrite Rt, <- app_assoc; reflexivity|]. split; [rewrite O2, O1, <- app_assoc; reflexivity|].
    rewrite len_app, L1, L2, len_cons. cbn [map sum fold_right]. unfold sum. lia.
Qed.

End Runs.

(** Payloads whose total differs by at most 1023 for each may look the same: there are outcomes of the random draws
    with which both sessions put equally many bytes on the wire. *)
Theorem C85_hides : forall (E : Env) (EL : EnvLaws E) p c n pls pls',
  padding_strategy c = Random -> healthy (pw_writer p) -> counted n (pw_cipher p) ->
  (overflow_checks = true -> n + 2 * len pls < 2 ^ 32) ->
  Forall sound_payload pls -> Forall sound_payload pls' -> len pls = len pls' ->
  sum (map size_of pls) <= sum (map size_of pls') + 1023 * len pls ->
  sum (map size_of pls') <= sum (map size_of pls) + 1023 * len pls ->
  exists (g g' : list N) s s' wire wire',
    @play E _ draws (shared_new p (Shaper c g) []) (one_by_one pls) = Some s /\
    @play E _ draws (shared_new p (Shaper c g') []) (one_by_one pls') = Some s' /\
    returned s = map (fun pl => (pl, Ok tt)) pls /\ returned s' = map (fun pl => (pl, Ok tt)) pls' /\
    written (pw_writer (st_writer s)) = written (pw_writer p) ++ wire /\
    written (pw_writer (st_writer s')) = written (pw_writer p) ++ wire' /\ len wire = len wire'.
Proof.
  intros E EL p c n pls pls' Pd Hh Hc Hr So So' L Q Q'. set (a := sum (map size_of pls)) in *. set (b := sum (map size_of pls')) in *.
  destruct (draws_of_sum (length pls) (len pls + (b - a))) as (ds & Ld & Fd & Sd).
  { unfold len in *. lia. }
  destruct (draws_of_sum (length pls') (len pls' + (a - b))) as (ds' & Ld' & Fd' & Sd').
  { unfold len in *. lia. }
  destruct (pads_all c pls ds p n [] [] ThCheck Ld Fd Pd So Hh Hc Hr) as (s & o & P & _ & _ & Rt & O & Lo).
  destruct (pads_all c pls' ds' p n [] [] ThCheck Ld' Fd' Pd So' Hh Hc ltac:(rewrite <- L; exact Hr)) as (s' & o' & P' & _ & _ & Rt' & O' & Lo').
  exists (map (fun d => d - 1) ds), (map (fun d => d - 1) ds'), s, s', o, o'.
  split; [exact P|]. split; [exact P'|]. split; [exact Rt|]. split; [exact Rt'|]. split; [exact O|]. split; [exact O'|].
  rewrite Lo, Lo', Sd, Sd', <- L. subst a b. lia.
Qed.
Print Assumptions C85_hides.

(** "hiding the genuine packet size" (traffic/README.md:23): not when the sizes differ by 1024 bytes. *)
Theorem C85_any_size_refuted :
  ~ forall (E : Env) (EL : EnvLaws E) (G : Type) (R : Rng G) (RL : RngLaws G R) p c pl pl' ms,
      padding_strategy c = Random -> decoy_strategy c = Disabled -> healthy (pw_writer p) ->
      sound_payload pl -> sound_payload pl' ->
      exists g g' s s',
        play (shared_new p (Shaper c g) []) (CallWrite pl :: ms) = Some s /\
        play (shared_new p (Shaper c g') []) (CallWrite pl' :: ms) = Some s' /\
        len (written (pw_writer (st_writer s))) = len (written (pw_writer (st_writer s'))).
Proof.
  intros H. pose (pl := genuine []). pose (pl' := genuine (zeros 1024)).
  destruct (H (toy true) (toy_laws true) (list N) draws draws_laws toy_writer (Config Random Disabled) pl pl' [App; App; App; App])
    as (g & g' & s & s' & P & P' & Q); try reflexivity.
  { split; constructor. }
  { eexists. reflexivity. }
  { eexists. reflexivity. }
  assert (forall q g s, sound_payload q -> @play (toy true) _ draws (shared_new toy_writer (Shaper (Config Random Disabled) g) []) (one_by_one [q]) = Some s ->
    size_of q + 41 <= len (written (pw_writer (st_writer s))) <= size_of q + 1064) as B.
  { clear. intros q g s Sq P. change (one_by_one [q]) with [CallWrite q; App; App; App; App] in P.
    destruct (gen_range 1 1024 g) as [d g1] eqn:D. pose proof (gen_range_in 1 1024 g ltac:(lia)) as Rg. rewrite D in Rg. cbn [fst] in Rg.
    destruct (@pads_one (toy true) (toy_laws true) (list N) draws draws_laws (Config Random Disabled) g g1 d q toy_writer 0 [] [] ThCheck
      D eq_refl Sq) as (w & P' & _ & _ & o & O & L).
    - split; constructor.
    - intros _. vm_compute. repeat split; discriminate.
    - intros _. reflexivity.
    - unfold shared_new in P. rewrite P' in P. injection P as <-. cbn [st_writer]. rewrite O, len_app, L.
      change (len (written (pw_writer toy_writer))) with 0. lia. }
  pose proof (B pl g s ltac:(eexists; reflexivity) P) as B1.
  pose proof (B pl' g' s' ltac:(eexists; reflexivity) P') as B2.
  change (size_of pl) with 0 in B1. assert (size_of pl' = 1024) as Z by (vm_compute; reflexivity). rewrite Z in B2. lia.
Qed.
Print Assumptions C85_any_size_refuted.

(** A payload of 1000 bytes and an empty one, with draws that make them look alike; and two whose sizes differ by more. *)
Example C85_example :
  let size g q := match @play (toy true) _ draws (shared_new toy_writer (Shaper (Config Random Disabled) g) []) (one_by_one [genuine (zeros q)]) with
                  | Some s => Some (len (written (pw_writer (st_writer s))), len (returned s))
                  | None => None
                  end in
  size [0] 1000 = Some (1041, 1) /\ size [1000] 0 = Some (1041, 1) /\ size [1023] 0 = Some (1064, 1) /\ size [0] 1024 = Some (1065, 1).
Proof. vm_compute. repeat split. Qed.
