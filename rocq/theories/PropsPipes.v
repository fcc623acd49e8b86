(** * Property C63: two endpoints over transports of bounded capacity *)
From Coq Require Import List NArith Bool Lia.
From Coq.Strings Require Import Byte.
From Verif Require Import Base BaseFacts Env FsChacha Cipher Histories CipherProofs Handshake SpecHandshake HsDriver HandshakeProofs HsRunProofs Transport Io
  SpecIo Sessions SessionProofs Toy PropsHandshake PropsIo
  Traffic SpecTraffic PropsTraffic PropsSession PropsShape HsSteps HsStepsProofs SpecPipes PipesProofs.
Import ListNotations.
Local Open Scope N_scope.

(** ** C63 *)
(** The handshake in single operations is the handshake. *)
Theorem C63_steps : forall (E : Env) (EL : EnvLaws E) fl magic r rnd g d s w,
  len magic = 4 ->
  match io_handshake fl magic r rnd g d s w with
  | Ret o => hs_begin magic r rnd g <> Panic /\ forall p, hs_begin magic r rnd g = Ret p -> exists n s' x,
      hs_steps n fl d p s w = Ret (Over x, s', ho_writer o) /\
      ho_result o = match x with Ok (i, oc, sr) => Ok (i, oc, set_inner sr s') | Err e => Err e end
  | Panic => hs_begin magic r rnd g = Panic \/
      exists p n, hs_begin magic r rnd g = Ret p /\ hs_steps n fl d p s w = Panic
  | NoFuel => False
  end /\ hs_begin magic r rnd g <> NoFuel.
Proof.
  intros E EL fl magic r rnd g d s w Hm. pose proof (handshake_steps fl d magic r rnd g s w Hm) as H.
  destruct (C40_terminates E EL fl magic r rnd g d s w Hm) as [NF _]. split.
  - destruct (io_handshake fl magic r rnd g d s w) as [o| |]; cbn [bind outcome] in H; [| |contradiction].
    + destruct (hs_begin magic r rnd g) as [p| |]; cbn [ends_run] in H; [|destruct H; discriminate|discriminate].
      split; [discriminate|]. intros p0 Q. injection Q as <-. cbn [ends] in H. destruct H as (n & s' & x & H & J). eauto.
    + destruct (hs_begin magic r rnd g) as [p| |]; cbn [ends_run] in H; [|now left|discriminate].
      right. cbn [ends] in H. destruct H as (n & H). eauto.
  - intros Q. rewrite Q in H. cbn [ends_run] in H. destruct (io_handshake fl magic r rnd g d s w); try discriminate. contradiction.
Qed.
Print Assumptions C63_steps.

Lemma flight1_len {E : Env} {EL : EnvLaws E} magic r sk g h f :
  sk_valid sk = true -> (debug_assertions = true -> sk <> zeros 32) -> len (garbage_bytes g) <= 4095 ->
  party_start magic r sk g = Ret (Ok (h, f)) ->
  h = Handshake magic r (SentKey (EcdhPoint sk (ellswift_of sk)) g) /\ len f = flight1 g /\ take 64 f = ellswift_of sk.
Proof.
  intros V Z L H. rewrite (start_ok magic r sk g V Z L) in H. injection H as <- <-. split; [reflexivity|].
  unfold bip_first_flight, flight1. rewrite len_app, ellswift_len. split; [destruct g; reflexivity|].
  apply take_app_exact. now rewrite ellswift_len.
Qed.

Lemma flight2_len {E : Env} {EL : EnvLaws E} magic r pt g their d h w :
  len magic = 4 -> len their = 64 -> take 4 their <> magic ->
  (overflow_checks = true -> len (decoy_list d) + 1 < 2 ^ 32) ->
  party_key (Handshake magic r (SentKey pt g)) their d = Ret (Ok (h, w)) -> len w = flight2 d.
Proof.
  intros Hm Ht Hv Ho H.
  destruct (key_ok magic r pt g their d Hm Ht Hv Ho) as (m & ps & oc & KF & S & K). rewrite K in H. injection H as _ <-.
  assert (len (terminator m r) = 16) as TL by (destruct (in_order r _ their); eapply terminator_len, KF).
  apply packet_lens in S. rewrite len_app, TL, S. unfold flight2. f_equal. clear.
  assert (Q : forall (l : list bytes) g, sum (map (fun m => len (m_contents m) + 20) (version_msgs g l)) =
    fold_right (fun d n => len d + 20 + n) 20 l).
  { induction l as [|x l IH]; intros g0; [reflexivity|]. cbn [version_msgs map sum fold_right m_contents].
    unfold sum in IH. now rewrite IH. }
  destruct d as [l|]; apply Q.
Qed.

(** Two honest endpoints, each direction of the transport holding [capacity] bytes.  Whatever the order in which they
    run and whatever the transport takes and offers at a time, there is a bound on the number of operations.  If the
    sizes clog neither endpoint ever gets to the end; otherwise they stop only when both have completed, with nothing
    left in the transport. *)
Theorem C63_pipes : forall (E : Env) (EL : EnvLaws E) magic ska skb ga gb da db,
  EcdhAgrees E -> len magic = 4 ->
  sk_valid ska = true -> sk_valid skb = true ->
  (debug_assertions = true -> ska <> zeros 32 /\ skb <> zeros 32) ->
  len (garbage_bytes ga) <= 4095 -> len (garbage_bytes gb) <= 4095 ->
  Forall (fun d => len d + 17 <= 4000014) (decoy_list da) ->
  Forall (fun d => len d + 17 <= 4000014) (decoy_list db) ->
  (overflow_checks = true -> len (decoy_list da) + 1 < 2 ^ 32 /\ len (decoy_list db) + 1 < 2 ^ 32) ->
  take 4 (ellswift_of ska) <> magic -> take 4 (ellswift_of skb) <> magic ->
  exists m pa pb,
    keys_from (bip_prk magic (bip_secret (ellswift_of ska) (ellswift_of skb) ska PartyA)) m /\
    hs_begin magic Initiator ska ga = Ret pa /\ hs_begin magic Responder skb gb = Ret pb /\
    (first_at (initiator_garbage_terminator m)
       (garbage_bytes ga ++ initiator_garbage_terminator m) (len (garbage_bytes ga)) ->
     first_at (responder_garbage_terminator m)
       (garbage_bytes gb ++ responder_garbage_terminator m) (len (garbage_bytes gb)) ->
     forall fla flb capacity n st,
       pipe_run fla flb da db capacity n (Pipes pa pb [] []) st ->
       N.of_nat n <= 8 + 3 * (flight1 ga + flight2 da + flight1 gb + flight2 db) /\
       (clogs capacity (flight1 ga) (flight2 da) (flight1 gb) (flight2 db) ->
        is_over (side_a st) = false /\ is_over (side_b st) = false) /\
       (~ clogs capacity (flight1 ga) (flight2 da) (flight1 gb) (flight2 db) ->
        stopped fla flb da db capacity st ->
        exists ia oca sra ib ocb srb,
          st = Pipes (Over (Ok (ia, oca, sra))) (Over (Ok (ib, ocb, srb))) [] [] /\
          ia = ocb /\ ib = oca /\ session_leftover sra = [] /\ session_leftover srb = [])).
Proof.
  intros E EL magic ska skb ga gb da db EA Hm Va Vb Hz Hga Hgb Hda Hdb Ho Ma Mb.
  destruct (endpoints magic ska skb ga gb da db EA Hm Va Vb Hz Hga Hgb Hda Hdb) as
    (ha & fa & hb & fb & ha' & wa & hb' & wb & m & oca & ocb & Sa & Sb & [La Lb] & Ka & Kb & KF & Oa & Ob & _ & _ & Fin);
    try assumption.
  destruct (flight1_len magic Initiator ska ga ha fa Va (fun H => proj1 (Hz H)) Hga Sa) as (Ha & Xa & Ta).
  destruct (flight1_len magic Responder skb gb hb fb Vb (fun H => proj2 (Hz H)) Hgb Sb) as (Hb & Xb & Tb).
  assert (Ya : len wa = flight2 da).
  { rewrite Ha, Tb in Ka. eapply flight2_len; [exact Hm|apply ellswift_len|exact Mb|intros Q; apply Ho, Q|exact Ka]. }
  assert (Yb : len wb = flight2 db).
  { rewrite Hb, Ta in Kb. eapply flight2_len; [exact Hm|apply ellswift_len|exact Ma|intros Q; apply Ho, Q|exact Kb]. }
  assert (Pos : forall d, 0 < flight2 d) by (intros; unfold flight2; lia).
  exists m, (SendingKey fa ha), (SendingKey fb hb). split; [exact KF|].
  split; [now apply begins|]. split; [now apply begins|].
  intros F1 F2 fla flb K n st R. destruct (Fin F1 F2 [] []) as [Ca Cb]. rewrite !app_nil_r in Ca, Cb.
  rewrite <- (drop_app_le 64 fb wb) in Ca by assumption. rewrite <- (drop_app_le 64 fa wa) in Cb by assumption.
  rewrite <- (take_app_le 64 fb wb) in Ka by assumption. rewrite <- (take_app_le 64 fa wa) in Kb by assumption.
  rewrite <- Xa, <- Xb, <- Ya, <- Yb.
  assert (Na : 0 < len wa) by (rewrite Ya; apply Pos). assert (Nb : 0 < len wb) by (rewrite Yb; apply Pos).
  change (Pipes (SendingKey fa ha) (SendingKey fb hb) [] []) with (start ha hb fa fb) in R.
  pose proof (run_bounded fla flb magic ska skb ga gb da db K ha hb fa fb ha' hb' wa wb Hm Sa Sb La Lb Ka Kb Na Nb n st R) as B.
  split; [lia|].
  pose proof (fun x => over_a fla flb magic ska skb ga gb da db K ha hb fa fb ha' hb' wa wb ocb Hm Sa Sb La Lb Ka Kb Na Nb Ca n st x R) as OA.
  pose proof (fun x => over_b fla flb magic ska skb ga gb da db K ha hb fa fb ha' hb' wa wb oca Hm Sa Sb La Lb Ka Kb Na Nb Cb n st x R) as OB.
  split.
  - intros C. split.
    + destruct (side_a st); try reflexivity. destruct (OA _ eq_refl) as (? & ? & ? & _ & _ & _ & _ & NC & _). contradiction.
    + destruct (side_b st); try reflexivity. destruct (OB _ eq_refl) as (? & ? & ? & _ & _ & _ & _ & NC & _). contradiction.
  - intros NC Hst.
    destruct (stopped_ends fla flb magic ska skb ga gb da db K ha hb fa fb ha' hb' wa wb ocb oca Hm Sa Sb La Lb Ka Kb Na Nb Ca Cb n st R Hst NC) as [Za Zb].
    destruct st as [pa pb ab ba]. cbn [side_a side_b a_to_b b_to_a] in *.
    destruct pa; try discriminate. destruct pb; try discriminate.
    destruct (OA _ eq_refl) as (? & ? & sra & _ & _ & _ & -> & _ & -> & Q1).
    destruct (OB _ eq_refl) as (? & ? & srb & _ & _ & _ & -> & _ & -> & Q2).
    exists ocb, oca, sra, oca, ocb, srb. rewrite Oa, Ob. repeat split; assumption.
Qed.
Print Assumptions C63_pipes.

(** Without garbage and decoys 64 bytes are what it takes. *)
Theorem C63_plain : forall capacity,
  clogs capacity (flight1 None) (flight2 None) (flight1 None) (flight2 None) <-> capacity < 64.
Proof.
  intros K. change (flight1 None) with 64. change (flight2 None) with 36. unfold clogs. lia.
Qed.
Print Assumptions C63_plain.

(** What the shapers add never clogs a transport of 7263 bytes, whatever they draw. *)
Theorem C63_shaped : forall (G : Type) (R : Rng G) (RL : RngLaws G R) sha shb ga da sha' reca gb db shb' recb capacity,
  shaper_handshake sha = (ga, da, sha', reca) -> shaper_handshake shb = (gb, db, shb', recb) ->
  7263 <= capacity -> ~ clogs capacity (flight1 ga) (flight2 da) (flight1 gb) (flight2 db).
Proof.
  intros G R RL sha shb ga da sha' reca gb db shb' recb K Ha Hb L.
  assert (Q : forall sh g d sh' rec, shaper_handshake sh = (g, d, sh', rec) -> flight1 g <= 4159 /\ flight2 d <= 3168).
  { intros sh g d sh' rec H. destruct (C41_handshake _ _ _ _ _ _ _ _ H) as (L1 & L2 & L3). split.
    - unfold flight1. destruct g; cbn [garbage_bytes] in L1; lia.
    - assert (Z : forall l : list bytes, Forall (fun d => 1 <= len d <= 1024) l ->
        fold_right (fun d n => len d + 20 + n) 20 l <= 20 + 1044 * len l).
      { induction 1 as [|x l B _ IH]; [cbn; lia|]. cbn [fold_right]. rewrite len_cons. lia. }
      unfold flight2. destruct d as [l|]; [|vm_compute; discriminate]. cbn [decoy_list] in *. specialize (Z l L3). lia. }
  destruct (Q _ _ _ _ _ Ha) as [A1 A2]. destruct (Q _ _ _ _ _ Hb) as [B1 B2]. unfold clogs. lia.
Qed.
Print Assumptions C63_shaped.

(** Whatever the capacity, there are decoys the handshake accepts that clog it. *)
Theorem C63_decoys : forall capacity, exists ds,
  Forall (fun d => len d + 17 <= 4000014) ds /\
  (capacity < 2 ^ 36 -> len ds + 1 < 2 ^ 32) /\
  clogs capacity (flight1 None) (flight2 (Some ds)) (flight1 None) (flight2 (Some ds)).
Proof.
  intros K. set (n := N.to_nat (K / 20 + 4)). exists (repeat [] n).
  assert (Lr : len (repeat (@nil byte) n) = K / 20 + 4) by (unfold len; rewrite repeat_length; subst n; lia).
  pose proof (N.div_mod K 20 ltac:(lia)) as D. pose proof (N.mod_lt K 20 ltac:(lia)) as M.
  split; [|split].
  - apply Forall_forall. intros d H. apply repeat_spec in H. subst d. vm_compute. discriminate.
  - intros Q. rewrite Lr. change (2 ^ 36) with 68719476736 in Q. change (2 ^ 32) with 4294967296. lia.
  - assert (flight2 (Some (repeat [] n)) = 36 + 20 * (K / 20 + 4)) as ->.
    { rewrite <- Lr. unfold flight2. clear. induction n as [|n IH]; [reflexivity|].
      cbn [repeat fold_right]. rewrite len_cons. change (len (@nil byte)) with 0. lia. }
    change (flight1 None) with 64. unfold clogs. lia.
Qed.
Print Assumptions C63_decoys.

(** A decoy of 64 KiB on either side is too much for a transport that holds 64 KiB. *)
Theorem C63_reliable_transport_completes_refuted :
  ~ forall (E : Env) (EL : EnvLaws E) magic ska skb da db pa pb fla flb capacity,
      EcdhAgrees E -> len magic = 4 -> sk_valid ska = true -> sk_valid skb = true ->
      Forall (fun d => len d <= 65536) (decoy_list da) -> Forall (fun d => len d <= 65536) (decoy_list db) ->
      hs_begin magic Initiator ska None = Ret pa -> hs_begin magic Responder skb None = Ret pb ->
      65536 <= capacity ->
      exists n st, pipe_run fla flb da db capacity n (Pipes pa pb [] []) st /\
        (is_over (side_a st) = true \/ is_over (side_b st) = true).
Proof.
  intros H.
  assert (exists big : bytes, len big = 65536) as (big & Z) by (exists (zeros 65536); exact (len_zeros 65536)).
  destruct (@C63_pipes (toy true) (toy_laws true) mainnet ska skb None None (Some [big]) (Some [big]))
    as (m & pa & pb & KF & Pa & Pb & Q).
  - apply toy_ecdh.
  - reflexivity.
  - vm_compute. reflexivity.
  - vm_compute. reflexivity.
  - intros _. split; vm_compute; discriminate.
  - vm_compute. discriminate.
  - vm_compute. discriminate.
  - constructor; [rewrite Z; vm_compute; discriminate|constructor].
  - constructor; [rewrite Z; vm_compute; discriminate|constructor].
  - intros _. split; reflexivity.
  - vm_compute. discriminate.
  - vm_compute. discriminate.
  - specialize (Q (first_at_start _) (first_at_start _)).
    destruct (H (toy true) (toy_laws true) mainnet ska skb (Some [big]) (Some [big]) pa pb Sync Tokio 65536) as (n & st & R & O);
      try assumption; try reflexivity.
    + apply toy_ecdh.
    + constructor; [rewrite Z; reflexivity|constructor].
    + constructor; [rewrite Z; reflexivity|constructor].
    + destruct (Q _ _ _ _ _ R) as (_ & C & _). destruct C as [C1 C2].
      * unfold clogs, flight1, flight2. cbn [fold_right]. rewrite Z. lia.
      * destruct O; congruence.
Qed.
Print Assumptions C63_reliable_transport_completes_refuted.

(** A schedule: who moves and how many bytes the transport takes or offers. *)
Definition take_turn {E : Env} fl d p (inc : bytes) room m : option (place * bytes * bytes) :=
  if is_over p then None else
  if wants_output p then
    if (1 <=? m) && (m <=? room) then
      match hs_step fl d p [] (Writer [Accept m] [] []) with Ret (p', _, w') => Some (p', inc, written w') | _ => None end
    else None
  else if wants_input p then
    if (1 <=? m) && (m <=? len inc) then
      match hs_step fl d p [Chunk (take m inc)] (Writer [] [] []) with
      | Ret (p', s', _) => Some (p', unread s' ++ drop m inc, [])
      | _ => None
      end
    else None
  else match hs_step fl d p [] (Writer [] [] []) with Ret (p', _, _) => Some (p', inc, []) | _ => None end.

Lemma take_turn_sound {E : Env} fl d p inc room m p' inc' out :
  take_turn fl d p inc room m = Some (p', inc', out) -> turn fl d p inc room p' inc' out.
Proof.
  unfold take_turn. destruct (is_over p) eqn:O; [discriminate|]. destruct (wants_output p) eqn:WO; [|destruct (wants_input p) eqn:WI].
  - destruct ((1 <=? m) && (m <=? room))%bool eqn:B; [|discriminate]. apply andb_prop in B. destruct B as [B1 B2].
    apply N.leb_le in B1, B2. destruct (hs_step _ _ _ _ _) as [[[p1 s1] w1]| |] eqn:S; [|discriminate..].
    intros H. injection H as <- <- <-. eapply turn_write; eauto.
  - destruct ((1 <=? m) && (m <=? len inc))%bool eqn:B; [|discriminate]. apply andb_prop in B. destruct B as [B1 B2].
    apply N.leb_le in B1, B2. destruct (hs_step _ _ _ _ _) as [[[p1 s1] w1]| |] eqn:S; [|discriminate..].
    intros H. injection H as <- <- <-. eapply turn_read; eauto.
  - destruct (hs_step _ _ _ _ _) as [[[p1 s1] w1]| |] eqn:S; [|discriminate..].
    intros H. injection H as <- <- <-. eapply turn_local; eauto.
Qed.

Fixpoint play {E : Env} da db capacity (ms : list (bool * N)) (st : pipes) : option pipes :=
  match ms with
  | [] => Some st
  | (true, m) :: ms =>
    match take_turn Sync da (side_a st) (b_to_a st) (capacity - len (a_to_b st)) m with
    | Some (p', ba', out) => play da db capacity ms (Pipes p' (side_b st) (a_to_b st ++ out) ba')
    | None => None
    end
  | (false, m) :: ms =>
    match take_turn Tokio db (side_b st) (a_to_b st) (capacity - len (b_to_a st)) m with
    | Some (p', ab', out) => play da db capacity ms (Pipes (side_a st) p' ab' (b_to_a st ++ out))
    | None => None
    end
  end.

Lemma play_sound {E : Env} da db K ms : forall n st0 st st', pipe_run Sync Tokio da db K n st0 st ->
  play da db K ms st = Some st' -> pipe_run Sync Tokio da db K (n + length ms) st0 st'.
Proof.
  induction ms as [|[[|] m] ms IH]; intros n st0 st st' R H; cbn [play length] in H |- *.
  - injection H as <-. now rewrite <- plus_n_O.
  - destruct (take_turn _ _ _ _ _ _) as [[[p' ba'] out]|] eqn:T; [|discriminate]. apply take_turn_sound in T.
    rewrite <- plus_n_Sm, <- plus_Sn_m. eapply IH; [|exact H]. eapply run_step; [exact R|]. destruct st. now apply step_a.
  - destruct (take_turn _ _ _ _ _ _) as [[[p' ba'] out]|] eqn:T; [|discriminate]. apply take_turn_sound in T.
    rewrite <- plus_n_Sm, <- plus_Sn_m. eapply IH; [|exact H]. eapply run_step; [exact R|]. destruct st. now apply step_b.
Qed.

(** 40 bytes of garbage against a decoy: with 64 bytes each way they complete, with 63 they do not get beyond the keys. *)
Definition pipes_begin : pipes := Eval vm_compute in
  match hs_begin (E := toy true) mainnet Initiator ska (Some (repeat x2a 40)), hs_begin (E := toy true) mainnet Responder skb None with
  | Ret pa, Ret pb => Pipes pa pb [] []
  | _, _ => Pipes (Over (Err eof)) (Over (Err eof)) [] []
  end.
Definition pipes_schedule : list (bool * N) :=
  [(true, 50); (false, 50); (true, 14); (false, 14); (false, 0); (false, 50); (true, 50); (false, 50); (true, 0);
   (true, 50); (false, 50); (true, 50); (false, 14); (true, 24); (false, 0); (false, 50); (true, 16); (false, 50);
   (true, 0); (false, 10); (true, 50); (false, 10); (true, 43); (false, 10); (true, 40); (true, 20); (true, 17)].

Example C63_example :
  let run := play (E := toy true) None (Some [[x01; x02; x03]]) in
  (match run 64 pipes_schedule pipes_begin with
   | Some (Pipes (Over (Ok (ia, oca, _))) (Over (Ok (ib, ocb, _))) [] []) => ia = ocb /\ ib = oca
   | _ => False
   end) /\
  (match run 63 [(true, 50); (false, 50); (true, 13); (false, 13)] pipes_begin with
   | Some (Pipes (SendingKey ra _) (SendingKey rb _) ab ba) => len ra = 41 /\ len rb = 1 /\ len ab = 63 /\ len ba = 63
   | _ => False
   end) /\
  flight1 (Some (repeat x2a 40)) = 104 /\ flight2 (Some [[x01; x02; x03]]) = 59 /\
  ~ clogs 64 104 36 64 59 /\ clogs 63 104 36 64 59.
Proof.
  split; [vm_compute; split; reflexivity|]. split; [vm_compute; repeat split|]. split; [reflexivity|]. split; [reflexivity|].
  unfold clogs. split; lia.
Qed.

(** The schedules are runs. *)
Example C63_example_runs : forall ms K st,
  play (E := toy true) None (Some [[x01; x02; x03]]) K ms pipes_begin = Some st ->
  pipe_run (E := toy true) Sync Tokio None (Some [[x01; x02; x03]]) K (length ms) pipes_begin st.
Proof. intros ms K st H. exact (play_sound _ _ _ ms 0 _ _ _ (run_start _ _ _ _ _ _) H). Qed.
