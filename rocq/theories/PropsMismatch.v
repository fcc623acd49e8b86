(** * Property C96: two endpoints that do not belong together *)
From Coq Require Import List NArith Bool Lia.
From Coq.Strings Require Import Byte.
From Verif Require Import Base BaseFacts Env Toy FsChacha Cipher Histories CipherProofs Handshake SpecHandshake HsDriver HandshakeProofs HsRunProofs
  Transport Io SpecIo Sessions SpecPair SpecReplay PropsHandshake PropsIo PropsMiddle HsSteps HsStepsProofs SpecPipes PipesProofs PropsPipes MismatchProofs.
Import ListNotations.
Local Open Scope N_scope.

(** Two endpoints over two pipes, each with a network and a role of its own.  Unless, by coincidence, what one of them
    sends has the terminator the other looks for among its first 4111 bytes behind the key, no run gets any of them
    beyond the search for the terminator: the only way to end is [NoGarbageTerminator], after 4175 bytes.  If they send
    less, and the transport does not clog, they end up waiting for each other, everything sent having been read. *)
Theorem C96_strangers : forall (E : Env) (EL : EnvLaws E) magica magicb ra rb ska skb ga gb da db,
  len magica = 4 -> len magicb = 4 ->
  sk_valid ska = true -> sk_valid skb = true ->
  (debug_assertions = true -> ska <> zeros 32 /\ skb <> zeros 32) ->
  len (garbage_bytes ga) <= 4095 -> len (garbage_bytes gb) <= 4095 ->
  (overflow_checks = true -> len (decoy_list da) + 1 < 2 ^ 32 /\ len (decoy_list db) + 1 < 2 ^ 32) ->
  take 4 (ellswift_of skb) <> magica -> take 4 (ellswift_of ska) <> magicb ->
  exists ma mb pa pb psa psb oca ocb,
    keys_of magica ra ska (ellswift_of skb) ma /\ keys_of magicb rb skb (ellswift_of ska) mb /\
    hs_begin magica ra ska ga = Ret pa /\ hs_begin magicb rb skb gb = Ret pb /\
    send_all (outbound (session_new ma ra)) (version_msgs ga (decoy_list da)) = Ret (psa, oca) /\
    send_all (outbound (session_new mb rb)) (version_msgs gb (decoy_list db)) = Ret (psb, ocb) /\
    ((forall i, i <= 4095 -> ~ occurs_at (terminator ma (opp ra)) (garbage_bytes gb ++ terminator mb rb ++ List.concat psb) i) ->
     (forall i, i <= 4095 -> ~ occurs_at (terminator mb (opp rb)) (garbage_bytes ga ++ terminator ma ra ++ List.concat psa) i) ->
     forall fla flb capacity n st,
       pipe_run fla flb da db capacity n (Pipes pa pb [] []) st ->
       N.of_nat n <= 8 + 3 * (flight1 ga + flight2 da + flight1 gb + flight2 db) /\
       (forall x, side_a st = Over x -> x = Err (Internal NoGarbageTerminator) /\ 4175 <= flight1 gb + flight2 db) /\
       (forall x, side_b st = Over x -> x = Err (Internal NoGarbageTerminator) /\ 4175 <= flight1 ga + flight2 da) /\
       (stopped fla flb da db capacity st ->
        (~ clogs capacity (flight1 ga) (flight2 da) (flight1 gb) (flight2 db) ->
         flight1 ga + flight2 da < 4175 -> flight1 gb + flight2 db < 4175 ->
         wants_input (side_a st) = true /\ wants_input (side_b st) = true /\ a_to_b st = [] /\ b_to_a st = []) /\
        (flight1 ga + flight2 da <= capacity -> flight1 gb + flight2 db <= capacity ->
         is_over (side_a st) = (4175 <=? flight1 gb + flight2 db) /\ is_over (side_b st) = (4175 <=? flight1 ga + flight2 da)))).
Proof.
  intros E EL magica magicb ra rb ska skb ga gb da db Hma Hmb Va Vb Hz Hga Hgb Ho Mb Ma.
  pose proof (start_ok magica ra ska ga Va (fun H => proj1 (Hz H)) Hga) as Sa.
  pose proof (start_ok magicb rb skb gb Vb (fun H => proj2 (Hz H)) Hgb) as Sb.
  destruct (key_ok magica ra (EcdhPoint ska (ellswift_of ska)) ga (ellswift_of skb) da Hma (ellswift_len skb) Mb (fun H => proj1 (Ho H)))
    as (ma & psa & oca & KFa & SAa & Ka).
  destruct (key_ok magicb rb (EcdhPoint skb (ellswift_of skb)) gb (ellswift_of ska) db Hmb (ellswift_len ska) Ma (fun H => proj2 (Ho H)))
    as (mb & psb & ocb & KFb & SAb & Kb).
  cbn [elligator_swift secret_key] in KFa, KFb.
  assert (TLa : forall q, len (terminator ma q) = 16).
  { intros q. clear - KFa. destruct (in_order ra (ellswift_of ska) (ellswift_of skb)). exact (terminator_len _ _ q KFa). }
  assert (TLb : forall q, len (terminator mb q) = 16).
  { intros q. clear - KFb. destruct (in_order rb (ellswift_of skb) (ellswift_of ska)). exact (terminator_len _ _ q KFb). }
  pose proof (flight2_len magica ra (EcdhPoint ska (ellswift_of ska)) ga (ellswift_of skb) da _ _ Hma (ellswift_len skb) Mb (fun H => proj1 (Ho H)) Ka) as Ya.
  pose proof (flight2_len magicb rb (EcdhPoint skb (ellswift_of skb)) gb (ellswift_of ska) db _ _ Hmb (ellswift_len ska) Ma (fun H => proj2 (Ho H)) Kb) as Yb.
  destruct (flight1_len magica ra ska ga _ _ Va (fun H => proj1 (Hz H)) Hga Sa) as (_ & Xa & Ta).
  destruct (flight1_len magicb rb skb gb _ _ Vb (fun H => proj2 (Hz H)) Hgb Sb) as (_ & Xb & Tb).
  set (fa := bip_first_flight ska (garbage_bytes ga)) in *. set (fb := bip_first_flight skb (garbage_bytes gb)) in *.
  set (wa := terminator ma ra ++ List.concat psa) in *. set (wb := terminator mb rb ++ List.concat psb) in *.
  exists ma, mb, (SendingKey fa (Handshake magica ra (SentKey (EcdhPoint ska (ellswift_of ska)) ga))),
    (SendingKey fb (Handshake magicb rb (SentKey (EcdhPoint skb (ellswift_of skb)) gb))), psa, psb, oca, ocb.
  split; [exact KFa|]. split; [exact KFb|]. split; [now apply begins|]. split; [now apply begins|]. split; [exact SAa|]. split; [exact SAb|].
  intros Na Nb fla flb K n st R.
  assert (Pos : forall d, 0 < flight2 d) by (intros; unfold flight2; lia). pose proof (Pos da) as Pa. pose proof (Pos db) as Pb.
  assert (F1 : forall g, 64 <= flight1 g) by (intros g; unfold flight1; lia). pose proof (F1 ga) as Fa. pose proof (F1 gb) as Fb.
  assert (La : 64 <= len fa) by (rewrite Xa; exact Fa). assert (Lb : 64 <= len fb) by (rewrite Xb; exact Fb).
  rewrite <- Tb, <- (take_app_le 64 fb wb) in Ka by assumption. rewrite <- Ta, <- (take_app_le 64 fa wa) in Kb by assumption.
  assert (Q64a : 64 < len (fa ++ wa)) by (rewrite len_app, Xa, Ya; lia).
  assert (Q64b : 64 < len (fb ++ wb)) by (rewrite len_app, Xb, Yb; lia).
  assert (Da : drop 64 (fa ++ wa) = garbage_bytes ga ++ wa).
  { unfold fa, bip_first_flight. rewrite <- app_assoc. apply drop_app_exact. symmetry. apply ellswift_len. }
  assert (Db : drop 64 (fb ++ wb) = garbage_bytes gb ++ wb).
  { unfold fb, bip_first_flight. rewrite <- app_assoc. apply drop_app_exact. symmetry. apply ellswift_len. }
  rewrite <- Xa, <- Xb, <- Ya, <- Yb.
  match type of Ka with party_key ?x _ _ = Ret (Ok (?y, _)) => set (ha := x) in *; set (ha' := y) in * end.
  match type of Kb with party_key ?x _ _ = Ret (Ok (?y, _)) => set (hb := x) in *; set (hb' := y) in * end.
  assert (NTa : no_term (remote_garbage_terminator (hs_state ha')) (drop 64 (fb ++ wb))) by (rewrite Db; exact Na).
  assert (NTb : no_term (remote_garbage_terminator (hs_state hb')) (drop 64 (fa ++ wa))) by (rewrite Da; exact Nb).
  change (Pipes (SendingKey fa ha) (SendingKey fb hb) [] []) with (start ha hb fa fb) in R.
  assert (LTa : len (remote_garbage_terminator (hs_state ha')) = 16) by exact (TLa (opp ra)).
  assert (LTb : len (remote_garbage_terminator (hs_state hb')) = 16) by exact (TLb (opp rb)).
  split. { pose proof (apart_bounded fla flb magica magicb ra rb ska skb ga gb da db K ha hb fa fb ha' hb' wa wb
    Hma Hmb Sa Sb Q64a Q64b La Lb Ka Kb LTa LTb NTa NTb n st R). lia. }
  split. { intros x O. exact (apart_over_a fla flb magica magicb ra rb ska skb ga gb da db K ha hb fa fb ha' hb' wa wb
    Hma Hmb Sa Sb Q64a Q64b La Lb Ka Kb LTa LTb NTa NTb n st x R O). }
  split. { intros x O. exact (apart_over_b fla flb magica magicb ra rb ska skb ga gb da db K ha hb fa fb ha' hb' wa wb
    Hma Hmb Sa Sb Q64a Q64b La Lb Ka Kb LTa LTb NTa NTb n st x R O). }
  intros St. split.
  - intros NC S1 S2. exact (apart_waits fla flb magica magicb ra rb ska skb ga gb da db K ha hb fa fb ha' hb' wa wb
      Hma Hmb Sa Sb Q64a Q64b La Lb Ka Kb LTa LTb NTa NTb n st R St NC S1 S2).
  - intros K1 K2. exact (apart_gives_up fla flb magica magicb ra rb ska skb ga gb da db K ha hb fa fb ha' hb' wa wb
      Hma Hmb Sa Sb Q64a Q64b La Lb Ka Kb LTa LTb NTa NTb n st R St K1 K2).
Qed.
Print Assumptions C96_strangers.

(** Two endpoints that wait for each other, the pipes being empty, do so for ever. *)
Theorem C96_for_ever : forall (E : Env) fla flb da db capacity st,
  wants_input (side_a st) = true -> wants_input (side_b st) = true -> a_to_b st = [] -> b_to_a st = [] ->
  forall n st', pipe_run fla flb da db capacity n st st' -> n = 0%nat /\ st' = st.
Proof.
  intros E fla flb da db K st Wa Wb Qa Qb n st' R.
  assert (WW : forall p : place, wants_input p = true -> wants_output p = false) by (intros []; cbn; congruence).
  assert (NT : forall fl d p room p' inc' out, wants_input p = true -> ~ turn fl d p [] room p' inc' out).
  { intros fl d p room p' inc' out W T. destruct T as [m p' s' w' WO Hm H|m p' s' w' WI Hm H|p' s' w' WO WI NO H].
    - rewrite (WW _ W) in WO. discriminate.
    - change (len (@nil byte)) with 0 in Hm. lia.
    - congruence. }
  induction R as [st|n st st1 st2 R IH S]; [auto|]. destruct (IH Wa Wb Qa Qb) as [_ ->]. exfalso.
  destruct S as [p p' q ab ba ba' out T|p q q' ab ba ab' out T]; cbn [side_a side_b a_to_b b_to_a] in *.
  - subst ba. exact (NT _ _ _ _ _ _ _ Wa T).
  - subst ab. exact (NT _ _ _ _ _ _ _ Wb T).
Qed.
Print Assumptions C96_for_ever.

(** Two initiators, the one with garbage, the other with a decoy. *)
Definition strangers_begin : pipes := Eval vm_compute in
  match hs_begin (E := toy_keyed true) mainnet Initiator ska (Some (repeat x2a 40)), hs_begin (E := toy_keyed true) mainnet Initiator skb None with
  | Ret pa, Ret pb => Pipes pa pb [] []
  | _, _ => Pipes (Over (Err eof)) (Over (Err eof)) [] []
  end.
Definition strangers_schedule : list (bool * N) :=
  [(true, 200); (false, 200); (true, 0); (false, 0); (true, 64); (false, 64); (true, 200); (false, 200); (true, 0); (false, 0);
   (true, 16); (false, 16); (true, 43); (false, 60)].
Definition strangers_end : option pipes := Eval vm_compute in
  play (E := toy_keyed true) None (Some [[x01; x02; x03]]) 1000 strangers_schedule strangers_begin.

Example C96_example :
  match strangers_end with
  | Some (Pipes (ReadingGarbage x _) (ReadingGarbage y _) [] []) => len x = 59 /\ len y = 76
  | _ => False
  end /\
  flight1 (Some (repeat x2a 40)) + flight2 None = 64 + 76 /\ flight1 None + flight2 (Some [[x01; x02; x03]]) = 64 + 59 /\
  ~ clogs 1000 104 36 64 59.
Proof. split; [vm_compute; split; reflexivity|]. split; [reflexivity|]. split; [reflexivity|]. unfold clogs. lia. Qed.

(** The other side of it: 4111 bytes of garbage and decoys are given up on. *)
Definition loud_end : option pipes := Eval vm_compute in
  match hs_begin (E := toy_keyed true) mainnet Initiator ska None, hs_begin (E := toy_keyed true) mainnet Initiator skb (Some (repeat x2b 4095)) with
  | Ret pa, Ret pb => play (E := toy_keyed true) None None 5000
      ([(true, 200); (false, 4159); (true, 0); (false, 0); (true, 64); (false, 64); (true, 200); (false, 200); (true, 0); (true, 16)] ++
       repeat (true, 256) 15 ++ [(true, 255); (false, 0); (false, 16); (false, 20)]) (Pipes pa pb [] [])
  | _, _ => None
  end.

Example C96_loud_example :
  match loud_end with
  | Some (Pipes (Over (Err (Internal NoGarbageTerminator))) (ReadingGarbage y _) [] rest) => len y = 36 /\ len rest = 20
  | _ => False
  end.
Proof. vm_compute. split; reflexivity. Qed.

(** So a wrong role is not reported. *)
Theorem C96_reported_refuted :
  ~ forall (E : Env) (EL : EnvLaws E) magic r ska skb ga gb da db capacity pa pb n st,
      EcdhAgrees E -> len magic = 4 -> hs_begin magic r ska ga = Ret pa -> hs_begin magic r skb gb = Ret pb ->
      pipe_run Sync Tokio da db capacity n (Pipes pa pb [] []) st -> stopped Sync Tokio da db capacity st ->
      exists e, side_a st = Over (Err e) \/ side_b st = Over (Err e).
Proof.
  intros H. destruct strangers_begin as [pa pb ab ba] eqn:Qb. destruct strangers_end as [st|] eqn:Qe; [|discriminate].
  pose proof (play_sound (E := toy_keyed true) None (Some [[x01; x02; x03]]) 1000 strangers_schedule 0 strangers_begin strangers_begin st
    (run_start _ _ _ _ _ _) Qe) as R.
  destruct (H (toy_keyed true) (toy_keyed_laws true) mainnet Initiator ska skb (Some (repeat x2a 40)) None None (Some [[x01; x02; x03]]) 1000
    (side_a strangers_begin) (side_b strangers_begin) _ st (toy_keyed_ecdh true) eq_refl eq_refl eq_refl R) as (e & [O|O]).
  - intros st' S. vm_compute in Qe. injection Qe as <-.
    match type of S with pipe_step _ _ _ _ _ ?x _ =>
      destruct (C96_for_ever (toy_keyed true) _ _ _ _ _ x eq_refl eq_refl eq_refl eq_refl _ _ (run_step _ _ _ _ _ _ _ _ _ (run_start _ _ _ _ _ _) S)) end.
    discriminate.
  - vm_compute in Qe. injection Qe as <-. discriminate O.
  - vm_compute in Qe. injection Qe as <-. discriminate O.
Qed.
Print Assumptions C96_reported_refuted.
