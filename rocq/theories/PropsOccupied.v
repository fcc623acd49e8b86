(** * Property C89: how long a peer can keep an endpoint in its handshake *)
From Coq Require Import List NArith ZArith Bool Lia.
From Coq.Strings Require Import Byte.
From Verif Require Import Base BaseFacts Env FsChacha Cipher Histories CipherProofs Handshake HsDriver HsRunProofs Spec SpecHandshake
  Transport Io SpecIo IoProofs IoRunProofs Futures Sessions SessionProofs EndpointProofs OversizeProofs Toy
  PropsCipher PropsHandshake PropsIo PropsSession.
Import ListNotations.
Local Open Scope N_scope.

(** The bytes of a peer's half of the handshake. *)
Definition half_size (g : option bytes) (ds : list bytes) : N :=
  64 + len (garbage_bytes g) + 16 + fold_right (fun d n => len d + 20 + n) 20 ds.

Section WithEnv.
Context {E : Env} {EL : EnvLaws E}.

Lemma versions_size : forall ds g c ps c', send_all c (version_msgs g ds) = Ret (ps, c') ->
  len (List.concat ps) = fold_right (fun d n => len d + 20 + n) 20 ds.
Proof.
  induction ds as [|d ds IH]; intros g c ps c' H; cbn [version_msgs send_all] in H.
  - apply bind_ret_inv in H. destruct H as ([p c1] & En & H). injection H as <- _.
    apply encrypt_vec_len in En. cbn [List.concat fold_right]. rewrite len_app. rewrite En. reflexivity.
  - apply bind_ret_inv in H. destruct H as ([p c1] & En & H).
    apply bind_ret_inv in H. destruct H as ([ps' c2] & Sa & H). injection H as <- _.
    apply encrypt_vec_len in En. apply IH in Sa. cbn [List.concat fold_right]. rewrite len_app, En, Sa. cbn. lia.
Qed.

Theorem occupied magic r sk sk' g d gr dr :
  EcdhAgrees E -> len magic = 4 ->
  sk_valid sk = true -> sk_valid sk' = true ->
  (debug_assertions = true -> sk <> zeros 32 /\ sk' <> zeros 32) ->
  len (garbage_bytes g) <= 4095 -> len (garbage_bytes gr) <= 4095 ->
  Forall (fun x => len x + 17 <= 4000014) (decoy_list dr) ->
  (overflow_checks = true -> len (decoy_list d) + 1 < 2 ^ 32 /\ len (decoy_list dr) + 1 < 2 ^ 32) ->
  take 4 (ellswift_of sk) <> magic -> take 4 (ellswift_of sk') <> magic ->
  exists k k' w m,
    party_start magic (opp r) sk' gr = Ret (Ok (k, ellswift_of sk' ++ garbage_bytes gr)) /\
    party_key k (ellswift_of sk) dr = Ret (Ok (k', w)) /\
    (let '(ski, skr) := in_order r sk sk' in
     keys_from (bip_prk magic (bip_secret (ellswift_of ski) (ellswift_of skr) ski PartyA)) m) /\
    (first_at (terminator m (opp r)) (garbage_bytes gr ++ terminator m (opp r)) (len (garbage_bytes gr)) ->
     let theirs := (ellswift_of sk' ++ garbage_bytes gr) ++ w in
     len theirs = half_size gr (decoy_list dr) /\
     forall fl s wr e n, healthy wr -> flatten fl s = (take n theirs, e) -> calm fl s ->
       exists o, io_handshake fl magic r sk g d s wr = Ret o /\
         if n <? len theirs then ho_result o = Err (end_error e)
         else exists i oc sr, ho_result o = Ok (i, oc, sr) /\ session_stream fl sr = ([], e)).
Proof.
  intros EA Hm Vs Vs' Hz Hg Hgr Fd Ho M M'.
  assert (exists m, let '(ski, skr) := in_order r sk sk' in
     keys_from (bip_prk magic (bip_secret (ellswift_of ski) (ellswift_of skr) ski PartyA)) m) as (m & KF).
  { destruct r; cbn [in_order].
    - destruct (key_ok magic Initiator (EcdhPoint sk (ellswift_of sk)) None (ellswift_of sk') None Hm (ellswift_len _) M')
        as (m & _ & _ & KF & _); [intros _; reflexivity|]. exists m. exact KF.
    - destruct (key_ok magic Initiator (EcdhPoint sk' (ellswift_of sk')) None (ellswift_of sk) None Hm (ellswift_len _) M)
        as (m & _ & _ & KF & _); [intros _; reflexivity|]. exists m. exact KF. }
  destruct (half magic r sk sk' g d m EA Hm Vs Vs' (fun Q => proj1 (Hz Q)) Hg (fun Q => proj1 (Ho Q)) M' KF) as
    (h & h' & ps & oc & St & K & S & Tr & In & _).
  destruct (half magic (opp r) sk' sk gr dr m EA Hm Vs' Vs (fun Q => proj2 (Hz Q)) Hgr (fun Q => proj2 (Ho Q)) M) as
    (k & k' & ps' & oc' & St' & K' & S' & Tr' & In' & _).
  { destruct r; exact KF. }
  exists k, k', (terminator m (opp r) ++ List.concat ps'), m. split; [exact St'|]. split; [exact K'|]. split; [exact KF|].
  intros Fi theirs.
  assert (forall rr, len (terminator m rr) = 16) as TL.
  { intros rr. destruct (in_order r sk sk'). eapply terminator_len, KF. }
  assert (inbound (session_new m r) = outbound (session_new m (opp r))) as Mi.
  { destruct (mirror m (opp r)) as [Q _]. rewrite Q. now destruct r. }
  assert (take 64 theirs = ellswift_of sk' /\ drop 64 theirs = garbage_bytes gr ++ terminator m (opp r) ++ List.concat ps' ++ []) as [T D].
  { unfold theirs. rewrite <- !app_assoc, app_nil_r, take_app_exact, drop_app_exact by (now rewrite ellswift_len). auto. }
  assert (L : len theirs = half_size gr (decoy_list dr)).
  { unfold theirs, half_size. rewrite !len_app, ellswift_len, TL, (versions_size _ _ _ _ _ S'). lia. }
  split; [exact L|]. intros fl s wr e n Hw Fl C.
  rewrite <- T in K.
  assert (Co : completes h' (drop 64 theirs) oc' []).
  { rewrite D, <- Tr. eapply completes_ok; try eassumption; rewrite ?Tr; try assumption; [apply TL|]. rewrite In, Mi. exact S'. }
  destruct (pure_handshake_complete fl magic r sk g d theirs e wr oc' [] h _ h' _ Hm Hw St ltac:(rewrite L; unfold half_size; lia) K Co)
    as (w' & a & _ & P).
  destruct (n <? len theirs) eqn:Ln.
  - apply N.ltb_lt in Ln. destruct (handshake_truncated _ _ _ _ _ _ _ _ _ _ _ _ _ _ _ Hm P n e) as (w2 & a2 & P2).
    { change (len (@nil byte)) with 0. lia. }
    destruct (ret_view fl magic r sk g d s wr _ e _ Hm Fl C P2) as (o & H & V). exists o. split; [exact H|].
    unfold hs_view in V. injection V as V _ _. destruct (ho_result o) as [[[i' o''] sr']|y]; cbn [stream_view] in V; congruence.
  - apply N.ltb_ge in Ln. rewrite take_all in Fl by exact Ln.
    destruct (ret_view fl magic r sk g d s wr _ e _ Hm Fl C P) as (o & H & V). exists o. split; [exact H|].
    destruct (view_ok fl o _ _ _ _ _ _ V) as (sr & R & S1 & _). exists oc', (outbound (sv_cipher (hs_state h'))), sr. split; [exact R|exact S1].
Qed.

End WithEnv.

(** ** C89 *)

(** An endpoint reads every byte of its peer's half before it is through, however many decoys that half has; at any byte before the
    last it waits for more. *)
Theorem C89_occupied : forall (E : Env) (EL : EnvLaws E) magic r sk sk' g d gr dr,
  EcdhAgrees E -> len magic = 4 ->
  sk_valid sk = true -> sk_valid sk' = true ->
  (debug_assertions = true -> sk <> zeros 32 /\ sk' <> zeros 32) ->
  len (garbage_bytes g) <= 4095 -> len (garbage_bytes gr) <= 4095 ->
  Forall (fun x => len x + 17 <= 4000014) (decoy_list dr) ->
  (overflow_checks = true -> len (decoy_list d) + 1 < 2 ^ 32 /\ len (decoy_list dr) + 1 < 2 ^ 32) ->
  take 4 (ellswift_of sk) <> magic -> take 4 (ellswift_of sk') <> magic ->
  exists k k' w m,
    party_start magic (opp r) sk' gr = Ret (Ok (k, ellswift_of sk' ++ garbage_bytes gr)) /\
    party_key k (ellswift_of sk) dr = Ret (Ok (k', w)) /\
    (let '(ski, skr) := in_order r sk sk' in
     keys_from (bip_prk magic (bip_secret (ellswift_of ski) (ellswift_of skr) ski PartyA)) m) /\
    (first_at (terminator m (opp r)) (garbage_bytes gr ++ terminator m (opp r)) (len (garbage_bytes gr)) ->
     let theirs := (ellswift_of sk' ++ garbage_bytes gr) ++ w in
     len theirs = half_size gr (decoy_list dr) /\
     forall fl s wr e n, healthy wr -> flatten fl s = (take n theirs, e) -> calm fl s ->
       exists o, io_handshake fl magic r sk g d s wr = Ret o /\
         if n <? len theirs then ho_result o = Err (end_error e)
         else exists i oc sr, ho_result o = Ok (i, oc, sr) /\ session_stream fl sr = ([], e)).
Proof. exact @occupied. Qed.
Print Assumptions C89_occupied.

(** Before the terminator there is a limit: 64 + 4111 bytes, in 4095 + 2 reads at the most (C22, C40).  Behind it there is none. *)
Theorem C89_bounded_refuted :
  ~ exists bound, forall (E : Env) (EL : EnvLaws E) fl magic r rnd g d s c e w o i oc sr,
      len magic = 4 -> flatten fl s = (c, e) -> calm fl s ->
      io_handshake fl magic r rnd g d s w = Ret o -> ho_result o = Ok (i, oc, sr) ->
      len c <= bound + len (fst (session_stream fl sr)).
Proof.
  intros (bound & H).
  set (ds := repeat ([] : bytes) (N.to_nat bound)).
  destruct (C89_occupied (toy false) (toy_laws false) mainnet Initiator ska skb None None None (Some ds)) as (k & k' & w & m & _ & _ & KF & Q).
  - apply toy_ecdh.
  - reflexivity.
  - vm_compute. reflexivity.
  - vm_compute. reflexivity.
  - intros _. split; vm_compute; discriminate.
  - vm_compute. discriminate.
  - vm_compute. discriminate.
  - apply Forall_forall. intros x I. apply repeat_spec in I. subst x. vm_compute. discriminate.
  - discriminate.
  - vm_compute. discriminate.
  - vm_compute. discriminate.
  - cbn [garbage_bytes app] in Q. destruct (Q (first_at_start _)) as (L & F). set (theirs := (_ ++ _) ++ w) in *.
    clearbody theirs.
    assert (Fl : flatten Sync [Chunk theirs] = (theirs, Closed)).
    { cbn [flatten]. rewrite app_nil_r. destruct theirs; reflexivity. }
    assert (Ca : calm Sync [Chunk theirs]) by (intros _; constructor; [discriminate|constructor]).
    destruct (F Sync [Chunk theirs] fresh Closed (len theirs)) as (o & Ho & R).
    + split; constructor.
    + rewrite take_all by lia. exact Fl.
    + exact Ca.
    + rewrite N.ltb_irrefl in R. destruct R as (i & oc & sr & R & Se).
      specialize (H (toy false) (toy_laws false) Sync mainnet Initiator ska None None _ _ _ _ o i oc sr eq_refl Fl Ca Ho R).
      rewrite Se, L in H. cbn [fst] in H. change (len (@nil byte)) with 0 in H. unfold half_size in H. cbn [decoy_list] in H.
      assert (Sz : forall n, N.of_nat n <= fold_right (fun d n => len d + 20 + n) 20 (repeat ([] : bytes) n)).
      { induction n as [|n IH]; [cbn; lia|]. cbn [repeat fold_right]. change (len (@nil byte)) with 0. lia. }
      specialize (Sz (N.to_nat bound)). fold ds in Sz. lia.
Qed.
Print Assumptions C89_bounded_refuted.

(** A responder whose half has 300 decoys: at 5000 and 6100 of its 6100 bytes. *)
Example C89_example :
  match @party_start (toy true) mainnet Responder skb None with
  | Ret (Ok (h, f)) =>
    match @party_key (toy true) h (@ellswift_of (toy true) ska) (Some (repeat [] 300)) with
    | Ret (Ok (_, w)) =>
      half_size None (repeat [] 300) = 6100 /\ len (f ++ w) = 6100 /\
        let hs n := @io_handshake (toy true) Sync mainnet Initiator ska None None [Chunk (take n (f ++ w))] fresh in
      match hs 5000, hs 6099, hs 6100 with
      | Ret o, Ret o', Ret o'' =>
        ho_result o = Err (Io UnexpectedEof RetryV1) /\ ho_result o' = Err (Io UnexpectedEof RetryV1) /\ len (ho_allocs o) = 246 /\
        match ho_result o'' with Ok _ => True | Err _ => False end
      | _, _, _ => False
      end
    | _ => False
    end
  | _ => False
  end.
Proof. vm_compute. repeat split. Qed.
