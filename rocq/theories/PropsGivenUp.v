(** * Property C103: a handshake that is given up and started over on the same connection

    "This function is *not* cancellation safe", protocol/src/futures.rs:126.  A caller of either driver may give a handshake up
    after any operation: the future is dropped, or a call failed (say a read timeout of a socket) and the caller tries again. *)
From Coq Require Import List NArith Bool Lia.
From Coq.Strings Require Import Byte.
From Verif Require Import Base BaseFacts Env Toy FsChacha Spec FsChachaProofs Cipher CipherFacts Histories CipherProofs Handshake SpecHandshake
  HsDriver HandshakeProofs HsRunProofs Transport Io SpecIo Sessions TransportProofs IoProofs IoRunProofs EndpointProofs IntegrityProofs
  SessionProofs HsSteps SpecPair SpecFlights PropsHandshake PropsIo PropsMiddle SpecReplay PropsReplay PropsFlights.
Import ListNotations.
Local Open Scope N_scope.

Section WithEnv.
Context {E : Env}.

(** An attempt that is given up after some number of operations, in a state [q] that is lost: what is left are transport and writer. *)
Definition given_up fl magic r sk g d s w (q : place) s' w' : Prop :=
  exists n p, hs_begin magic r sk g = Ret p /\ hs_steps n fl d p s w = Ret (q, s', w').

End WithEnv.

(** As long as nothing was sent nothing was read: then, and only then, a second attempt finds the connection as the first one did. *)
Theorem C103_untouched : forall (E : Env) (EL : EnvLaws E) fl magic r sk g d s w q s' w',
  len magic = 4 -> len (decoy_list d) + 1 < 2 ^ 32 -> given_up fl magic r sk g d s w q s' w' ->
  exists received sent, content s = received ++ content s' /\ written w' = written w ++ sent /\
    (sent = [] -> received = []) /\ (received <> [] -> prefix_of (ellswift_of sk ++ garbage_bytes g) sent).
Proof.
  intros E EL fl magic r sk g d s w q s' w' Hm Hd (n & p & B & H).
  destruct (C68_any_moment E EL fl magic r sk g d n p s w q s' w' Hm Hd B H) as (received & sent & Hc & Hw & D & _).
  exists received, sent. split; [exact Hc|]. split; [exact Hw|].
  pose proof (ellswift_len sk) as L.
  destruct D as [R P|_ ->|f2 k _ _ _ -> _].
  - split; [auto|]. intros N. contradiction.
  - split; [|intros _; exists []; now rewrite app_nil_r].
    intros Q. apply (f_equal len) in Q. rewrite len_app, L, len_nil in Q. lia.
  - split; [|intros _; eexists; reflexivity].
    intros Q. apply (f_equal len) in Q. rewrite !len_app, L, len_nil in Q. lia.
Qed.
Print Assumptions C103_untouched.

(** A second attempt, with its new key, that completes found its own terminator and a packet with a tag under its own key in what the
    first attempt left: its peer, which answers to the first key, sends both by coincidence only. *)
Theorem C103_second_attempt : forall (E : Env) (EL : EnvLaws E) fl magic r sk g d s w q s' w' fl2 sk2 g2 d2 o i oc sr,
  len magic = 4 -> len (decoy_list d) + 1 < 2 ^ 32 -> given_up fl magic r sk g d s w q s' w' ->
  io_handshake fl2 magic r sk2 g2 d2 s' w' = Ret o -> ho_result o = Ok (i, oc, sr) ->
  exists received m garbage lb ct more,
    content s = received ++ content s' /\
    keys_of magic r sk2 (take 64 (drop (len received) (content s))) m /\ len garbage <= 4095 /\ len lb = 3 /\
    drop (len received + 64) (content s) = garbage ++ terminator m (opp r) ++ lb ++
      (ct ++ mac (bip_packet_key (send_packet_key m (opp r)) 0) (bip_packet_nonce 0) garbage ct) ++ more.
Proof.
  intros E EL fl magic r sk g d s w q s' w' fl2 sk2 g2 d2 o i oc sr Hm Hd (n & p & B & H) H2 R.
  destruct (C68_any_moment E EL fl magic r sk g d n p s w q s' w' Hm Hd B H) as (received & sent & Hc & _).
  destruct (C94_by_coincidence E EL fl2 magic r sk2 g2 d2 s' w' o i oc sr Hm H2 R) as (m & garbage & lb & ct & more & K & Lg & Ll & Q).
  exists received, m, garbage, lb, ct, more. split; [exact Hc|].
  assert (drop (len received) (content s) = content s') as D by (rewrite Hc; apply drop_app_exact; reflexivity).
  rewrite D. split; [exact K|]. split; [exact Lg|]. split; [exact Ll|]. rewrite <- Q, <- D, drop_drop. reflexivity.
Qed.
Print Assumptions C103_second_attempt.

(** What the peer gets is what the first attempt sent and, behind it, what the second one sends.  It takes the first key, or the
    beginning of the first one continued by the second one, as the key of whom it talks to. *)
Theorem C103_peer_key : forall (E : Env) (EL : EnvLaws E) fl magic r sk g d s w q s' w' fl2 sk2 g2 d2 o,
  len magic = 4 -> len (decoy_list d) + 1 < 2 ^ 32 -> len (decoy_list d2) + 1 < 2 ^ 32 ->
  given_up fl magic r sk g d s w q s' w' -> io_handshake fl2 magic r sk2 g2 d2 s' w' = Ret o ->
  exists sent1 sent2, written w' = written w ++ sent1 /\ written (ho_writer o) = written w ++ sent1 ++ sent2 /\
    (64 <= len sent1 -> take 64 (sent1 ++ sent2) = ellswift_of sk) /\
    (len sent1 < 64 <= len sent2 ->
       take 64 (sent1 ++ sent2) = take (len sent1) (ellswift_of sk) ++ take (64 - len sent1) (ellswift_of sk2)).
Proof.
  intros E EL fl magic r sk g d s w q s' w' fl2 sk2 g2 d2 o Hm Hd Hd2 (n & p & B & H) H2.
  destruct (C68_any_moment E EL fl magic r sk g d n p s w q s' w' Hm Hd B H) as (c1 & s1 & _ & W1 & D1 & _).
  destruct (C68_handshake E EL fl2 magic r sk2 g2 d2 s' w' o Hm Hd2 H2) as (c2 & rest & s2 & _ & W2 & D2 & _).
  exists s1, s2. split; [exact W1|]. split; [now rewrite W2, W1, app_assoc|].
  assert (K : forall sk g ds c st, discloses magic r sk g ds c st -> exists tl, st = take (len st) (ellswift_of sk) ++ tl).
  { clear - EL. intros sk g ds c st D. pose proof (ellswift_len sk) as L.
    assert (C : forall tl : bytes, exists tl', ellswift_of sk ++ tl = take (len (ellswift_of sk ++ tl)) (ellswift_of sk) ++ tl').
    { intros tl. exists tl. rewrite take_all; [reflexivity|]. rewrite len_app. lia. }
    destruct D as [_ (t & Q)|_ ->|f2 k _ _ _ -> _].
    - exists (drop 64 st). destruct (N.le_gt_cases (len st) 64) as [X|X].
      + rewrite (drop_all 64 st) by lia. rewrite app_nil_r. apply (f_equal (take (len st))) in Q.
        rewrite take_app_le in Q by (rewrite L; lia). rewrite Q. now rewrite take_app_exact.
      + assert (take 64 st = ellswift_of sk) as T.
        { apply (f_equal (take 64)) in Q. rewrite take_app_exact in Q by (now rewrite L). rewrite take_app_le in Q by lia. now symmetry. }
        rewrite (take_all (len st) (ellswift_of sk)) by lia. rewrite <- T. now rewrite take_drop.
    - apply C.
    - rewrite <- app_assoc. apply C. }
  destruct (K _ _ _ _ _ D1) as (t1 & Q1). destruct (K _ _ _ _ _ D2) as (t2 & Q2).
  pose proof (ellswift_len sk) as L. pose proof (ellswift_len sk2) as L2. split.
  - intros G. rewrite take_app_le by assumption. rewrite Q1. rewrite (take_all (len s1) (ellswift_of sk)) by lia. apply take_app_exact. now rewrite L.
  - intros (G1 & G2).
    assert (s1 = take (len s1) (ellswift_of sk)) as T1.
    { apply (f_equal len) in Q1 as LQ. rewrite len_app, len_take, L in LQ. assert (len t1 = 0) as Z by lia.
      apply len_0_nil in Z. rewrite Z, app_nil_r in Q1. exact Q1. }
    rewrite (take_app_ge 64 s1) by lia. rewrite T1 at 1. f_equal.
    rewrite Q2. rewrite (take_all (len s2)) by lia. apply take_app_le. lia.
Qed.
Print Assumptions C103_peer_key.

(** If the first attempt did not come to send its terminator, the peer waits for it, or gives up after 4111 bytes of the second one. *)
Theorem C103_peer_waits : forall (E : Env) (EL : EnvLaws E) magic rb skb gb db wb flb sb eb sk sent1 sent2 m,
  len magic = 4 -> sk_valid skb = true -> (debug_assertions = true -> skb <> zeros 32) ->
  len (garbage_bytes gb) <= 4095 -> (overflow_checks = true -> len (decoy_list db) + 1 < 2 ^ 32) -> healthy wb ->
  take 64 (sent1 ++ sent2) = ellswift_of sk -> take 4 (ellswift_of sk) <> magic ->
  flatten flb sb = (sent1 ++ sent2, eb) -> calm flb sb ->
  keys_of magic rb skb (ellswift_of sk) m ->
  (forall i, i <= 4095 -> ~ occurs_at (terminator m (opp rb)) (drop 64 (sent1 ++ sent2)) i) ->
  exists ob, io_handshake flb magic rb skb gb db sb wb = Ret ob /\
    ho_result ob = Err (if 4111 <=? len (drop 64 (sent1 ++ sent2)) then Internal NoGarbageTerminator else end_error eb).
Proof.
  intros E EL magic rb skb gb db wb flb sb eb sk sent1 sent2 m Hm Hv Hz Hg Ho Hw T V F C K N.
  apply (C94_fresh_key E EL flb magic rb skb gb db wb (ellswift_of sk) m (drop 64 (sent1 ++ sent2)) sb eb); auto.
  - apply ellswift_len.
  - rewrite <- T, take_drop. exact F.
Qed.
Print Assumptions C103_peer_waits.

Section Completes.
Context {E : Env} {EL : EnvLaws E}.

Lemma flight_packets m r g ds ps oc : len ds + 1 < 2 ^ 32 ->
  send_all (outbound (session_new m r)) (version_msgs g ds) = Ret (ps, oc) ->
  bip_second_flight (terminator m r) (send_length_key m r) (send_packet_key m r) (garbage_bytes g) ds = terminator m r ++ List.concat ps.
Proof.
  intros L S. assert (Hl : len (version_msgs g ds) < 2 ^ 32) by now rewrite version_msgs_len.
  destruct (stream_conforms m r (version_msgs g ds) Hl) as (oc' & S'). rewrite version_msgs_bip, S in S'. injection S' as -> _. reflexivity.
Qed.

(** An attempt that has read on behind its peer's key has sent both its flights. *)
Lemma all_sent fl magic r sk g d s w q s' w' their h fa h' wa : len magic = 4 -> len (decoy_list d) + 1 < 2 ^ 32 ->
  given_up fl magic r sk g d s w q s' w' -> 64 + len (content s') < len (content s) -> take 64 (content s) = their ->
  party_start magic r sk g = Ret (Ok (h, fa)) -> party_key h their d = Ret (Ok (h', wa)) ->
  written w' = written w ++ fa ++ wa.
Proof.
  intros Hm Hd (n & p & B & H) L T PS PK.
  destruct (C68_any_moment E EL fl magic r sk g d n p s w q s' w' Hm Hd B H) as (received & sent & Hc & Hw & D & _).
  destruct (start_facts _ _ _ _ _ _ PS) as (_ & _ & _ & -> & ->).
  apply (f_equal len) in Hc as Lc. rewrite len_app in Lc.
  assert (take 64 received = their) as T'. { rewrite <- T, Hc. symmetry. apply take_app_le. lia. }
  assert (len their = 64) as Lt. { rewrite <- T', len_take. lia. }
  destruct (key_facts _ _ _ _ _ _ _ _ Hm Lt PK) as (_ & m & ps & oc & K & SA & _ & ->).
  rewrite Hw. f_equal. destruct D as [R _|[X|[X _]] _|f2 k _ _ (m' & K' & ->) -> F]; [subst received; rewrite len_nil in *; lia|lia|lia|].
  rewrite take_all by (apply F; lia). rewrite T' in K'.
  assert (m' = m) as ->.
  { unfold keys_of in K. destruct (in_order r (ellswift_of sk) their) as [ei er]. exact (keys_from_unique _ _ _ K' K). }
  rewrite (flight_packets _ _ _ _ _ _ Hd SA). reflexivity.
Qed.

Lemma on_completes flb magic rb skb gb db sb wb eb hb fb hb' vb f1 v1 sent2 ic :
  len magic = 4 -> healthy wb -> party_start magic rb skb gb = Ret (Ok (hb, fb)) -> 64 <= len f1 ->
  party_key hb (take 64 f1) db = Ret (Ok (hb', vb)) -> completes hb' (drop 64 f1 ++ v1 ++ sent2) ic sent2 ->
  flatten flb sb = ((f1 ++ v1) ++ sent2, eb) -> calm flb sb ->
  exists ob oc sr, io_handshake flb magic rb skb gb db sb wb = Ret ob /\ ho_result ob = Ok (ic, oc, sr) /\ session_stream flb sr = (sent2, eb).
Proof.
  intros Hm Hw PS L PK Cm F C.
  assert (take 64 ((f1 ++ v1) ++ sent2) = take 64 f1) as T by (rewrite <- app_assoc; apply take_app_le; exact L).
  assert (drop 64 ((f1 ++ v1) ++ sent2) = drop 64 f1 ++ v1 ++ sent2) as Dr by (rewrite <- app_assoc; apply drop_app_le; exact L).
  rewrite <- T in PK. rewrite <- Dr in Cm.
  assert (64 <= len ((f1 ++ v1) ++ sent2)) as L' by (rewrite !len_app; lia).
  destruct (pure_handshake_complete flb magic rb skb gb db _ eb wb ic sent2 _ _ _ _ Hm Hw PS L' PK Cm) as (w2 & a & _ & P).
  pose proof (handshake_stream flb magic rb skb gb db sb wb _ _ Hm F C) as P2. rewrite P in P2. unfold run_map in P2.
  apply bind_ret_inv in P2. destruct P2 as (ob & R & Q). unfold hs_view in Q. injection Q as Q1 _ _.
  destruct (ho_result ob) as [[[i oc] sr]|x] eqn:Ro; [|discriminate]. cbn [stream_view] in Q1. injection Q1 as -> -> Q1.
  eexists ob, _, sr. split; [exact R|]. split; [exact Ro|]. exact Q1.
Qed.

End Completes.

(** If the first attempt has read on behind the peer's key, it has sent all of its handshake: the peer completes, with the keys of
    the attempt that is gone, and takes what the second attempt sends for packets of that session. *)
Theorem C103_peer_completes : forall (E : Env) (EL : EnvLaws E) magic r sk skb g gb d db,
  EcdhAgrees E -> len magic = 4 -> sk_valid sk = true -> sk_valid skb = true ->
  (debug_assertions = true -> sk <> zeros 32 /\ skb <> zeros 32) ->
  len (garbage_bytes g) <= 4095 -> len (garbage_bytes gb) <= 4095 ->
  Forall (fun d => len d + 17 <= 4000014) (decoy_list d) -> Forall (fun d => len d + 17 <= 4000014) (decoy_list db) ->
  len (decoy_list d) + 1 < 2 ^ 32 -> (overflow_checks = true -> len (decoy_list db) + 1 < 2 ^ 32) ->
  take 4 (ellswift_of sk) <> magic -> take 4 (ellswift_of skb) <> magic ->
  exists m, keys_of magic r sk (ellswift_of skb) m /\
    (first_at (terminator m r) (garbage_bytes g ++ terminator m r) (len (garbage_bytes g)) ->
     first_at (terminator m (opp r)) (garbage_bytes gb ++ terminator m (opp r)) (len (garbage_bytes gb)) ->
     forall fl s w q s' w', given_up fl magic r sk g d s w q s' w' ->
       64 + len (content s') < len (content s) -> take 64 (content s) = ellswift_of skb ->
       exists sent1, written w' = written w ++ sent1 /\
         forall sent2 flb sb wb eb, flatten flb sb = (sent1 ++ sent2, eb) -> calm flb sb -> healthy wb ->
           exists ob i oc sr, io_handshake flb magic (opp r) skb gb db sb wb = Ret ob /\ ho_result ob = Ok (i, oc, sr) /\
             session_stream flb sr = (sent2, eb)).
Proof.
  intros E EL magic r sk skb g gb d db EA Hm Va Vb Hz Hga Hgb Hda Hdb Hd Ho Ma Mb.
  assert (T : forall sk g, take 64 (bip_first_flight sk g) = ellswift_of sk).
  { intros. apply take_app_exact. now rewrite ellswift_len. }
  destruct r.
  - destruct (endpoints magic sk skb g gb d db EA Hm Va Vb Hz Hga Hgb Hda Hdb) as
      (ha & fa & hb & fb & ha' & va & hb' & vb & m & oca & ocb & Sa & Sb & [La Lb] & Ka & Kb & KF & _ & _ & _ & _ & Fin); auto.
    exists m. split; [exact KF|]. intros F1 F2 fl s w q s' w' G L Tk.
    destruct (start_facts _ _ _ _ _ _ Sb) as (_ & _ & _ & _ & Eb).
    assert (take 64 fb = ellswift_of skb) as Tb by (rewrite Eb; apply T). rewrite Tb in Ka.
    exists (fa ++ va). split; [exact (all_sent _ _ _ _ _ _ _ _ _ _ _ _ _ _ _ _ Hm Hd G L Tk Sa Ka)|].
    intros sent2 flb sb wb eb F C W. destruct (Fin F1 F2 [] sent2) as (_ & Cb).
    destruct (on_completes flb magic Responder skb gb db sb wb eb hb fb hb' vb fa va sent2 oca Hm W Sb La Kb Cb F C) as (ob & oc & sr & X).
    exists ob, oca, oc, sr. exact X.
  - destruct (endpoints magic skb sk gb g db d EA Hm Vb Va (fun X => match Hz X with conj a b => conj b a end) Hgb Hga Hdb Hda) as
      (hb & fb & ha & fa & hb' & vb & ha' & va & m & ocb & oca & Sb & Sa & [Lb La] & Kb & Ka & KF & _ & _ & _ & _ & Fin); auto.
    exists m. split.
    { unfold keys_of. cbn [in_order party_of]. unfold bip_secret in *. rewrite <- (EA skb sk Vb Va). exact KF. }
    intros F1 F2 fl s w q s' w' G L Tk.
    destruct (start_facts _ _ _ _ _ _ Sb) as (_ & _ & _ & _ & Eb).
    assert (take 64 fb = ellswift_of skb) as Tb by (rewrite Eb; apply T). rewrite Tb in Ka.
    exists (fa ++ va). split; [exact (all_sent _ _ _ _ _ _ _ _ _ _ _ _ _ _ _ _ Hm Hd G L Tk Sa Ka)|].
    intros sent2 flb sb wb eb F C W. destruct (Fin F2 F1 sent2 []) as (Cb & _).
    destruct (on_completes flb magic Initiator skb gb db sb wb eb hb fb hb' vb fa va sent2 oca Hm W Sb La Kb Cb F C) as (ob & oc & sr & X).
    exists ob, oca, oc, sr. exact X.
Qed.
Print Assumptions C103_peer_completes.

(** "Not cancellation safe": no byte of the peer's was lost, and still it is not enough to call the function again. *)
Theorem C103_start_over_refuted :
  ~ forall (E : Env) (EL : EnvLaws E) ska sk2 skb s q s' w' ob o,
      EcdhAgrees E -> given_up Tokio mainnet Initiator ska None None s fresh q s' w' ->
      io_handshake Tokio mainnet Responder skb None None [Chunk (written w')] fresh = Ret ob -> content s' = written (ho_writer ob) ->
      io_handshake Tokio mainnet Initiator sk2 None None s' w' = Ret o -> exists x, ho_result o = Ok x.
Proof.
  intros H.
  destruct (@io_handshake (toy_keyed true) Tokio mainnet Responder skb None None [Chunk (@ellswift_of (toy_keyed true) ska)] fresh)
    as [ob| |] eqn:R; try (vm_compute in R; discriminate R).
  pose (s := [Chunk (written (ho_writer ob))]).
  destruct (let! p := @hs_begin (toy_keyed true) mainnet Initiator ska None in @hs_steps (toy_keyed true) 1 Tokio None p s fresh)
    as [[[q s'] w']| |] eqn:G; try (vm_compute in G; discriminate G).
  destruct (@io_handshake (toy_keyed true) Tokio mainnet Initiator (counting 9 32) None None s' w') as [o| |] eqn:R2.
  2, 3: vm_compute in R; injection R as <-; vm_compute in G; injection G as <- <- <-; vm_compute in R2; discriminate R2.
  destruct (H (toy_keyed true) (toy_keyed_laws true) ska (counting 9 32) skb s q s' w' ob o (toy_keyed_ecdh true)) as (x & Q).
  - apply bind_ret_inv in G. destruct G as (p & B & G). exists 1%nat, p. split; assumption.
  - rewrite <- R. vm_compute in R. injection R as <-. vm_compute in G. injection G as <- <- <-. reflexivity.
  - vm_compute in R. injection R as <-. vm_compute in G. injection G as <- <- <-. vm_compute. reflexivity.
  - exact R2.
  - vm_compute in R. injection R as <-. vm_compute in G. injection G as <- <- <-. vm_compute in R2. injection R2 as <-. discriminate Q.
Qed.
Print Assumptions C103_start_over_refuted.

(** An initiator whose first attempt runs into a read timeout, in front of the peer's key and behind it, and that starts over on what
    is left; and the attempt that is not given up. *)
Definition peer_bytes : bytes := match @wires (toy_keyed true) None (Some (repeat x2b 40)) None None [] [] with Some (_, c) => c | None => [] end.

Definition timeout_at (k : N) (c : bytes) : script := (if k =? 0 then [] else [Chunk (take k c)]) ++ [Fail (OtherKind 11); Chunk (drop k c)].

Definition start_over (k : N) (c : bytes) : option (result perror unit * N * result perror unit * N) :=
  let E := toy_keyed true in
  match (let! p := @hs_begin E mainnet Initiator ska None in @hs_steps E 40 Sync None p (timeout_at k c) fresh) with
  | Ret (Over (Err e), s', w') =>
    match @io_handshake E Sync mainnet Initiator (counting 9 32) None None s' w' with
    | Ret o => Some (Err e, len (content s'), match ho_result o with Ok _ => Ok tt | Err e => Err e end, len (written (ho_writer o)))
    | _ => None
    end
  | _ => None
  end.

Example C103_example :
  len peer_bytes = 140 /\
  map (fun k => start_over k peer_bytes) [0; 30; 64; 70; 137] =
    map (fun x => Some (Err (Io (OtherKind 11) Abort), fst x, Err eof, snd x)) [(140, 164); (110, 164); (76, 200); (70, 200); (3, 164)] /\
  match @io_handshake (toy_keyed true) Sync mainnet Initiator ska None None [Chunk peer_bytes] fresh with
  | Ret o => (exists x, ho_result o = Ok x) /\ len (written (ho_writer o)) = 100
  | _ => False
  end.
Proof. vm_compute. split; [reflexivity|]. split; [reflexivity|]. split; [eexists; reflexivity|reflexivity]. Qed.
Print Assumptions C103_example.
