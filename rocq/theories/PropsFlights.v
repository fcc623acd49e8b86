(** * PropsFlights: what an endpoint shows of itself during its handshake (C68) *)
From Coq Require Import List NArith Bool Lia.
From Coq.Strings Require Import Byte.
From Verif Require Import Base BaseFacts Env FsChacha Spec Cipher Histories CipherProofs Handshake SpecHandshake HsDriver
  HandshakeProofs HsRunProofs Transport Io SpecIo Sessions SessionProofs Toy PropsHandshake PropsIo HsSteps HsStepsProofs
  PropsPipes SpecPair SpecFlights FlightsProofs.
Import ListNotations.
Local Open Scope N_scope.

(** ** C68 *)
(** After any number of operations on any transport: the handshake may have come to its end, hang, have failed,
    or be given up. *)
Theorem C68_any_moment : forall (E : Env) (EL : EnvLaws E) fl magic r sk g d n p s w q s' w',
  len magic = 4 -> len (decoy_list d) + 1 < 2 ^ 32 ->
  hs_begin magic r sk g = Ret p -> hs_steps n fl d p s w = Ret (q, s', w') ->
  exists received sent,
    content s = received ++ content s' /\ written w' = written w ++ sent /\
    discloses magic r sk (garbage_bytes g) (decoy_list d) received sent /\
    (64 <= len received -> take 4 received = magic ->
       len received = 64 /\ sent = ellswift_of sk ++ garbage_bytes g /\ q = Over (Err (Internal V1Protocol))).
Proof.
  intros E EL fl magic r sk g d n p s w q s' w' Hm Ho B H.
  destruct (flight_steps magic r sk g d Hm Ho fl n p s w q s' w' [] [] (flight_begins magic r sk g d Hm p B) H)
    as (received & sent & C & W & A). cbn [app] in A.
  exists received, sent. split; [assumption|]. split; [assumption|].
  pose proof (at_flight_discloses magic r sk g d Hm Ho q received sent A) as D. split; [assumption|].
  intros L V.
  assert (len received = 64 /\ sent = ellswift_of sk ++ garbage_bytes g) as [L1 S1].
  { destruct D as [-> _|[R|[R _]] ->|f k R N]; [rewrite len_nil in L; lia|lia|auto|contradiction]. }
  split; [assumption|]. split; [assumption|].
  destruct q; cbn [at_flight] in A.
  - destruct A as (_ & -> & _). rewrite len_nil in L. lia.
  - destruct A as (_ & -> & _). rewrite len_nil in L. lia.
  - destruct A as (_ & -> & A & _). lia.
  - now destruct A as (_ & N & _).
  - now destruct A as (_ & N & _).
  - now destruct A as (_ & N & _).
  - now destruct A as (_ & N & _).
  - now destruct A as (_ & N & _).
  - now destruct A as (_ & N & _).
  - destruct A as [_ A]. now rewrite (A L V).
Qed.
Print Assumptions C68_any_moment.

(** The same of a handshake that has ended. *)
Theorem C68_handshake : forall (E : Env) (EL : EnvLaws E) fl magic r sk g d s w o,
  len magic = 4 -> len (decoy_list d) + 1 < 2 ^ 32 ->
  io_handshake fl magic r sk g d s w = Ret o ->
  exists received rest sent,
    content s = received ++ rest /\ written (ho_writer o) = written w ++ sent /\
    discloses magic r sk (garbage_bytes g) (decoy_list d) received sent /\
    (64 <= len received -> take 4 received = magic ->
       len received = 64 /\ sent = ellswift_of sk ++ garbage_bytes g /\ ho_result o = Err (Internal V1Protocol)).
Proof.
  intros E EL fl magic r sk g d s w o Hm Ho H.
  destruct (C63_steps E EL fl magic r sk g d s w Hm) as [St NF]. rewrite H in St. destruct St as [NP St].
  destruct (hs_begin magic r sk g) as [p| |] eqn:B; [|contradiction|contradiction].
  destruct (St p eq_refl) as (n & s' & x & R & Q).
  destruct (C68_any_moment E EL fl magic r sk g d n p s w _ s' _ Hm Ho B R) as (received & sent & C & W & D & V).
  exists received, (content s'), sent. split; [assumption|]. split; [assumption|]. split; [assumption|].
  intros L T. destruct (V L T) as (V1 & V2 & V3). injection V3 as ->. auto.
Qed.
Print Assumptions C68_handshake.

(** Two runs with the same secrets, whose peers begin with the same 64 bytes: whatever else the peers send, and
    whatever the transports, drivers and moments, the runs have sent the same as far as they have come. *)
Theorem C68_independent : forall (E : Env) (EL : EnvLaws E) magic r sk g d
    fl1 n1 p1 s1 w1 q1 s1' w1' fl2 n2 p2 s2 w2 q2 s2' w2' sent1 sent2,
  len magic = 4 -> len (decoy_list d) + 1 < 2 ^ 32 ->
  hs_begin magic r sk g = Ret p1 -> hs_steps n1 fl1 d p1 s1 w1 = Ret (q1, s1', w1') ->
  hs_begin magic r sk g = Ret p2 -> hs_steps n2 fl2 d p2 s2 w2 = Ret (q2, s2', w2') ->
  take 64 (content s1) = take 64 (content s2) ->
  written w1' = written w1 ++ sent1 -> written w2' = written w2 ++ sent2 ->
  prefix_of sent1 sent2 \/ prefix_of sent2 sent1.
Proof.
  intros E EL magic r sk g d fl1 n1 p1 s1 w1 q1 s1' w1' fl2 n2 p2 s2 w2 q2 s2' w2' sent1 sent2 Hm Ho B1 H1 B2 H2 T W1 W2.
  destruct (C68_any_moment E EL fl1 magic r sk g d n1 p1 s1 w1 q1 s1' w1' Hm Ho B1 H1) as (c1 & t1 & C1 & V1 & D1 & _).
  destruct (C68_any_moment E EL fl2 magic r sk g d n2 p2 s2 w2 q2 s2' w2' Hm Ho B2 H2) as (c2 & t2 & C2 & V2 & D2 & _).
  rewrite V1 in W1. apply app_inv_head in W1. subst t1. rewrite V2 in W2. apply app_inv_head in W2. subst t2.
  rewrite C1, C2 in T. eapply discloses_comparable; eassumption.
Qed.
Print Assumptions C68_independent.

(** BIP 324 has the responder wait: it sends its key when it has received a byte that differs from the beginning of
    a V1 version message.  This responder sends key and garbage before it has received anything. *)
Theorem C68_responder_waits_refuted :
  ~ (forall (E : Env) (EL : EnvLaws E) fl magic sk g d n p s w q s' w' received,
       len magic = 4 -> len (decoy_list d) + 1 < 2 ^ 32 ->
       hs_begin magic Responder sk g = Ret p -> hs_steps n fl d p s w = Ret (q, s', w') ->
       content s = received ++ content s' -> prefix_of received magic -> written w' = written w).
Proof.
  intros H.
  destruct (hs_begin (E := toy true) mainnet Responder skb None) as [p| |] eqn:B; [|vm_compute in B; discriminate..].
  destruct (hs_steps (E := toy true) 1 Tokio None p [] fresh) as [[[q s'] w']| |] eqn:S;
    [|vm_compute in B; injection B as <-; vm_compute in S; discriminate..].
  assert (written w' = written fresh) as Q.
  { eapply (H (toy true) (toy_laws true) Tokio mainnet skb None None 1%nat p [] fresh q s' w' []); try eassumption.
    - reflexivity.
    - vm_compute. reflexivity.
    - vm_compute in B. injection B as <-. vm_compute in S. injection S as _ <- _. reflexivity.
    - exists mainnet. reflexivity. }
  vm_compute in B. injection B as <-. vm_compute in S. injection S as _ _ <-. vm_compute in Q. discriminate.
Qed.
Print Assumptions C68_responder_waits_refuted.

(** What a V1 peer's version message gets out of a responder: key and garbage, and 64 bytes are gone.  What a prober
    gets that sends a key and random bytes: key, garbage, terminator, decoy and version, before the first
    of the random bytes is looked at. *)
Example C68_example :
  let hs s := io_handshake (E := toy true) Sync mainnet Responder skb (Some (repeat x2b 40)) (Some [[x01; x02]]) s fresh in
  match hs [Chunk (mainnet ++ repeat x76 106)], hs [Chunk (repeat x33 64 ++ repeat x44 5000)], hs [Chunk (repeat x33 64)] with
  | Ret o0, Ret o1, Ret o2 =>
      ho_result o0 = Err (Internal V1Protocol) /\ len (written (ho_writer o0)) = 104 /\
      ho_result o1 = Err (Internal NoGarbageTerminator) /\ ho_result o2 = Err (Io UnexpectedEof RetryV1) /\
      written (ho_writer o1) = written (ho_writer o2) /\ len (written (ho_writer o1)) = 104 + 16 + 22 + 20 /\
      take 104 (written (ho_writer o1)) = written (ho_writer o0)
  | _, _, _ => False
  end.
Proof. vm_compute. repeat split. Qed.
