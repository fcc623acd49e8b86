(** * PropsGap: a gap in the stream of a sender, and what a reader can still get behind it (C70) *)
From Coq Require Import List NArith Bool Lia.
From Coq.Strings Require Import Byte.
From Verif Require Import Base BaseFacts Env FsChacha Spec FsChachaProofs Cipher CipherProofs Histories Handshake
  SpecHandshake HsDriver HandshakeProofs HsRunProofs Transport Io SpecIo Futures Sessions IoProofs FuturesProofs
  IoRunProofs SessionProofs ReaderProofs EndpointProofs OversizeProofs SpecIntegrity IntegrityProofs
  Traffic TrafficIo TrafficFutures SpecTraffic TrafficProofs TrafficSessionProofs SpecPair PairProofs SpecGap GapProofs
  Toy PropsHandshake PropsIo PropsTraffic.
Import ListNotations.
Local Open Scope N_scope.

(** ** C70 *)
(** Whatever the transport delivers: a packet that is accepted stands among the bytes received, at the
    place it has in the complete stream of the sender or behind it, never before; or there is a forgery. *)
Theorem C70_position : forall (E : Env) (EL : EnvLaws E) m r pre ms c0 pkts0 pkts out fl c sr xs,
  send_all (outbound (session_new m r)) pre = Ret (pkts0, c0) ->
  send_all c0 ms = Ret (pkts, out) -> len pre + len ms < 2 ^ 64 ->
  packet_cipher c = packet_cipher c0 ->
  reads (established fl c sr) xs ->
  let got := map seen (payloads_of xs) in
  prefix_of got (map view ms) /\
    (forall i pkt, (i < length got)%nat -> nth_error pkts i = Some pkt ->
       stands_behind (length_of i pkts + 3) (drop 3 pkt) (session_content sr)) \/
  forged_between (send_packet_key m r) (pre ++ ms) (pkts0 ++ pkts) (len pre) (len pre + len got)
    (session_content sr).
Proof.
  intros E EL m r pre ms c0 pkts0 pkts out fl c sr xs S0 S1 L Hc Rd.
  destruct (after_prefix _ _ _ _ _ _ _ _ S0 S1 L) as (Ho & Pc & Sk). rewrite Pc in Hc.
  assert (skipn (N.to_nat (len pre)) (pkts0 ++ pkts) = pkts) as Sp.
  { apply send_all_length in S0. unfold len. rewrite Nnat.Nat2N.id, <- S0. clear. induction pkts0; [reflexivity|assumption]. }
  destruct (reads_embedded _ _ _ Ho fl c sr xs _ Hc Rd) as [[P Em]|F]; [left|now right].
  rewrite Sk in P. rewrite Sp in Em. split; [now apply prefix_firstn|].
  intros i pkt Hi Hn. exact (embedded_nth _ _ _ _ _ Em Hi Hn).
Qed.
Print Assumptions C70_position.

(** What the transport has taken of each packet of a writer, by whole calls: all of it if the write succeeded. *)
Theorem C70_writes : forall (E : Env) (EL : EnvLaws E) fl pls p xs p',
  write_many fl p pls = Ret (xs, p') ->
  exists pkts parts, sends p (wire_of pls) pkts parts p' /\
    forall i, nth_error xs i = Some (Ok tt) -> ~ torn pkts parts i.
Proof.
  intros E EL fl pls p xs p' H. destruct (write_many_parts _ _ _ _ _ H) as (pkts & parts & S & Q).
  exists pkts, parts. split; [assumption|]. intros i Hx T. exact (T (Q i Hx)).
Qed.
Print Assumptions C70_writes.

(** The same for a shaped writer, with the packets of its cover traffic, of whose failures nobody hears. *)
Theorem C70_shaped_writes : forall (E : Env) (EL : EnvLaws E) (G : Type) (R : Rng G) (RL : RngLaws G R)
    (ep : @shaped G) acts ep' p sh recs k,
  (ep = Blocking (shared_new p sh recs) \/ ep = Tasked (task_new p sh recs)) ->
  becomes ep acts ep' -> counted k (pw_cipher p) -> (overflow_checks = true -> k + effort acts < 2 ^ 32) ->
  activity_sound acts ->
  exists ms pkts parts qs, sends p ms pkts parts (shaped_writer ep') /\ len ms <= effort acts /\
    encrypted (firstn (length (results ep')) (requests acts)) (results ep') qs /\
    genuine_only (map view ms) = genuine_only (map seen qs).
Proof.
  intros E EL G R RL ep acts ep' p sh recs k Hep B C Hr So.
  destruct (becomes_serves _ _ _ _ _ _ _ Hep B C Hr So) as (fl & bs & rs & Sv & Fb & Pk & M1 & M2).
  destruct (serves_parts _ _ _ _ _ _ Sv Fb) as (ms & pkts & parts & qs & Sn & Lm & En & Ge).
  rewrite M1, M2 in En. exists ms, pkts, parts, qs. split; [assumption|]. split; [unfold len; lia|]. auto.
Qed.
Print Assumptions C70_shaped_writes.

(** Behind a gap nothing arrives.  Of packet [j] the transport has taken a part only; the peer, whose cipher
    is in step, gets what the transport has taken, up to any moment.  However many later writes succeed, it reads
    no message after number [j]; or there is a forgery; or the body of a later packet happens to stand in
    the stream a second time, behind the place where the sender has put it. *)
Theorem C70_gap : forall (E : Env) (EL : EnvLaws E) m r pre pkts0 p ms pkts parts p' j fl c sr xs,
  send_all (outbound (session_new m r)) pre = Ret (pkts0, pw_cipher p) ->
  sends p ms pkts parts p' -> len pre + len ms < 2 ^ 64 -> torn pkts parts j ->
  packet_cipher c = packet_cipher (pw_cipher p) ->
  prefix_of (session_content sr) (List.concat parts) ->
  reads (established fl c sr) xs ->
  let got := map seen (payloads_of xs) in
  prefix_of got (map view (firstn (S j) ms)) \/
  (exists i pkt, (j < i)%nat /\ nth_error pkts i = Some pkt /\
     stands_behind (length_of i parts + 4) (drop 3 pkt) (List.concat parts)) \/
  forged_between (send_packet_key m r) (pre ++ ms) (pkts0 ++ pkts) (len pre) (len pre + len got)
    (session_content sr).
Proof.
  intros E EL m r pre pkts0 p ms pkts parts p' j fl c sr xs S0 (S1 & Fp & _) L T Hc (late & Pw) Rd.
  destruct (C70_position E EL _ _ _ _ _ _ _ _ fl c sr xs S0 S1 L Hc Rd) as [[(rest & P) St]|F]; [|now right; right].
  cbn zeta. set (got := map seen (payloads_of xs)) in *.
  destruct (Compare_dec.le_lt_dec (length got) (S j)) as [Le|Lt].
  - left. exists (firstn (S j - length got) rest). rewrite <- firstn_map, P, firstn_app.
    now rewrite (firstn_all2 got) by assumption.
  - right. left. assert (length pkts = length ms) as Lp by exact (send_all_length _ _ _ _ S1).
    assert (S j < length pkts)%nat as Lj.
    { apply (f_equal (@length _)) in P. rewrite map_length, app_length in P. lia. }
    destruct (nth_error pkts (S j)) as [pkt|] eqn:Hn; [|apply nth_error_None in Hn; lia].
    destruct (St (S j) pkt Lt Hn) as (before & after & Q & Lb).
    exists (S j), pkt. split; [lia|]. split; [assumption|].
    exists before, (after ++ late). split; [now rewrite Pw, Q, <- !app_assoc|].
    pose proof (parts_lt _ _ Fp j (S j) T ltac:(lia)). lia.
Qed.
Print Assumptions C70_gap.

(** An asynchronous reader does not even skip bytes: it reads message [j] itself only if the missing bytes of its
    packet happen to be what was written next. *)
Theorem C70_async : forall (E : Env) (EL : EnvLaws E) m r pre pkts0 p ms pkts parts p' j sr xs,
  send_all (outbound (session_new m r)) pre = Ret (pkts0, pw_cipher p) ->
  sends p ms pkts parts p' -> len pre + len ms < 2 ^ 64 ->
  prefix_of (session_content sr) (List.concat parts) ->
  reads (established Tokio (pw_cipher p) sr) xs ->
  let got := map seen (payloads_of xs) in
  prefix_of got (map view (firstn j ms)) \/
  prefix_of (List.concat (firstn (S j) pkts)) (List.concat parts) \/
  forged_between (send_packet_key m r) (pre ++ ms) (pkts0 ++ pkts) (len pre) (len pre + len got)
    (session_content sr).
Proof.
  intros E EL m r pre pkts0 p ms pkts parts p' j sr xs S0 (S1 & Fp & _) L (late & Pw) Rd. cbn zeta.
  set (got := map seen (payloads_of xs)) in *.
  assert (exists c' rest, recv_all (pw_cipher p) (repeat None (length got)) (session_content sr) = Ret (Some got, c', rest))
    as (c' & rest & Rv).
  { unfold got. rewrite map_length. destruct Rd as [(n & rd' & H)|(t & acts & t' & f & Qt & H)].
    - cbn [established] in H. apply (tokio_many_sound n _ (pw_cipher p) (session_content sr)) in H; [|apply fresh_stands].
      exact H.
    - cbn [established] in Qt. injection Qt as <-.
      destruct (schedule_sound acts FreshFuture _ _ _ _ _ _ (fresh_stands (pw_cipher p) sr) I H) as (c' & rest & Rv & _).
      eauto. }
  assert (length pkts0 = length pre) as L0 by exact (send_all_length _ _ _ _ S0).
  destruct (after_prefix _ _ _ _ _ _ _ _ S0 S1 L) as (Ho & Pc & Sk).
  assert (skipn (N.to_nat (len pre)) (pkts0 ++ pkts) = pkts) as Sp.
  { unfold len. rewrite Nnat.Nat2N.id, <- L0. clear. induction pkts0; [reflexivity|assumption]. }
  destruct (stream_integrity _ _ _ Ho (repeat None (length got)) _ (session_content sr) got c' rest (len pre) (pw_cipher p') Pc) as
    [(i & body & I1 & I2 & I3)|(us & ps & I1 & I2 & I3 & _ & -> & I5 & _)].
  - now rewrite Sk, Sp.
  - exact Rv.
  - right. right. rewrite repeat_length in I1. exists (len pre + N.of_nat i), body.
    split; [unfold len; lia|]. split; [assumption|].
    assert (nth i (repeat (@None bytes) (length got)) None = None) as Q by apply nth_repeat.
    rewrite Q in I3. exact I3.
  - rewrite ?Sk, ?Sp, ?repeat_length in *.
    destruct (Compare_dec.le_lt_dec (length got) j) as [Le|Lt].
    + left. rewrite I2. exists (map view (skipn (length got) (firstn j ms))).
      rewrite <- map_app. f_equal. rewrite <- (firstn_skipn (length got) (firstn j ms)) at 1. f_equal.
      rewrite firstn_firstn. now rewrite PeanoNat.Nat.min_l.
    + right. left. exists (List.concat (skipn (S j) (firstn (length got) pkts)) ++ rest ++ late).
      rewrite Pw, I5, !app_assoc. f_equal. f_equal. rewrite <- concat_app. f_equal.
      rewrite <- (firstn_skipn (S j) (firstn (length got) pkts)) at 1. f_equal.
      rewrite firstn_firstn. now rewrite PeanoNat.Nat.min_l by lia.
Qed.
Print Assumptions C70_async.

(** Two writes: of the first the transport takes all but the last byte, which is a byte of the tag, the second succeeds. *)
Definition two_writes : run (list (result perror unit) * pwriter) :=
  @write_many (toy true) Sync (PWriter toy_in (Writer [Accept 22; WFail (OtherKind 32)] [] []))
    [genuine [x01; x02; x03]; genuine (zeros 30)].
Definition torn_wire : bytes := Eval vm_compute in
  match two_writes with Ret (_, p) => written (pw_writer p) | _ => [] end.

(** The torn packet itself can be read: here the length of the second message is such that its packet begins with the
    missing byte. *)
Theorem C70_torn_packet_is_lost_refuted :
  ~ forall (E : Env) (EL : EnvLaws E) m r p ms pkts parts p' j fl sr xs,
      pw_cipher p = outbound (session_new m r) -> sends p ms pkts parts p' -> torn pkts parts j ->
      session_content sr = List.concat parts -> reads (established fl (pw_cipher p) sr) xs ->
      (length (payloads_of xs) <= j)%nat.
Proof.
  intros H. destruct two_writes as [[xs p']| |] eqn:W; [|vm_compute in W; discriminate..].
  destruct (write_many_parts (EL := toy_laws true) _ _ _ _ _ W) as (pkts & parts & S & Ok1).
  assert (torn_wire = List.concat parts /\ nth_error xs 1 = Some (Ok tt)) as [Qw Q1].
  { vm_compute in W. injection W as <- <-. destruct S as (_ & _ & Q). split; [exact Q|reflexivity]. }
  specialize (Ok1 _ Q1).
  assert (torn pkts parts 0) as T.
  { intros Q. destruct S as (Sa & Fp & _). vm_compute in Sa. injection Sa as <- _.
    inversion Fp as [|a b la lb _ Fp1]; subst. inversion Fp1 as [|a2 b2 la2 lb2 _ Fp2]; subst. inversion Fp2; subst.
    cbn [nth_error] in Q, Ok1. injection Q as ->. injection Ok1 as ->.
    apply (f_equal len) in Qw. vm_compute in Qw. discriminate. }
  specialize (H (toy true) (toy_laws true) sample_km Responder (PWriter toy_in (Writer [Accept 22; WFail (OtherKind 32)] [] [])) _ _ _ _ 0%nat Sync (ChainReader [] true [Chunk torn_wire])
    [Ok (Decrypted [x00; x01; x02; x03])] eq_refl S T).
  cbn [length payloads_of flat_map app] in H. enough (1 <= 0)%nat by lia. apply H.
  - now rewrite <- Qw.
  - left. exists 1%nat. eexists. vm_compute. reflexivity.
Qed.
Print Assumptions C70_torn_packet_is_lost_refuted.

(** The peer reads the first message, whose write failed; nothing of the second, whose write succeeded.  When two more bytes
    are missing, it reads nothing, with either driver. *)
Example C70_example :
  let reading fl wire :=
    match @read_many (toy true) 3 (established fl toy_in (session_reader fl [] [Chunk wire])) with
    | Ret (xs, _) => Some (map seen (payloads_of xs))
    | _ => None
    end in
  match two_writes with Ret (xs, _) => xs = [Err (from_io (OtherKind 32)); Ok tt] | _ => False end /\
  len torn_wire = 22 + 50 /\
  reading Sync torn_wire = Some [(Genuine, [x01; x02; x03])] /\ reading Tokio torn_wire = reading Sync torn_wire /\
  let shorter := take 20 torn_wire ++ drop 22 torn_wire in
  reading Sync shorter = Some [] /\ reading Tokio shorter = Some [].
Proof. vm_compute. repeat split. Qed.
