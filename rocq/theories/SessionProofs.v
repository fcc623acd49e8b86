(** * SessionProofs: established sessions, and two endpoints from handshake to payloads *)
From Coq Require Import List NArith Bool Lia ZArith.
From Coq.Strings Require Import Byte.
From Coq Require Import ZifyBool ZifyNat ZifyN.
From Verif Require Import Base BaseFacts Env FsChacha Spec FsChachaProofs Cipher CipherFacts
  Histories CipherProofs Handshake SpecHandshake HsDriver HandshakeProofs HsRunProofs
  Transport Io SpecIo TransportProofs NoFuel IoProofs Futures FuturesProofs IoRunProofs Sessions.
Import ListNotations.
Local Open Scope N_scope.

Section WithEnv.
Context {E : Env}.

(** ** Synchronous reads *)

Lemma decrypt_vec_agree c ct aad :
  17 <= len ct -> len ct <= 4000030 ->
  decrypt_to_vec c ct aad =
  let! (r, c', buf) := decrypt c ct (zeros (len ct - 16)) aad in
  Ret (match r with Ok t => Ok (t, buf) | Err e => Err e end, c').
Proof.
  intros L1 L2. unfold decrypt_to_vec, decryption_buffer_len.
  change NUM_TAG_BYTES with 16. change MAX_PACKET_SIZE_FOR_ALLOCATION with 4000014.
  rewrite sub_w_ok by lia. cbn [bind]. rewrite (proj2 (N.ltb_ge _ _)) by lia.
  destruct (decrypt _ _ _ _) as [[[[t|e] c'] b]| |]; reflexivity.
Qed.

Definition sync_meaning (x : result perror payload) (r' : sync_reader) (a : option N) (c : cipher)
    (wire : bytes) (e : ending) : Prop :=
  match x with
  | Ok p => exists hd contents rest,
      p = Decrypted (hd :: contents) /\
      recv_one c None wire = Ret (Some (from_byte hd, contents), sr_cipher r', rest) /\
      session_stream Sync (sr_reader r') = (rest, e) /\
      len contents + 1 <= 4000014 /\ a = Some (len contents + 17)
  | Err (Io k s) => cut_short c wire /\ Io k s = from_io (end_kind e)
  | Err (Internal y) => exists n,
      decrypt_packet_len c (take 3 wire) = Ret (n, sr_cipher r') /\ n + 3 <= len wire /\
      session_stream Sync (sr_reader r') = (drop (n + 3) wire, e) /\ a = Some n /\
      ((y = PacketTooBig /\ 4000014 + 16 < n) \/
       (y = Decryption /\ n <= 4000014 + 16 /\ exists c2 rest, recv_one c None wire = Ret (None, c2, rest)))
  end.

Theorem sync_read_sound r wire e x r' a :
  session_stream Sync (sr_reader r) = (wire, e) -> sync_read r = Ret (x, r', a) ->
  sync_meaning x r' a (sr_cipher r) wire e.
Proof.
  intros Hs H. destruct r as [c sr]. cbn [sr_cipher sr_reader] in *. unfold sync_read in H.
  cbn [sr_cipher sr_reader] in H. change NUM_LENGTH_BYTES with 3 in H.
  destruct (session_read_exact_stream Sync sr 3 wire e Hs) as [I1 I2].
  destruct (N.le_gt_cases 3 (len wire)) as [L3|L3].
  2:{ destruct (I2 L3) as (sr1 & R). rewrite R in H. injection H as <- <- <-.
      cbn [sync_meaning from_io]. split; [now left|reflexivity]. }
  destruct (I1 L3) as (sr1 & R & Hs1 & _). rewrite R in H. clear I1 I2 R.
  assert (len (take 3 wire) = 3) as Lt by (rewrite len_take; lia).
  apply bind_ret_inv in H. destruct H as ([n c1] & D & H).
  assert (17 <= n) as Hn by (apply packet_len_range in D; [lia|assumption]).
  destruct (session_read_exact_stream Sync sr1 n (drop 3 wire) e Hs1) as [I1 I2].
  destruct (N.le_gt_cases n (len (drop 3 wire))) as [Ln|Ln].
  2:{ destruct (I2 Ln) as (sr2 & R). rewrite R in H. injection H as <- <- <-.
      cbn [sync_meaning from_io]. split; [right; eauto|reflexivity]. }
  destruct (I1 Ln) as (sr2 & R & Hs2 & _). rewrite R in H. clear I1 I2 R.
  assert (len (take n (drop 3 wire)) = n) as Lb by (rewrite len_take; lia).
  rewrite drop_drop in Hs2. rewrite len_drop in Ln.
  destruct (N.le_gt_cases n 4000030) as [Cap|Cap].
  - rewrite decrypt_vec_agree in H by lia. rewrite Lb in H.
    apply bind_ret_inv in H. destruct H as ([y c2'] & H0 & H).
    apply bind_ret_inv in H0. destruct H0 as ([[z c2] buf] & Dc & H0). injection H0 as <- <-.
    assert (RO : recv_one c None wire =
      match z with
      | Ok t => Ret (Some (t, drop 1 buf), c2, drop (3 + n) wire)
      | Err _ => Ret (None, c2, drop (3 + n) wire)
      end).
    { unfold recv_one. rewrite (proj2 (N.ltb_ge _ _)) by lia. rewrite D. cbn [bind].
      rewrite (proj2 (N.ltb_ge _ _)) by (rewrite len_drop; lia). rewrite Dc. cbn [bind].
      rewrite drop_drop. destruct z; reflexivity. }
    set (ct := take n (drop 3 wire)) in *. rewrite <- Lb in Dc.
    assert (17 <= len ct) as L17 by lia. pose proof (decrypt_body c1 ct z c2 buf L17 Dc) as B.
    destruct z as [t|y].
    + destruct B as (hd & contents & -> & -> & Lc). change (drop 1 (hd :: contents)) with contents in RO.
      unfold payload_decrypted in H. rewrite andb_false_r in H. cbn [bind] in H.
      injection H as <- <- <-. cbn [sync_meaning sr_cipher sr_reader].
      exists hd, contents, (drop (3 + n) wire). repeat split; auto; first [lia | f_equal; lia].
    + destruct B as [-> ->]. injection H as <- <- <-. cbn [sync_meaning sr_cipher sr_reader].
      exists n. rewrite (N.add_comm n 3). split; [assumption|]. split; [lia|]. split; [assumption|]. split; [reflexivity|]. right.
      split; [reflexivity|]. split; [assumption|]. eauto.
  - rewrite decrypt_to_vec_too_big in H by lia. cbn [bind] in H.
    injection H as <- <- <-. cbn [sync_meaning sr_cipher sr_reader].
    exists n. rewrite (N.add_comm n 3). split; [assumption|]. split; [lia|]. split; [assumption|]. split; [reflexivity|]. left.
    split; [reflexivity|lia].
Qed.

Theorem sync_read_total r k :
  counted k (sr_cipher r) -> room k ->
  exists x r' a, sync_read r = Ret (x, r', a) /\ counted (k + 1) (sr_cipher r').
Proof.
  intros Hc Hr. destruct r as [c sr]. cbn [sr_cipher sr_reader] in *. unfold sync_read.
  cbn [sr_cipher sr_reader]. change NUM_LENGTH_BYTES with 3.
  assert (counted (k + 1) c) as Hc1 by (eapply counted_mono; [|eassumption]; lia).
  destruct (session_read_exact Sync sr 3) as [[lb|kk] sr1] eqn:R1; [|eauto 6].
  apply session_read_exact_content in R1. destruct R1 as [_ L1].
  destruct (decrypt_len_ret k c lb L1 Hc Hr) as (n & c1 & D & Hd). rewrite D. cbn [bind].
  assert (17 <= n) as Hn by (apply packet_len_range in D; [lia|assumption]).
  destruct (session_read_exact Sync sr1 n) as [[pb|kk] sr2] eqn:R2; [|eauto 6].
  apply session_read_exact_content in R2. destruct R2 as [_ L2].
  destruct (N.le_gt_cases n 4000030) as [Cap|Cap].
  - rewrite decrypt_vec_agree by lia.
    destruct (decrypt_after_len k c lb n c1 pb (zeros (len pb - 16)) None L1 Hc Hr D)
      as (_ & z & c2 & b & Dc & Hc2). rewrite Dc. cbn [bind].
    apply decrypt_body in Dc; [|lia]. destruct z as [t|y].
    + destruct Dc as (hd & contents & -> & _). unfold payload_decrypted. rewrite andb_false_r.
      cbn [bind]. eauto 6.
    + eauto 6.
  - rewrite decrypt_to_vec_too_big by lia. cbn [bind]. eauto 6.
Qed.

(** A good packet, of any size. *)
Theorem sync_read_packet r wire e t x c1 rest :
  session_stream Sync (sr_reader r) = (wire, e) ->
  recv_one (sr_cipher r) None wire = Ret (Some (t, x), c1, rest) ->
  (len x + 1 <= 4000014 -> exists hd r',
     sync_read r = Ret (Ok (Decrypted (hd :: x)), r', Some (len x + 17)) /\ from_byte hd = t /\
     sr_cipher r' = c1 /\ session_stream Sync (sr_reader r') = (rest, e)) /\
  (4000014 < len x + 1 -> exists r',
     sync_read r = Ret (Err (Internal PacketTooBig), r', Some (len x + 17)) /\
     packet_cipher (sr_cipher r') = packet_cipher (sr_cipher r) /\
     length_cipher (sr_cipher r') = length_cipher c1 /\
     session_stream Sync (sr_reader r') = (rest, e)).
Proof.
  intros Hs Hr. destruct (recv_one_parts _ _ _ _ _ _ _ Hr) as (c' & D & L & Hrest).
  enough (exists y r' a, sync_read r = Ret (y, r', a)) as (y & r' & a & H).
  { pose proof (sync_read_sound r wire e y r' a Hs H) as M. destruct y as [p|[kd s|y]].
    - destruct M as (hd & contents & rest' & -> & R & Hs' & Cap & ->). rewrite Hr in R.
      injection R as -> <- -> <-. split; [|lia]. intros _. exists hd, r'. auto.
    - destruct M as [Cut _]. destruct (cut_short_none _ None _ Cut) as (? & ? & Q).
      rewrite Q in Hr. discriminate.
    - destruct M as (n & D' & Ln & Hs' & -> & M). rewrite D in D'. injection D' as <- ->.
      destruct M as [(-> & Big)|(-> & _ & c2 & rest' & Q)]; [|rewrite Q in Hr; discriminate].
      split; [lia|]. intros _. exists r'. split; [assumption|].
      replace (len x + 17 + 3) with (len x + 20) in Hs' by lia. rewrite <- Hrest in Hs'.
      assert (len (take 3 wire) = 3) as L3 by (rewrite len_take; lia).
      unfold recv_one in Hr. rewrite (proj2 (N.ltb_ge _ _)) in Hr by lia. rewrite D in Hr. cbn [bind] in Hr.
      rewrite (proj2 (N.ltb_ge _ _)) in Hr by (rewrite len_drop; lia).
      rewrite decrypt_packet_len_closed in D by assumption.
      apply bind_ret_inv in D. destruct D as ([out lc] & Hf & D). injection D as _ D'. rewrite <- D' in *.
      cbn [packet_cipher length_cipher]. split; [reflexivity|]. split; [|assumption].
      set (ct := take (len x + 17) (drop 3 wire)) in *.
      assert (len ct = len x + 17) as Lc by (unfold ct; autorewrite with len; lia).
      destruct (split_tag ct ltac:(lia)) as (m & tg & Hm & L1 & L2 & _). clearbody ct. subst ct. rewrite len_app in Lc.
      rewrite decrypt_closed in Hr; [|lia|lia|rewrite len_zeros; lia].
      destruct (fp_decrypt _ _ _ _) as [[[pt|] pc]| |]; cbn [bind] in Hr; try discriminate.
      injection Hr as _ _ <- _. reflexivity. }
  destruct r as [c sr]. cbn [sr_cipher sr_reader] in *. unfold sync_read. cbn [sr_cipher sr_reader].
  change NUM_LENGTH_BYTES with 3.
  destruct (session_read_exact_stream Sync sr 3 wire e Hs) as [I1 _].
  destruct (I1 ltac:(lia)) as (sr1 & R & Hs1 & _). rewrite R, D. cbn [bind].
  destruct (session_read_exact_stream Sync sr1 (len x + 17) (drop 3 wire) e Hs1) as [J1 _].
  destruct (J1 ltac:(rewrite len_drop; lia)) as (sr2 & R2 & _). rewrite R2.
  unfold recv_one in Hr. rewrite (proj2 (N.ltb_ge _ _)) in Hr by lia. rewrite D in Hr. cbn [bind] in Hr.
  rewrite (proj2 (N.ltb_ge _ _)) in Hr by (rewrite len_drop; lia).
  set (ct := take (len x + 17) (drop 3 wire)) in *.
  assert (len ct = len x + 17) as Lc by (unfold ct; autorewrite with len; lia).
  destruct (N.le_gt_cases (len x + 17) 4000030) as [Cap|Cap].
  - rewrite decrypt_vec_agree by lia. rewrite Lc.
    apply bind_ret_inv in Hr. destruct Hr as ([[z c2] b] & Dc & Hr). rewrite Dc. cbn [bind].
    rewrite <- Lc in Dc at 1. apply decrypt_body in Dc; [|lia].
    destruct z; [|eauto]. destruct Dc as (hd & contents & -> & _). unfold payload_decrypted.
    rewrite andb_false_r. cbn [bind]. eauto.
  - rewrite decrypt_to_vec_too_big by lia. cbn [bind]. eauto.
Qed.

End WithEnv.

Section WithLaws.
Context {E : Env} {EL : EnvLaws E}.

(** ** Writes *)

Lemma encrypt_exact c pt t aad :
  encrypt c pt (zeros (len pt + 20)) t aad =
  let! (pkt, c') := encrypt_to_vec c pt t aad in Ret (Ok tt, c', pkt).
Proof.
  rewrite encrypt_closed by (rewrite len_zeros; lia). rewrite encrypt_to_vec_closed.
  destruct (fp_encrypt _ _ _) as [[[ct tag] pc]| |]; [|reflexivity..]. cbn [bind].
  destruct (fc_crypt _ _) as [[lb lc]| |]; [|reflexivity..]. cbn [bind].
  rewrite drop_all by (rewrite len_zeros; lia). now rewrite app_nil_r.
Qed.

Lemma write_any_sound fl p pl x p' :
  write_any fl p pl = Ret (x, p') ->
  exists t contents pkt n,
    payload_view pl = Ret (t, contents) /\
    encrypt_to_vec (pw_cipher p) contents t None = Ret (pkt, pw_cipher p') /\
    written (pw_writer p') = written (pw_writer p) ++ take n pkt /\
    (x = Ok tt -> written (pw_writer p') = written (pw_writer p) ++ pkt) /\
    (x = Ok tt \/ exists k, x = Err (from_io k)).
Proof.
  unfold payload_view. intros H. destruct fl; cbn [write_any] in H.
  - unfold sync_write in H.
    apply bind_ret_inv in H. destruct H as (contents & Hc & H).
    apply bind_ret_inv in H. destruct H as (t & Ht & H).
    apply bind_ret_inv in H. destruct H as ([pkt c] & He & H).
    destruct (write_flush Sync (pw_writer p) pkt) as [y w] eqn:W. injection H as <- <-.
    apply write_flush_prefix in W. destruct W as [(n & W1) W2].
    exists t, contents, pkt, n. rewrite Ht, Hc. cbn [bind pw_cipher pw_writer].
    repeat split; auto.
    + intros Q. apply W2. destruct y as [[]|]; [reflexivity|discriminate].
    + destruct y as [[]|k]; eauto.
  - unfold tokio_write in H.
    apply bind_ret_inv in H. destruct H as (contents & Hc & H).
    apply bind_ret_inv in H. destruct H as (t & Ht & H). cbn zeta in H.
    unfold encryption_buffer_len in H.
    apply bind_ret_inv in H. destruct H as ([[y c] pkt] & He & H).
    change NUM_PACKET_OVERHEAD_BYTES with 20 in He. rewrite encrypt_exact in He.
    apply bind_ret_inv in He. destruct He as ([pkt' c'] & Hv & He). injection He as Q1 Q2 Q3; subst y c pkt.
    destruct (write_flush Tokio (pw_writer p) pkt') as [z w] eqn:W. injection H as <- <-.
    apply write_flush_prefix in W. destruct W as [(n & W1) W2].
    exists t, contents, pkt', n. rewrite Ht, Hc. cbn [bind pw_cipher pw_writer].
    repeat split; auto.
    + intros Q. apply W2. destruct z as [[]|]; [reflexivity|discriminate].
    + destruct z as [[]|k]; eauto.
Qed.


Lemma view_payload_of p : payload_view (payload_of p) = Ret p.
Proof. destruct p as [[|] c]; reflexivity. Qed.

Lemma write_any_healthy fl p t contents pkt c' :
  healthy (pw_writer p) ->
  encrypt_to_vec (pw_cipher p) contents t None = Ret (pkt, c') ->
  exists p', write_any fl p (payload_of (t, contents)) = Ret (Ok tt, p') /\
    pw_cipher p' = c' /\ healthy (pw_writer p') /\
    written (pw_writer p') = written (pw_writer p) ++ pkt.
Proof.
  intros Hw He.
  assert (payload_contents (payload_of (t, contents)) = Ret contents) as Hc by (destruct t; reflexivity).
  assert (payload_type (payload_of (t, contents)) = Ret t) as Ht by (destruct t; reflexivity).
  destruct fl; cbn [write_any].
  - unfold sync_write. rewrite Hc, Ht. cbn [bind]. rewrite He. cbn [bind].
    destruct (write_flush_healthy Sync (pw_writer p) pkt Hw) as (w & -> & Hh & Hwr).
    eexists. split; [reflexivity|]. auto.
  - unfold tokio_write. rewrite Hc, Ht. cbn [bind]. cbn zeta.
    unfold encryption_buffer_len. change NUM_PACKET_OVERHEAD_BYTES with 20.
    rewrite encrypt_exact, He. cbn [bind].
    destruct (write_flush_healthy Tokio (pw_writer p) pkt Hw) as (w & -> & Hh & Hwr).
    eexists. split; [reflexivity|]. auto.
Qed.


Lemma write_many_healthy fl : forall ps p pkts c',
  healthy (pw_writer p) ->
  send_all (pw_cipher p) (map as_msg ps) = Ret (pkts, c') ->
  exists p', write_many fl p (map payload_of ps) = Ret (map (fun _ => Ok tt) ps, p') /\
    pw_cipher p' = c' /\ healthy (pw_writer p') /\
    written (pw_writer p') = written (pw_writer p) ++ List.concat pkts.
Proof.
  induction ps as [|[t c] ps IH]; intros p pkts c' Hw H; cbn [map write_many send_all] in *.
  - injection H as <- <-. exists p. cbn [List.concat]. rewrite app_nil_r. auto.
  - cbn [as_msg m_contents m_type m_aad fst snd] in H.
    apply bind_ret_inv in H. destruct H as ([pkt c1] & He & H).
    apply bind_ret_inv in H. destruct H as ([pkts' c2] & Hs & H). injection H as <- <-.
    destruct (write_any_healthy fl p t c pkt c1 Hw He) as (p1 & -> & Hc & Hw1 & Hwr). cbn [bind].
    rewrite <- Hc in Hs. destruct (IH p1 pkts' c2 Hw1 Hs) as (p2 & -> & Hc2 & Hw2 & Hwr2). cbn [bind].
    exists p2. split; [reflexivity|]. split; [assumption|]. split; [assumption|].
    rewrite Hwr2, Hwr. cbn [List.concat]. now rewrite app_assoc.
Qed.

(** ** Reads of either kind *)

(** A reader standing at the beginning of a packet. *)
Definition at_packet (r : any_reader) (c : cipher) (wire : bytes) (e : ending) : Prop :=
  match r with
  | RSync r => sr_cipher r = c /\ session_stream Sync (sr_reader r) = (wire, e)
  | RTokio r => within r c wire e
  end.

Definition reader_flavor (r : any_reader) : flavor := match r with RSync _ => Sync | RTokio _ => Tokio end.

Lemma read_any_packet r c wire e t x c1 rest k :
  at_packet r c wire e -> counted k c -> room k ->
  recv_one c None wire = Ret (Some (t, x), c1, rest) -> readable (reader_flavor r) (t, x) ->
  exists hd r', read_any r = Ret (Ok (Decrypted (hd :: x)), r') /\ from_byte hd = t /\
    at_packet r' c1 rest e /\ reader_flavor r' = reader_flavor r /\ counted (k + 1) c1.
Proof.
  intros Ha Hc Hr R Hx.
  assert (counted (k + 1) c1) as Hc1.
  { destruct (recv_one_total k c None wire Hc Hr) as (? & ? & ? & Q & ?). rewrite R in Q.
    injection Q as _ <- _. assumption. }
  destruct r as [r|r]; cbn [at_packet reader_flavor readable snd read_any] in *.
  - destruct Ha as [<- Hs]. destruct (sync_read_packet r wire e t x c1 rest Hs R) as [P _].
    destruct (P Hx) as (hd & r' & -> & Ht & <- & Hs'). cbn [bind]. exists hd, (RSync r').
    cbn [at_packet reader_flavor]. auto.
  - unfold tokio_read.
    destruct (await_meaning (S (session_events (tr_reader r))) FreshFuture r c wire e k Ha I
                (Nat.lt_succ_diag_r _) Hc Hr) as (y & r' & A & M & _). rewrite A. cbn [bind].
    unfold read_meaning in M. destruct y as [p|[kd s|y]]; cbn [poll_meaning] in M.
    + destruct M as (hd & contents & c1' & rest' & -> & Q & W). rewrite R in Q.
      injection Q as -> <- <- <-. exists hd, (RTokio r'). cbn [at_packet reader_flavor]. auto.
    + destruct M as [Cut _]. destruct (cut_short_none _ None _ Cut) as (? & ? & Q). congruence.
    + destruct M as (_ & _ & ? & ? & Q). congruence.
Qed.

Lemma read_many_packets : forall ps r c wire e c1 rest k,
  at_packet r c wire e -> counted k c -> (overflow_checks = true -> k + len ps < 2 ^ 32) ->
  recv_all c (repeat None (length ps)) wire = Ret (Some ps, c1, rest) ->
  Forall (readable (reader_flavor r)) ps ->
  exists qs r', read_many (length ps) r = Ret (map Ok qs, r') /\
    map payload_view qs = map Ret ps /\ at_packet r' c1 rest e.
Proof.
  induction ps as [|[t x] ps IH]; intros r c wire e c1 rest k Ha Hc Hr R Hx;
    cbn [length repeat recv_all read_many] in *.
  - injection R as <- <-. exists [], r. auto.
  - inversion Hx as [|? ? Hx1 Hx2]; subst.
    apply bind_ret_inv in R. destruct R as ([[[p|] c2] w2] & R1 & R); [|discriminate].
    apply bind_ret_inv in R. destruct R as ([[[l|] c3] w3] & R2 & R); [|discriminate].
    injection R as -> -> <- <-. rewrite len_cons in Hr.
    destruct (read_any_packet r c wire e t x c2 w2 k Ha Hc) as (hd & r1 & -> & Ht & Ha1 & Hfl & Hc1);
      [intros Ho; specialize (Hr Ho); lia|assumption|assumption|].
    cbn [bind]. rewrite <- Hfl in Hx2.
    destruct (IH r1 c2 w2 e c3 w3 (k + 1) Ha1 Hc1) as (qs & r' & -> & Hv & Ha2);
      [intros Ho; specialize (Hr Ho); lia|assumption|assumption|].
    cbn [bind]. exists (Decrypted (hd :: x) :: qs), r'. split; [reflexivity|]. split; [|assumption].
    cbn [map]. rewrite Hv. f_equal. unfold payload_view. cbn [payload_type payload_contents].
    change (index (hd :: x) 0) with (Ret hd). cbn [bind]. rewrite Ht.
    rewrite slice_ok by (rewrite len_cons; lia). cbn [bind]. do 2 f_equal.
    change (drop 1 (hd :: x)) with x. apply take_all. rewrite len_cons. lia.
Qed.

(** ** Two endpoints *)

Lemma completes_ok h g ds ps oc' rest :
  let t := remote_garbage_terminator (hs_state h) in
  let c := sv_cipher (hs_state h) in
  len t = 16 -> len (garbage_bytes g) <= 4095 ->
  Forall (fun d => len d + 17 <= MAX_PACKET_SIZE_FOR_ALLOCATION) ds ->
  first_at t (garbage_bytes g ++ t) (len (garbage_bytes g)) ->
  send_all (inbound c) (version_msgs g ds) = Ret (ps, oc') ->
  completes h (garbage_bytes g ++ t ++ List.concat ps ++ rest) oc' rest.
Proof.
  change MAX_PACKET_SIZE_FOR_ALLOCATION with 4000014.
  cbn zeta. intros Ht Hg Hd F S.
  exists (garbage_bytes g), (List.concat ps), (map (fun d => (Decoy, d)) ds), [].
  split; [reflexivity|]. split; [assumption|]. split; [|split; [|split]].
  - apply (first_at_app _ _ (List.concat ps ++ rest)) in F. now rewrite <- app_assoc in F.
  - rewrite map_length.
    pose proof (recv_all_sent (version_msgs (some_nonempty (garbage_bytes g)) ds)
                  (inbound (sv_cipher (hs_state h))) ps oc' []) as Q.
    rewrite version_msgs_aads, version_msgs_got, app_nil_r in Q. apply Q.
    + clear -Hd. generalize (some_nonempty (garbage_bytes g)).
      induction Hd as [|d ds H1 H2 IH]; intros a.
      * repeat constructor.
      * constructor; [cbn [m_contents]; lia|apply IH].
    + rewrite <- S. apply send_version_aad. destruct g as [[|x g]|]; reflexivity.
  - apply Forall_forall. intros x Hx. apply in_map_iff in Hx. destruct Hx as (d & <- & _). reflexivity.
  - apply Forall_app. split; [|constructor; [vm_compute; discriminate|constructor]].
    apply Forall_forall. intros x Hx. apply in_map_iff in Hx. destruct Hx as (d & <- & Hx).
    unfold fits. cbn [snd]. change MAX_PACKET_SIZE_FOR_ALLOCATION with 4000014.
    rewrite Forall_forall in Hd. now apply Hd.
Qed.

(** What the two parties of a handshake compute, before looking at transports. *)
Lemma endpoints magic ska skb ga gb da db :
  EcdhAgrees E -> len magic = 4 ->
  sk_valid ska = true -> sk_valid skb = true ->
  (debug_assertions = true -> ska <> zeros 32 /\ skb <> zeros 32) ->
  len (garbage_bytes ga) <= 4095 -> len (garbage_bytes gb) <= 4095 ->
  Forall (fun d => len d + 17 <= MAX_PACKET_SIZE_FOR_ALLOCATION) (decoy_list da) ->
  Forall (fun d => len d + 17 <= MAX_PACKET_SIZE_FOR_ALLOCATION) (decoy_list db) ->
  (overflow_checks = true -> len (decoy_list da) + 1 < 2 ^ 32 /\ len (decoy_list db) + 1 < 2 ^ 32) ->
  take 4 (ellswift_of ska) <> magic -> take 4 (ellswift_of skb) <> magic ->
  exists ha fa hb fb ha' wa hb' wb m oca ocb,
    party_start magic Initiator ska ga = Ret (Ok (ha, fa)) /\
    party_start magic Responder skb gb = Ret (Ok (hb, fb)) /\
    (64 <= len fa /\ 64 <= len fb) /\
    party_key ha (take 64 fb) da = Ret (Ok (ha', wa)) /\
    party_key hb (take 64 fa) db = Ret (Ok (hb', wb)) /\
    keys_from (bip_prk magic (bip_secret (ellswift_of ska) (ellswift_of skb) ska PartyA)) m /\
    outbound (sv_cipher (hs_state ha')) = oca /\ outbound (sv_cipher (hs_state hb')) = ocb /\
    counted (len (decoy_list da) + 1) oca /\ counted (len (decoy_list db) + 1) ocb /\
    (first_at (initiator_garbage_terminator m)
       (garbage_bytes ga ++ initiator_garbage_terminator m) (len (garbage_bytes ga)) ->
     first_at (responder_garbage_terminator m)
       (garbage_bytes gb ++ responder_garbage_terminator m) (len (garbage_bytes gb)) ->
     forall resta restb,
       completes ha' (drop 64 fb ++ wb ++ resta) ocb resta /\
       completes hb' (drop 64 fa ++ wa ++ restb) oca restb).
Proof.
  intros EA Hm Va Vb Hz Hga Hgb Hda Hdb Ho Ma Mb.
  assert (Hs1 := start_ok magic Initiator ska ga Va (fun H => proj1 (Hz H)) Hga).
  assert (Hs2 := start_ok magic Responder skb gb Vb (fun H => proj2 (Hz H)) Hgb).
  assert (T : forall sk g, take 64 (bip_first_flight sk g) = ellswift_of sk).
  { intros. apply take_app_exact. now rewrite ellswift_len. }
  assert (D : forall sk g, drop 64 (bip_first_flight sk g) = g).
  { intros. apply drop_app_exact. now rewrite ellswift_len. }
  destruct (key_ok magic Initiator (EcdhPoint ska (ellswift_of ska)) ga (ellswift_of skb) da
              Hm (ellswift_len _) Mb (fun H => proj1 (Ho H))) as (m & psa & oca & KFa & Sa & Ka).
  destruct (key_ok magic Responder (EcdhPoint skb (ellswift_of skb)) gb (ellswift_of ska) db
              Hm (ellswift_len _) Ma (fun H => proj2 (Ho H))) as (m2 & psb & ocb & KFb & Sb & Kb).
  cbn [in_order elligator_swift secret_key party_of] in KFa, KFb.
  unfold bip_secret in KFb. rewrite <- (EA ska skb Va Vb) in KFb.
  rewrite (keys_from_unique _ _ _ KFb KFa) in *. clear KFb m2.
  do 11 eexists. split; [exact Hs1|]. split; [exact Hs2|].
  split. { unfold bip_first_flight. rewrite !len_app, !ellswift_len. lia. }
  rewrite !T, !D. split; [exact Ka|]. split; [exact Kb|]. split; [exact KFa|].
  split; [reflexivity|]. split; [reflexivity|].
  assert (Ct : forall r g ds ps oc, (overflow_checks = true -> len ds + 1 < 2 ^ 32) ->
    send_all (outbound (session_new m r)) (version_msgs g ds) = Ret (ps, oc) -> counted (len ds + 1) oc).
  { intros r g ds ps oc Hl S. destruct (session_counted m r) as [_ C0].
    assert (len (version_msgs g ds) = len ds + 1) as Lv by apply version_msgs_len.
    destruct (send_all_ret (version_msgs g ds) 0 _ C0) as (ps' & oc' & S' & C').
    { rewrite Lv. intros Q. specialize (Hl Q). lia. }
    rewrite S in S'. injection S' as <- <-. rewrite Lv in C'. exact C'. }
  cbn [hs_state sv_cipher outbound].
  split; [eapply Ct; [|exact Sa]; intros Q; apply (proj1 (Ho Q))|].
  split; [eapply Ct; [|exact Sb]; intros Q; apply (proj2 (Ho Q))|].
  intros Fa Fb resta restb. split.
  - rewrite <- app_assoc.
    match goal with |- completes ?h _ _ _ =>
      change (terminator m Responder) with (remote_garbage_terminator (hs_state h));
      eapply (completes_ok h gb (decoy_list db) psb ocb)
    end; cbn [hs_state remote_garbage_terminator sv_cipher inbound opp terminator]; try assumption.
    apply (terminator_len _ m Responder KFa).
  - rewrite <- app_assoc.
    match goal with |- completes ?h _ _ _ =>
      change (terminator m Initiator) with (remote_garbage_terminator (hs_state h));
      eapply (completes_ok h ga (decoy_list da) psa oca)
    end; cbn [hs_state remote_garbage_terminator sv_cipher inbound opp terminator]; try assumption.
    apply (terminator_len _ m Initiator KFa).
Qed.

End WithLaws.
