(** * Properties C27-C40 and C51-C53: the I/O drivers (io.rs, futures.rs) *)
From Coq Require Import String List NArith Bool Lia ZArith.
From Coq.Strings Require Import Byte.
From Verif Require Import Base BaseFacts Env FsChacha Spec Cipher Histories CipherProofs Handshake
  SpecHandshake HsDriver HandshakeProofs HsRunProofs Transport Io SpecIo Futures Sessions
  TransportProofs IoProofs FuturesProofs IoRunProofs SessionProofs EndpointProofs ReaderProofs
  Toy PropsHandshake.
Import ListNotations.
Local Open Scope N_scope.

(** ** Sample streams *)

(** All bytes the two parties send: handshake and then the payloads. *)
Definition wires {E : Env} (ga gb : option bytes) (da db : option (list bytes))
    (psa psb : list (packet_type * bytes)) : option (bytes * bytes) :=
  match party_start mainnet Initiator ska ga, party_start mainnet Responder skb gb with
  | Ret (Ok (ha, fa)), Ret (Ok (hb, fb)) =>
    match party_key ha (take 64 fb) da, party_key hb (take 64 fa) db with
    | Ret (Ok (ha', wa)), Ret (Ok (hb', wb)) =>
      match send_all (outbound (sv_cipher (hs_state ha'))) (map as_msg psa),
            send_all (outbound (sv_cipher (hs_state hb'))) (map as_msg psb) with
      | Ret (pka, _), Ret (pkb, _) => Some (fa ++ wa ++ List.concat pka, fb ++ wb ++ List.concat pkb)
      | _, _ => None
      end
    | _, _ => None
    end
  | _, _ => None
  end.

Definition sample_wires : bytes * bytes := Eval vm_compute in
  match wires (E := toy true) (Some (repeat x2a 300)) (Some (repeat x2b 40)) (Some [[x01]; zeros 70]) None
          [(Genuine, [x07; x08]); (Decoy, zeros 9); (Genuine, [])] [(Genuine, counting 5 40)] with
  | Some p => p
  | None => ([], [])
  end.

(** One byte at a time, each after a suspension. *)
Definition drip (bs : bytes) : script := flat_map (fun b => [Pending; Chunk [b]]) bs.

Definition fresh : writer := Writer [] [] [].

(** ** C27 *)
Theorem C27_segmentation : forall (E : Env) (EL : EnvLaws E) fl magic r rnd g d s1 s2 w,
  len magic = 4 -> flatten fl s1 = flatten fl s2 -> calm fl s1 -> calm fl s2 ->
  run_map (hs_view fl) (io_handshake fl magic r rnd g d s1 w) =
  run_map (hs_view fl) (io_handshake fl magic r rnd g d s2 w).
Proof.
  intros E EL fl magic r rnd g d s1 s2 w Hm F C1 C2.
  destruct (flatten fl s2) as [c e] eqn:F2.
  rewrite (handshake_stream fl magic r rnd g d s1 w c e), (handshake_stream fl magic r rnd g d s2 w c e);
    auto.
Qed.
Print Assumptions C27_segmentation.

(** The synchronous and the tokio driver agree. *)
Theorem C27_drivers_agree : forall (E : Env) (EL : EnvLaws E) magic r rnd g d s1 s2 w,
  len magic = 4 -> flatten Sync s1 = flatten Tokio s2 -> calm Sync s1 -> uninterrupted w ->
  run_map (hs_view Sync) (io_handshake Sync magic r rnd g d s1 w) =
  run_map (hs_view Tokio) (io_handshake Tokio magic r rnd g d s2 w).
Proof.
  intros E EL magic r rnd g d s1 s2 w Hm F C1 U.
  destruct (flatten Tokio s2) as [c e] eqn:F2.
  rewrite (handshake_stream Sync magic r rnd g d s1 w c e),
          (handshake_stream Tokio magic r rnd g d s2 w c e); auto.
  - now apply pure_handshake_flavor.
  - intros Q. discriminate.
Qed.
Print Assumptions C27_drivers_agree.

(** The garbage loop calls [read] itself: unlike [read_exact] it does not retry [Interrupted]. *)
Theorem C27_interrupted_refuted :
  ~ forall (E : Env) (EL : EnvLaws E) s1 s2,
      flatten Sync s1 = flatten Sync s2 ->
      run_map (hs_view Sync) (io_handshake Sync mainnet Initiator ska None None s1 fresh) =
      run_map (hs_view Sync) (io_handshake Sync mainnet Initiator ska None None s2 fresh).
Proof.
  intros H. pose (b := snd sample_wires).
  specialize (H (toy true) (toy_laws true) [Chunk (take 80 b); Fail Interrupted; Chunk (drop 80 b)]
                [Chunk (take 80 b); Chunk (drop 80 b)]).
  assert (flatten Sync [Chunk (take 80 b); Fail Interrupted; Chunk (drop 80 b)] =
          flatten Sync [Chunk (take 80 b); Chunk (drop 80 b)]) as F by (vm_compute; reflexivity).
  specialize (H F). clear F. vm_compute in H. discriminate.
Qed.
Print Assumptions C27_interrupted_refuted.

Example C27_example :
  let b := snd sample_wires in
  match io_handshake (E := toy true) Sync mainnet Initiator ska (Some (repeat x2a 300)) None [Chunk b] fresh,
        io_handshake (E := toy true) Sync mainnet Initiator ska (Some (repeat x2a 300)) None (drip b) fresh,
        io_handshake (E := toy true) Tokio mainnet Initiator ska (Some (repeat x2a 300)) None
          [Chunk (take 100 b); Pending; Chunk (drop 100 b)] fresh with
  | Ret o1, Ret o2, Ret o3 =>
      hs_view Sync o1 = hs_view Sync o2 /\ hs_view Sync o1 = hs_view Tokio o3 /\
      (ho_reads o1, ho_reads o2, ho_reads o3) = (1, 40, 2) /\
      match ho_result o1 with Ok (_, _, sr) => len (session_content sr) = 60 | Err _ => False end
  | _, _, _ => False
  end.
Proof. vm_compute. repeat split. Qed.

(** ** C28 *)
Theorem C28_no_byte_lost : forall (E : Env) (EL : EnvLaws E) fl magic r rnd g d s w o i oc sr,
  len magic = 4 ->
  io_handshake fl magic r rnd g d s w = Ret o -> ho_result o = Ok (i, oc, sr) ->
  exists h fa h' wa their received,
    party_start magic r rnd g = Ret (Ok (h, fa)) /\ len their = 64 /\
    party_key h their d = Ret (Ok (h', wa)) /\
    content s = their ++ received /\
    completes h' received i (session_content sr) /\
    oc = outbound (sv_cipher (hs_state h')) /\
    written (ho_writer o) = written w ++ fa ++ wa.
Proof. exact @handshake_content. Qed.
Print Assumptions C28_no_byte_lost.

Theorem C28_reader_delivers : forall sr n bs sr',
  0 < n -> session_read sr n = (Data bs, sr') ->
  session_content sr = bs ++ session_content sr' /\ len bs <= n /\
  (session_leftover sr <> [] -> bs = take n (session_leftover sr) /\ session_inner sr' = session_inner sr).
Proof. exact session_read_delivers. Qed.
Print Assumptions C28_reader_delivers.

(** Read by [read_exact] the session reader gives the next bytes of its stream, for any splitting. *)
Theorem C28_reader_exact : forall fl sr n c e,
  session_stream fl sr = (c, e) ->
  (n <= len c -> exists sr', session_read_exact fl sr n = (Ok (take n c), sr') /\
     session_stream fl sr' = (drop n c, e)) /\
  (len c < n -> exists sr', session_read_exact fl sr n = (Err (end_kind e), sr')).
Proof.
  intros fl sr n c e H. destruct (session_read_exact_stream fl sr n c e H) as [P1 P2]. split; [|exact P2].
  intros L. destruct (P1 L) as (sr' & Q1 & Q2 & _). eauto.
Qed.
Print Assumptions C28_reader_exact.

(** The responder receives the initiator's stream in one piece: the three payload packets (71 bytes)
    were read along with the garbage, and are delivered before the rest of the transport. *)
Example C28_example :
  let a := fst sample_wires in
  match io_handshake (E := toy true) Tokio mainnet Responder skb (Some (repeat x2b 40)) None
          [Chunk a; Chunk [xaa; xbb]] fresh with
  | Ret o =>
      match ho_result o with
      | Ok (_, _, sr) =>
          session_content sr = drop (len a - 71) a ++ [xaa; xbb] /\
          session_leftover sr = drop (len a - 71) a /\ session_inner sr = [Chunk [xaa; xbb]]
      | Err _ => False
      end
  | _ => False
  end.
Proof. vm_compute. repeat split. Qed.

(** ** C29 *)
Theorem C29_two_endpoints : forall (E : Env) (EL : EnvLaws E) magic ska skb ga gb da db psa psb,
  EcdhAgrees E -> len magic = 4 ->
  sk_valid ska = true -> sk_valid skb = true ->
  (debug_assertions = true -> ska <> zeros 32 /\ skb <> zeros 32) ->
  len (garbage_bytes ga) <= 4095 -> len (garbage_bytes gb) <= 4095 ->
  Forall (fun d => len d + 17 <= 4000014) (decoy_list da) ->
  Forall (fun d => len d + 17 <= 4000014) (decoy_list db) ->
  (overflow_checks = true ->
     len (decoy_list da) + 1 + len psa < 2 ^ 32 /\ len (decoy_list db) + 1 + len psb < 2 ^ 32) ->
  take 4 (ellswift_of ska) <> magic -> take 4 (ellswift_of skb) <> magic ->
  exists m outa outb pka pkb,
    keys_from (bip_prk magic (bip_secret (ellswift_of ska) (ellswift_of skb) ska PartyA)) m /\
    (first_at (initiator_garbage_terminator m)
       (garbage_bytes ga ++ initiator_garbage_terminator m) (len (garbage_bytes ga)) ->
     first_at (responder_garbage_terminator m)
       (garbage_bytes gb ++ responder_garbage_terminator m) (len (garbage_bytes gb)) ->
     forall fla flb sa sb wa wb ea eb,
       flatten fla sa = (outb ++ pkb, ea) -> flatten flb sb = (outa ++ pka, eb) ->
       calm fla sa -> calm flb sb -> healthy wa -> healthy wb ->
       Forall (readable flb) psa -> Forall (readable fla) psb ->
       exists ra pa rb pb pa' pb' qa qb ra' rb',
         connect fla magic Initiator ska ga da sa wa = Ret (Ok (ra, pa)) /\
         connect flb magic Responder skb gb db sb wb = Ret (Ok (rb, pb)) /\
         written (pw_writer pa) = written wa ++ outa /\
         written (pw_writer pb) = written wb ++ outb /\
         write_many fla pa (map payload_of psa) = Ret (map (fun _ => Ok tt) psa, pa') /\
         write_many flb pb (map payload_of psb) = Ret (map (fun _ => Ok tt) psb, pb') /\
         written (pw_writer pa') = written wa ++ outa ++ pka /\
         written (pw_writer pb') = written wb ++ outb ++ pkb /\
         read_many (length psa) rb = Ret (map Ok qa, rb') /\ map payload_view qa = map Ret psa /\
         read_many (length psb) ra = Ret (map Ok qb, ra') /\ map payload_view qb = map Ret psb /\
         reader_stream ra' = ([], ea) /\ reader_stream rb' = ([], eb)).
Proof. exact @two_endpoints. Qed.
Print Assumptions C29_two_endpoints.

(** A tokio initiator reading byte by byte and a synchronous responder. *)
Example C29_example :
  let '(a, b) := sample_wires in
  match connect (E := toy true) Tokio mainnet Initiator ska (Some (repeat x2a 300)) (Some [[x01]; zeros 70])
          (drip b) (Writer [Accept 7; WPending; Accept 1000] [] []),
        connect (E := toy true) Sync mainnet Responder skb (Some (repeat x2b 40)) None
          [Chunk (take 500 a); Chunk (drop 500 a)] fresh with
  | Ret (Ok (ra, pa)), Ret (Ok (rb, pb)) =>
      match write_many (E := toy true) Tokio pa [genuine [x07; x08]; decoy (zeros 9); genuine []],
            read_many (E := toy true) 4 rb with
      | Ret (xs, pa'), Ret (ys, _) =>
          xs = [Ok tt; Ok tt; Ok tt] /\ written (pw_writer pa') = a /\
          ys = [Ok (Decrypted [x00; x07; x08]); Ok (Decrypted (x80 :: zeros 9)); Ok (Decrypted [x00]);
                Err (Io UnexpectedEof RetryV1)]
      | _, _ => False
      end
  | _, _ => False
  end.
Proof. vm_compute. repeat split. Qed.

(** ** C30 *)
Theorem C30_writes : forall (E : Env) (EL : EnvLaws E) fl magic r rnd g d s w o h fa c e,
  len magic = 4 -> healthy w -> party_start magic r rnd g = Ret (Ok (h, fa)) ->
  flatten fl s = (c, e) -> calm fl s ->
  io_handshake fl magic r rnd g d s w = Ret o ->
  (len c < 64 -> written (ho_writer o) = written w ++ fa) /\
  (64 <= len c -> forall h' wa, party_key h (take 64 c) d = Ret (Ok (h', wa)) ->
     written (ho_writer o) = written w ++ fa ++ wa) /\
  (64 <= len c -> forall y, party_key h (take 64 c) d = Ret (Err y) -> written (ho_writer o) = written w ++ fa).
Proof.
  intros E EL fl magic r rnd g d s w o h fa c e Hm Hw P F C H.
  pose proof (view_ret _ _ _ _ _ _ _ _ _ _ _ Hm F C H) as Q. unfold hs_view in Q.
  exact (pure_handshake_writes _ _ _ _ _ _ _ _ _ _ _ _ _ _ Hw P Q).
Qed.
Print Assumptions C30_writes.

Theorem C30_no_deadlock : forall (E : Env) (EL : EnvLaws E) magic ska skb ga gb da db,
  EcdhAgrees E -> len magic = 4 ->
  sk_valid ska = true -> sk_valid skb = true ->
  (debug_assertions = true -> ska <> zeros 32 /\ skb <> zeros 32) ->
  len (garbage_bytes ga) <= 4095 -> len (garbage_bytes gb) <= 4095 ->
  Forall (fun d => len d + 17 <= 4000014) (decoy_list da) ->
  Forall (fun d => len d + 17 <= 4000014) (decoy_list db) ->
  (overflow_checks = true -> len (decoy_list da) + 1 < 2 ^ 32 /\ len (decoy_list db) + 1 < 2 ^ 32) ->
  take 4 (ellswift_of ska) <> magic -> take 4 (ellswift_of skb) <> magic ->
  exists m,
    keys_from (bip_prk magic (bip_secret (ellswift_of ska) (ellswift_of skb) ska PartyA)) m /\
    (first_at (initiator_garbage_terminator m)
       (garbage_bytes ga ++ initiator_garbage_terminator m) (len (garbage_bytes ga)) ->
     first_at (responder_garbage_terminator m)
       (garbage_bytes gb ++ responder_garbage_terminator m) (len (garbage_bytes gb)) ->
     forall fla flb sa sb wa wb oa ob,
       calm fla sa -> calm flb sb -> healthy wa -> healthy wb -> written wa = [] -> written wb = [] ->
       io_handshake fla magic Initiator ska ga da sa wa = Ret oa ->
       io_handshake flb magic Responder skb gb db sb wb = Ret ob ->
       fst (flatten fla sa) = written (ho_writer ob) ->
       fst (flatten flb sb) = written (ho_writer oa) ->
       exists ia oca sra ib ocb srb,
         ho_result oa = Ok (ia, oca, sra) /\ ho_result ob = Ok (ib, ocb, srb) /\ ia = ocb /\ ib = oca).
Proof. exact @no_deadlock. Qed.
Print Assumptions C30_no_deadlock.

(** Without input the key and garbage are sent; with the 64 bytes of the peer's key everything is. *)
Example C30_example :
  let '(a, b) := sample_wires in
  let hs s := io_handshake (E := toy true) Tokio mainnet Initiator ska (Some (repeat x2a 300))
                (Some [[x01]; zeros 70]) s fresh in
  match hs [], hs [Chunk (take 63 b)], hs [Chunk (take 64 b)] with
  | Ret o0, Ret o1, Ret o2 =>
      written (ho_writer o0) = take 364 a /\ written (ho_writer o1) = take 364 a /\
      written (ho_writer o2) = take (len a - 71) a /\ 364 < len a - 71
  | _, _, _ => False
  end.
Proof. vm_compute. repeat split. Qed.

(** ** C31 *)
Theorem C31_truncated : forall (E : Env) (EL : EnvLaws E) fl magic r rnd g d s1 s2 w o c e i oc sr k e',
  len magic = 4 -> flatten fl s1 = (c, e) -> calm fl s1 ->
  io_handshake fl magic r rnd g d s1 w = Ret o -> ho_result o = Ok (i, oc, sr) ->
  k + len (fst (session_stream fl sr)) < len c ->
  flatten fl s2 = (take k c, e') -> calm fl s2 ->
  exists o', io_handshake fl magic r rnd g d s2 w = Ret o' /\ ho_result o' = Err (end_error e').
Proof.
  intros E EL fl magic r rnd g d s1 s2 w o c e i oc sr k e' Hm F1 C1 H R L F2 C2.
  pose proof (view_ret _ _ _ _ _ _ _ _ _ _ _ Hm F1 C1 H) as Q. unfold hs_view, stream_view in Q. rewrite R in Q.
  destruct (session_stream fl sr) as [rest e0] eqn:S. cbn [fst] in L.
  destruct (handshake_truncated _ _ _ _ _ _ _ _ _ _ _ _ _ _ _ Hm Q k e' L) as (w'' & a' & T).
  destruct (ret_view _ _ _ _ _ _ _ _ _ _ _ Hm F2 C2 T) as (o' & H' & V).
  exists o'. split; [assumption|]. unfold hs_view in V. injection V as V _ _.
  destruct (ho_result o') as [[[i' o''] sr']|y]; cbn [stream_view] in V; congruence.
Qed.
Print Assumptions C31_truncated.

Theorem C31_end_errors :
  end_error Closed = Io UnexpectedEof RetryV1 /\ forall k, end_error (Broken k) = from_io k.
Proof. split; reflexivity. Qed.
Print Assumptions C31_end_errors.

Theorem C31_suggestions : forall k,
  (exists s, from_io k = Io k s) /\
  (from_io k = Io k RetryV1 <-> k = ConnectionReset \/ k = ConnectionAborted \/ k = UnexpectedEof).
Proof.
  intros k. split; [eexists; reflexivity|].
  destruct k; cbn; split; intros H; try discriminate; auto; now destruct H as [H|[H|H]].
Qed.
Print Assumptions C31_suggestions.

Theorem C31_handshake_errors : forall (E : Env) fl magic r rnd g d s w o k sg,
  io_handshake fl magic r rnd g d s w = Ret o -> ho_result o = Err (Io k sg) -> Io k sg = from_io k.
Proof. exact @handshake_io_error. Qed.
Print Assumptions C31_handshake_errors.

(** The end of an established session, also between packets, has the same suggestion. *)
Theorem C31_established : forall (E : Env) (EL : EnvLaws E) c wire e k,
  cut_short c wire -> counted k c -> room k ->
  (forall sr, session_stream Sync sr = (wire, e) ->
     exists r' a, sync_read (SyncReader c sr) = Ret (Err (end_error e), r', a)) /\
  (forall l pos s, session_stream Tokio (TokioReader l pos s) = (wire, e) ->
     exists r', tokio_read (TReader c (TokioReader l pos s) init_reading_length) =
                Ret (Err (from_io (tokio_end e)), r')).
Proof.
  intros E EL c wire e k Cut C R. split.
  - intros sr S. destruct (sync_read_total (SyncReader c sr) k C R) as (x & r' & a & H & _).
    exists r', a. rewrite H. repeat f_equal. now apply (sync_read_end (SyncReader c sr) wire e x r' a).
  - intros l pos s S. destruct (tokio_read_meaning _ _ _ _ _ (fresh_within c l pos s wire e S) C R) as (x & r' & H & M).
    pose proof (await_settled _ _ _ _ _ H) as Se. exists r'. rewrite H. repeat f_equal.
    destruct (cut_short_none _ None _ Cut) as (c1 & rest & Q).
    destruct x as [p|[k2 s2|z]]; cbn [read_meaning poll_meaning settled] in M, Se.
    + destruct M as (? & ? & ? & ? & _ & Q' & _). congruence.
    + destruct M as [_ ->]. reflexivity.
    + exfalso. destruct M as ((_ & rest' & _ & W') & _). destruct Se as (pb & n & Es & Ln). rewrite Es in W'.
      destruct W' as (lb & L3 & D & Nn & ->). assert (n = len pb) by lia. subst n.
      destruct Cut as [Cut|(n & c2 & D' & Cut)].
      * rewrite len_app in Cut. lia.
      * rewrite take_app_exact in D' by lia. rewrite drop_app_exact in Cut by lia.
        rewrite D in D'. injection D' as <- <-. rewrite len_app, take_all in Cut by lia. lia.
Qed.
Print Assumptions C31_established.

(** A peer that closes an established v2 session makes the crate suggest a v1 retry. *)
Theorem C31_retry_means_v1_refuted :
  ~ forall (E : Env) (EL : EnvLaws E) magic r rnd g d s w p x r',
      protocol_new magic r rnd g d s w = Ret (Ok p) ->
      sync_read (p_reader p) = Ret (Err x, fst r', snd r') -> forall k, x <> Io k RetryV1.
Proof.
  intros H.
  destruct (@protocol_new (toy true) mainnet Initiator ska None None
    [Chunk (take (len (snd sample_wires) - 60) (snd sample_wires))] fresh) as [[p|]| |] eqn:P;
    try (vm_compute in P; discriminate).
  destruct (@sync_read (toy true) (p_reader p)) as [[[[|x] r'] a]| |] eqn:R;
    try (vm_compute in P; injection P as <-; vm_compute in R; discriminate).
  refine (H _ (toy_laws true) _ _ _ _ _ _ _ _ _ (r', a) P R UnexpectedEof _).
  vm_compute in P. injection P as <-. vm_compute in R. injection R as <- _ _. reflexivity.
Qed.
Print Assumptions C31_retry_means_v1_refuted.

Example C31_example :
  let b := snd sample_wires in
  let hs s := io_handshake (E := toy true) Sync mainnet Initiator ska (Some (repeat x2a 300)) None s fresh in
  forallb (fun k => match hs [Chunk (take k b)] with
                    | Ret o => match ho_result o with Err (Io UnexpectedEof RetryV1) => true | _ => false end
                    | _ => false end)
          [0; 1; 63; 64; 79; 80; 100; 119; 120; 122; 123; 138; 139] = true /\
  (exists o x, hs [Chunk (take 140 b)] = Ret o /\ ho_result o = Ok x) /\
  (exists o, hs [Chunk (take 90 b); Fail ConnectionReset; Chunk (drop 90 b)] = Ret o /\
     ho_result o = Err (Io ConnectionReset RetryV1)) /\
  (exists o, hs [Chunk (take 90 b); Fail (OtherKind 4)] = Ret o /\
     ho_result o = Err (Io (OtherKind 4) Abort)).
Proof.
  split; [vm_compute; reflexivity|]. split; [eexists _, _; vm_compute; split; reflexivity|].
  split; eexists; vm_compute; split; reflexivity.
Qed.

(** ** C32 *)
Theorem C32_handshake_allocs : forall (E : Env) fl magic r rnd g d s w o,
  io_handshake fl magic r rnd g d s w = Ret o ->
  Forall (fun n => n <= 4000014) (ho_allocs o).
Proof. exact @handshake_allocs. Qed.
Print Assumptions C32_handshake_allocs.

(** Only the three bytes of the length are needed to refuse, whatever follows. *)
Theorem C32_handshake_refuses : forall (E : Env) (EL : EnvLaws E)
    fl magic r rnd g d s w e h fa h' wa their ga packets ds ic lb n ic' more,
  len magic = 4 -> healthy w -> len their = 64 ->
  party_start magic r rnd g = Ret (Ok (h, fa)) ->
  party_key h their d = Ret (Ok (h', wa)) ->
  len ga <= 4095 ->
  first_at (remote_garbage_terminator (hs_state h')) (ga ++ remote_garbage_terminator (hs_state h')) (len ga) ->
  recv_all (inbound (sv_cipher (hs_state h'))) (first_aads (some_nonempty ga) (length ds)) packets =
    Ret (Some ds, ic, []) ->
  Forall is_decoy_packet ds -> Forall fits ds ->
  len lb = 3 -> decrypt_packet_len ic lb = Ret (n, ic') -> 4000014 < n ->
  flatten fl s = (their ++ ga ++ remote_garbage_terminator (hs_state h') ++ packets ++ lb ++ more, e) ->
  calm fl s ->
  exists o, io_handshake fl magic r rnd g d s w = Ret o /\
    ho_result o = Err (Internal PacketTooBig) /\ ho_allocs o = map (fun p => len (snd p) + 17) ds.
Proof.
  intros E EL fl magic r rnd g d s w e h fa h' wa their ga packets ds ic lb n ic' more
    Hm Hw Ht P K Lg Fi Rv Hd Hf Ll D Ln F C.
  destruct (pure_handshake_oversize fl magic r rnd g d e w h fa h' wa their ga packets ds ic lb n ic' more)
    as (w' & Q); try assumption.
  destruct (ret_view _ _ _ _ _ _ _ _ _ _ _ Hm F C Q) as (o & H & V). exists o. split; [assumption|].
  unfold hs_view in V. injection V as V _ Va. split; [|assumption].
  destruct (ho_result o) as [[[i' o''] sr']|y]; cbn [stream_view] in V; congruence.
Qed.
Print Assumptions C32_handshake_refuses.

(** In an established synchronous session the buffer has the announced size, before anything is checked;
    a packet over the cap is refused after it was read.  The tokio reader accepts it. *)
Theorem C32_established : forall (E : Env) (EL : EnvLaws E) c wire e t x c1 rest k,
  recv_one c None wire = Ret (Some (t, x), c1, rest) -> 4000014 < len x + 1 ->
  counted k c -> room k ->
  (forall sr, session_stream Sync sr = (wire, e) -> exists r',
     sync_read (SyncReader c sr) = Ret (Err (Internal PacketTooBig), r', Some (len x + 17)) /\
     session_stream Sync (sr_reader r') = (rest, e)) /\
  (forall l pos s, session_stream Tokio (TokioReader l pos s) = (wire, e) -> exists p r',
     tokio_read (TReader c (TokioReader l pos s) init_reading_length) = Ret (Ok p, r') /\
     payload_view p = Ret (t, x)).
Proof.
  intros E EL c wire e t x c1 rest k Rc L C R. split.
  - intros sr S. destruct (sync_read_packet (SyncReader c sr) wire e t x c1 rest S Rc) as [_ P].
    destruct (P L) as (r' & H & _ & _ & Q). eauto.
  - intros l pos s S.
    destruct (tokio_read_meaning _ _ _ _ _ (fresh_within c l pos s wire e S) C R) as (y & r' & H & M).
    destruct y as [p|[k2 s2|z]]; cbn [read_meaning poll_meaning] in M.
    + destruct M as (hd & ct & c2 & rs & -> & Q & _). rewrite Rc in Q. injection Q as -> -> -> ->.
      eexists _, r'. split; [exact H|]. unfold payload_view, payload_type, payload_contents.
      rewrite slice_ok by (rewrite len_cons; lia). unfold index. cbn -[drop take len].
      rewrite len_cons. change (drop 1 (hd :: ct)) with ct. now rewrite take_all by lia.
    + destruct M as [Cut _]. destruct (cut_short_none _ None _ Cut) as (? & ? & Q). congruence.
    + destruct M as (_ & _ & ? & ? & Q). congruence.
Qed.
Print Assumptions C32_established.

(** The size of the buffer is the announced one: three bytes from the peer cost up to 16 MiB. *)
Theorem C32_announced_size : forall (E : Env) (EL : EnvLaws E) c lb n c1 sr more e x r' a,
  len lb = 3 -> decrypt_packet_len c lb = Ret (n, c1) ->
  session_stream Sync sr = (lb ++ more, e) ->
  sync_read (SyncReader c sr) = Ret (x, r', a) -> a = Some n.
Proof.
  intros E EL c lb n c1 sr more e x r' a Ll D S H. unfold sync_read in H. cbn [sr_reader sr_cipher] in H.
  destruct (session_read_exact_stream Sync sr NUM_LENGTH_BYTES _ _ S) as [P _].
  destruct P as (sr1 & Q & S1 & _); [rewrite len_app; change NUM_LENGTH_BYTES with 3; lia|].
  rewrite Q in H. rewrite take_app_exact in H by (now rewrite Ll). rewrite D in H. cbn [bind] in H.
  destruct (session_read_exact Sync sr1 n) as [[pb|kd] sr2]; [|injection H as <- <- <-; reflexivity].
  apply bind_ret_inv in H. destruct H as ([[y|y] c2] & _ & H).
  - destruct y as [t buf]. apply bind_ret_inv in H. destruct H as (p & _ & H). now injection H as <- <- <-.
  - now injection H as <- <- <-.
Qed.
Print Assumptions C32_announced_size.

(** A length prefix that announces the largest packet. *)
Definition toy_in : cipher := inbound (session_new sample_km Initiator).
Definition max_prefix : bytes := Eval vm_compute in
  match @fc_crypt (toy true) (length_cipher toy_in) [xff; xff; xff] with Ret (lb, _) => lb | _ => [] end.

(** The documented limit for allocations does not hold in established sessions. *)
Theorem C32_allocation_limit_refuted :
  ~ forall (E : Env) (EL : EnvLaws E) r x r' n,
      sync_read r = Ret (x, r', Some n) -> n <= 4000014 + 16.
Proof.
  intros H.
  specialize (H (toy true) (toy_laws true) (SyncReader toy_in (ChainReader [] true [Chunk max_prefix]))).
  destruct (@sync_read (toy true) (SyncReader toy_in (ChainReader [] true [Chunk max_prefix])))
    as [[[x r'] [n|]]| |] eqn:R; vm_compute in R; try discriminate.
  specialize (H x r' n eq_refl). injection R as _ _ <-. vm_compute in H. now apply H.
Qed.
Print Assumptions C32_allocation_limit_refuted.

Example C32_example :
  (exists r', @sync_read (toy true) (SyncReader toy_in (ChainReader [] true [Chunk max_prefix])) =
     Ret (Err (Io UnexpectedEof RetryV1), r', Some 16777232)) /\
  let b := snd sample_wires in
  match @io_handshake (toy true) Sync mainnet Initiator ska (Some (repeat x2a 300)) None
          [Chunk (take 120 b ++ [x00; xff; xff] ++ zeros 30)] fresh with
  | Ret o => ho_result o = Err (Internal PacketTooBig) /\ ho_allocs o = []
  | _ => False
  end.
Proof. vm_compute. split; [eexists; reflexivity|repeat split]. Qed.

(** ** C33 *)
Theorem C33_reads_decode : forall (E : Env) (EL : EnvLaws E) ps c sr wire e c1 rest k,
  session_stream Sync sr = (wire, e) -> counted k c -> (overflow_checks = true -> k + len ps < 2 ^ 32) ->
  recv_all c (repeat None (length ps)) wire = Ret (Some ps, c1, rest) ->
  Forall (readable Sync) ps ->
  exists qs sr', read_many (length ps) (RSync (SyncReader c sr)) = Ret (map Ok qs, RSync (SyncReader c1 sr')) /\
    map payload_view qs = map Ret ps /\ session_stream Sync sr' = (rest, e).
Proof.
  intros E EL ps c sr wire e c1 rest k S C R H F.
  destruct (read_many_packets ps (RSync (SyncReader c sr)) c wire e c1 rest k) as (qs & r' & Q1 & Q2 & Q3);
    [split; [reflexivity|assumption]|assumption|assumption|assumption|assumption|].
  destruct (read_many_sync _ _ _ _ Q1) as ([c' sr'] & ->). destruct Q3 as [Q3 Q4]. cbn in Q3, Q4. subst c'.
  eauto.
Qed.
Print Assumptions C33_reads_decode.

(** Nothing else is returned as a payload. *)
Theorem C33_reads_sound : forall (E : Env) (EL : EnvLaws E) c sr wire e p r' a,
  session_stream Sync sr = (wire, e) -> sync_read (SyncReader c sr) = Ret (Ok p, r', a) ->
  exists t contents rest,
    payload_view p = Ret (t, contents) /\
    recv_one c None wire = Ret (Some (t, contents), sr_cipher r', rest) /\
    session_stream Sync (sr_reader r') = (rest, e) /\ len contents + 1 <= 4000014.
Proof.
  intros E EL c sr wire e p r' a S H.
  destruct (sync_read_sound (SyncReader c sr) _ _ _ _ _ S H) as (hd & ct & rest & -> & R & S' & L & _).
  exists (from_byte hd), ct, rest. split; [|auto].
  unfold payload_view, payload_type, payload_contents.
  rewrite slice_ok by (rewrite len_cons; lia). unfold index. cbn -[drop take len].
  rewrite len_cons. change (drop 1 (hd :: ct)) with ct. now rewrite take_all by lia.
Qed.
Print Assumptions C33_reads_sound.

Theorem C33_end : forall (E : Env) (EL : EnvLaws E) c sr wire x r' a,
  session_stream Sync sr = (wire, Closed) -> cut_short c wire ->
  sync_read (SyncReader c sr) = Ret (x, r', a) -> x = Err (Io UnexpectedEof RetryV1).
Proof. intros E EL c sr wire x r' a S C H. exact (sync_read_end (SyncReader c sr) wire Closed x r' a S C H). Qed.
Print Assumptions C33_end.

(** Two packets for [toy_in]. *)
Definition two_packets : bytes := Eval vm_compute in
  match @send_all (toy true) toy_in [Msg Genuine None [x01; x02; x03]; Msg Decoy None []] with
  | Ret (ps, _) => List.concat ps
  | _ => []
  end.

Example C33_example :
  match @read_many (toy true) 3 (RSync (SyncReader toy_in
          (ChainReader (take 5 two_packets) false (drip (drop 5 two_packets ++ [x00; x00]))))) with
  | Ret (xs, r) =>
      xs = [Ok (Decrypted [x00; x01; x02; x03]); Ok (Decrypted [x80]); Err (Io UnexpectedEof RetryV1)]
  | _ => False
  end.
Proof. vm_compute. reflexivity. Qed.

(** ** C34 *)
Theorem C34_part_is_lost : forall (E : Env) c bs k s,
  k <> Interrupted -> bs <> [] -> cut_short c bs ->
  (len bs < 3 -> sync_read (SyncReader c (ChainReader [] true (Chunk bs :: Fail k :: s))) =
     Ret (Err (from_io k), SyncReader c (ChainReader [] true s), None)) /\
  (3 <= len bs -> exists n c1, decrypt_packet_len c (take 3 bs) = Ret (n, c1) /\
     sync_read (SyncReader c (ChainReader [] true (Chunk bs :: Fail k :: s))) =
     Ret (Err (from_io k), SyncReader c1 (ChainReader [] true s), Some n)).
Proof. exact @sync_read_cut. Qed.
Print Assumptions C34_part_is_lost.

(** The tokio reader delivers the packet once the rest arrives. *)
Theorem C34_tokio_keeps : forall (E : Env) (EL : EnvLaws E) c t x pkt c' a b k acts xs r f,
  len x < 2 ^ 24 -> encrypt_to_vec c x t None = Ret (pkt, c') -> pkt = a ++ b ->
  run_schedule acts FreshFuture
    (TReader c (TokioReader [] 0 [Chunk a; Fail k; Chunk b]) init_reading_length) = Ret (xs, r, f) ->
  (4 <= polls acts)%nat ->
  exists more, map seen (payloads_of xs) = (t, x) :: more.
Proof.
  intros E EL c t x pkt c' a b k acts xs r f L En -> H P.
  destruct (schedule_delivers acts FreshFuture
    (TReader c (TokioReader [] 0 [Chunk a; Fail k; Chunk b]) init_reading_length)
    c (a ++ b) 1 [(t, x)] c' [] xs r f) as (more & Q).
  - pose proof (fresh_stands c (TokioReader [] 0 [Chunk a; Fail k; Chunk b])) as S.
    cbn [session_content content] in S. rewrite app_nil_r in S. exact S.
  - exact I.
  - cbn [repeat recv_all]. rewrite <- (app_nil_r (a ++ b)).
    rewrite (recv_one_sent _ _ _ _ _ _ [] L En). reflexivity.
  - exact H.
  - cbn. lia.
  - exists more. exact Q.
Qed.
Print Assumptions C34_tokio_keeps.

Theorem C34_resumable_refuted :
  ~ forall (E : Env) (EL : EnvLaws E) c t x pkt c' a b k,
      encrypt_to_vec c x t None = Ret (pkt, c') -> pkt = a ++ b -> len x + 1 <= 4000014 ->
      exists p r, read_many 2 (RSync (SyncReader c (ChainReader [] true [Chunk a; Fail k; Chunk b]))) =
                  Ret ([Err (from_io k); Ok p], r) /\ payload_view p = Ret (t, x).
Proof.
  intros H.
  destruct (@encrypt_to_vec (toy true) toy_in (counting 1 30) Genuine None) as [[pkt c']| |] eqn:P;
    [|vm_compute in P; discriminate|vm_compute in P; discriminate].
  destruct (H _ (toy_laws true) _ _ _ _ _ (take 5 pkt) (drop 5 pkt) (OtherKind 11) P) as (p & r & Q & _).
  - symmetry. apply take_drop.
  - vm_compute. discriminate.
  - vm_compute in P. injection P as <- <-. vm_compute in Q. discriminate.
Qed.
Print Assumptions C34_resumable_refuted.

Example C34_example :
  let s := [Chunk (take 5 two_packets); Fail (OtherKind 11); Chunk (drop 5 two_packets)] in
  match @read_many (toy true) 2 (RSync (SyncReader toy_in (ChainReader [] true s))),
        @read_many (toy true) 3 (RTokio (TReader toy_in (TokioReader [] 0 s) init_reading_length)) with
  | Ret (xs, _), Ret (ys, _) =>
      xs = [Err (Io (OtherKind 11) Abort); Err (Io UnexpectedEof RetryV1)] /\
      ys = [Err (Io (OtherKind 11) Abort); Ok (Decrypted [x00; x01; x02; x03]); Ok (Decrypted [x80])]
  | _, _ => False
  end.
Proof. vm_compute. split; reflexivity. Qed.

(** ** C35 *)
(** However polled and dropped: the payloads returned are the first packets of the stream, in order,
    each once. *)
Theorem C35_in_order : forall (E : Env) (EL : EnvLaws E) acts c sr xs r f,
  run_schedule acts FreshFuture (TReader c sr init_reading_length) = Ret (xs, r, f) ->
  exists c' rest,
    recv_all c (repeat None (length (payloads_of xs))) (session_content sr) =
      Ret (Some (map seen (payloads_of xs)), c', rest) /\
    Forall (fun p => payload_view p = Ret (seen p)) (payloads_of xs).
Proof.
  intros E EL acts c sr xs r f H.
  destruct (schedule_sound acts FreshFuture _ _ _ _ _ _ (fresh_stands c sr) I H) as (c' & rest & Q & _ & _ & P).
  exists c', rest. split; [assumption|]. eapply Forall_impl; [|exact P].
  intros p (hd & l & ->). unfold payload_view, payload_type, payload_contents.
  rewrite slice_ok by (rewrite len_cons; lia). unfold index. cbn -[drop take len].
  rewrite len_cons. change (drop 1 (hd :: l)) with l. now rewrite take_all by lia.
Qed.
Print Assumptions C35_in_order.

(** With enough polls every packet of the stream arrives. *)
Theorem C35_all_arrive : forall (E : Env) (EL : EnvLaws E) acts c sr n ps c' rest xs r f,
  recv_all c (repeat None n) (session_content sr) = Ret (Some ps, c', rest) ->
  run_schedule acts FreshFuture (TReader c sr init_reading_length) = Ret (xs, r, f) ->
  (session_events sr + n <= polls acts)%nat ->
  exists more, map seen (payloads_of xs) = ps ++ more.
Proof.
  intros E EL acts c sr n ps c' rest xs r f R H P.
  exact (schedule_delivers acts FreshFuture _ _ _ _ _ _ _ _ _ _ (fresh_stands c sr) I R H P).
Qed.
Print Assumptions C35_all_arrive.

(** Dropping the future makes no difference at all. *)
Theorem C35_cancel_irrelevant : forall (E : Env) (EL : EnvLaws E) acts c sr xs r f,
  run_schedule acts FreshFuture (TReader c sr init_reading_length) = Ret (xs, r, f) ->
  exists f', run_schedule (filter (fun a => match a with DoPoll => true | DoCancel => false end) acts)
               FreshFuture (TReader c sr init_reading_length) = Ret (xs, r, f').
Proof.
  intros E EL acts c sr xs r f H.
  exact (schedule_cancel_irrelevant acts FreshFuture _ _ _ (fresh_stands c sr) I _ _ _ H).
Qed.
Print Assumptions C35_cancel_irrelevant.

Theorem C35_total : forall (E : Env) (EL : EnvLaws E) acts c sr k,
  counted k c -> (overflow_checks = true -> k + N.of_nat (polls acts) + 1 < 2 ^ 32) ->
  exists xs r f, run_schedule acts FreshFuture (TReader c sr init_reading_length) = Ret (xs, r, f).
Proof.
  intros E EL acts c sr k C R.
  exact (schedule_total acts FreshFuture _ _ _ k (fresh_stands c sr) I C R).
Qed.
Print Assumptions C35_total.

Example C35_example :
  let s := [Chunk (take 2 two_packets); Pending; Chunk (take 10 (drop 2 two_packets)); Pending; Fail ConnectionReset;
            Chunk (drop 12 two_packets)] in
  match @run_schedule (toy true) [DoPoll; DoCancel; DoPoll; DoCancel; DoPoll; DoCancel; DoPoll; DoPoll]
          FreshFuture (TReader toy_in (TokioReader [] 0 s) init_reading_length) with
  | Ret (xs, r, f) =>
      xs = [Err (Io ConnectionReset RetryV1); Ok (Decrypted [x00; x01; x02; x03]); Ok (Decrypted [x80])]
  | _ => False
  end.
Proof. vm_compute. reflexivity. Qed.

(** ** C36 *)
Theorem C36_readers_agree : forall (E : Env) r1 c l pos s wire e k,
  let r2 := TReader c (TokioReader l pos s) init_reading_length in
  sr_cipher r1 = c -> session_stream Sync (sr_reader r1) = (wire, e) ->
  session_stream Tokio (tr_reader r2) = (wire, e) ->
  counted k c -> room k ->
  exists x1 r1' a x2 r2', sync_read r1 = Ret (x1, r1', a) /\ tokio_read r2 = Ret (x2, r2') /\
  match x1, x2 with
  | Ok p, Ok q =>
      payload_view p = payload_view q /\
      (exists l' pos' s', r2' = TReader (sr_cipher r1') (TokioReader l' pos' s') init_reading_length) /\
      session_stream Sync (sr_reader r1') = session_stream Tokio (tr_reader r2') /\
      counted (k + 1) (sr_cipher r1')
  | Err (Internal PacketTooBig), Ok q => exists t contents,
      payload_view q = Ret (t, contents) /\ 4000014 < len contents + 1 /\
      packet_cipher (sr_cipher r1') = packet_cipher c /\
      session_stream Sync (sr_reader r1') = session_stream Tokio (tr_reader r2')
  | Err (Internal y), Err (Internal z) => z = Decryption /\ (y = Decryption \/ y = PacketTooBig)
  | Err (Io k1 s1), Err (Io k2 s2) => Io k1 s1 = end_error e /\ Io k2 s2 = from_io (tokio_end e)
  | _, _ => False
  end.
Proof. exact @readers_agree. Qed.
Print Assumptions C36_readers_agree.

(** One flipped bit in the body of the first packet: the synchronous reader moves on to the next packet,
    with a packet cipher that has not advanced; the tokio reader stays. *)
Example C36_example :
  let bad := take 4 two_packets ++ [x55] ++ drop 5 two_packets in
  match @read_many (toy true) 3 (RSync (SyncReader toy_in (ChainReader [] true [Chunk bad]))),
        @read_many (toy true) 3 (RTokio (TReader toy_in (TokioReader [] 0 [Chunk bad]) init_reading_length)),
        @read_many (toy true) 2 (RSync (SyncReader toy_in (ChainReader [] true [Chunk two_packets]))),
        @read_many (toy true) 2 (RTokio (TReader toy_in (TokioReader two_packets 0 []) init_reading_length)) with
  | Ret (xs, RSync r), Ret (ys, _), Ret (xs', _), Ret (ys', _) =>
      xs = [Err (Internal Decryption); Err (Internal Decryption); Err (Io UnexpectedEof RetryV1)] /\
      ys = [Err (Internal Decryption); Err (Internal Decryption); Err (Internal Decryption)] /\
      xs' = ys' /\ xs' = [Ok (Decrypted [x00; x01; x02; x03]); Ok (Decrypted [x80])]
  | _, _, _, _ => False
  end.
Proof. vm_compute. repeat split. Qed.

(** ** C37 *)
(** A poll of a reachable reader ends; it suspends only if the transport did, and then used up
    one of the transport's answers. *)
Theorem C37_progress : forall (E : Env) acts c sr xs r f k,
  run_schedule acts FreshFuture (TReader c sr init_reading_length) = Ret (xs, r, f) ->
  counted k c -> room (k + N.of_nat (polls acts) + 1) ->
  exists x r' f', poll_read f r = Ret (x, r', f') /\
    (x = NotReady -> (session_events (tr_reader r') < session_events (tr_reader r))%nat) /\
    (Forall (fun ev => ev <> Pending) (session_inner (tr_reader r)) -> x <> NotReady).
Proof. exact @reachable_poll. Qed.
Print Assumptions C37_progress.

Theorem C37_closed : forall (E : Env) (EL : EnvLaws E) c l pos s wire k,
  session_stream Tokio (TokioReader l pos s) = (wire, Closed) -> cut_short c wire -> counted k c -> room k ->
  exists r', tokio_read (TReader c (TokioReader l pos s) init_reading_length) =
             Ret (Err (Io ConnectionAborted RetryV1), r').
Proof.
  intros E EL c l pos s wire k S Cut C R.
  destruct (C31_established E EL c wire Closed k Cut C R) as [_ P]. exact (P l pos s S).
Qed.
Print Assumptions C37_closed.

(** After an authentication failure all further reads repeat it and leave the reader as it is. *)
Theorem C37_failure_repeats : forall (E : Env) acts c sr xs r f e r' f',
  run_schedule acts FreshFuture (TReader c sr init_reading_length) = Ret (xs, r, f) ->
  poll_read f r = Ret (Ready (Err (Internal e)), r', f') ->
  e = Decryption /\
  forall n, run_schedule (repeat DoPoll n) FreshFuture r' =
            Ret (repeat (Err (Internal Decryption)) n, r', FreshFuture).
Proof. exact @reachable_failure. Qed.
Print Assumptions C37_failure_repeats.

Example C37_example :
  let bad := take 4 two_packets ++ [x55] ++ drop 5 two_packets in
  match @run_schedule (toy true) [DoPoll; DoPoll; DoPoll; DoPoll] FreshFuture
          (TReader toy_in (TokioReader [] 0 [Chunk bad; Pending]) init_reading_length),
        @run_schedule (toy true) [DoPoll; DoPoll; DoPoll] FreshFuture
          (TReader toy_in (TokioReader [] 0 [Pending; Chunk (take 7 two_packets)]) init_reading_length) with
  | Ret (xs, r, _), Ret (ys, r', _) =>
      xs = repeat (Err (Internal Decryption)) 4 /\ session_events (tr_reader r) = 2%nat /\
      ys = [Err (Io ConnectionAborted RetryV1); Err (Io ConnectionAborted RetryV1)] /\
      exists b, tr_state r' = ReadingPayload b 4
  | _, _ => False
  end.
Proof. vm_compute. repeat split. eexists. reflexivity. Qed.

(** ** C38 *)
Theorem C38_one_packet : forall (E : Env) (EL : EnvLaws E) fl p pl p',
  write_any fl p pl = Ret (Ok tt, p') ->
  exists t contents pkt,
    payload_view pl = Ret (t, contents) /\ len pkt = len contents + 20 /\
    written (pw_writer p') = written (pw_writer p) ++ pkt /\
    (len contents < 2 ^ 24 -> recv_one (pw_cipher p) None pkt = Ret (Some (t, contents), pw_cipher p', [])).
Proof. exact @write_any_packet. Qed.
Print Assumptions C38_one_packet.

(** Also a write that fails has advanced the cipher, and may have sent a part of the packet. *)
Theorem C38_failed_write : forall (E : Env) (EL : EnvLaws E) fl p pl x p',
  write_any fl p pl = Ret (x, p') ->
  exists t contents pkt n,
    payload_view pl = Ret (t, contents) /\
    encrypt_to_vec (pw_cipher p) contents t None = Ret (pkt, pw_cipher p') /\
    written (pw_writer p') = written (pw_writer p) ++ take n pkt /\
    (x = Ok tt -> written (pw_writer p') = written (pw_writer p) ++ pkt) /\
    (x = Ok tt \/ exists k, x = Err (from_io k)).
Proof. exact @write_any_sound. Qed.
Print Assumptions C38_failed_write.

(** A write on a healthy transport succeeds, for every payload. *)
Theorem C38_healthy : forall (E : Env) (EL : EnvLaws E) fl p pl t contents k,
  healthy (pw_writer p) -> payload_view pl = Ret (t, contents) ->
  counted k (pw_cipher p) -> room k ->
  exists p', write_any fl p pl = Ret (Ok tt, p').
Proof.
  intros E EL fl p pl t contents k H V C R.
  destruct (encrypt_vec_ret k (pw_cipher p) contents t None C R) as (pkt & c' & En & _).
  assert (payload_type pl = Ret t /\ payload_contents pl = Ret contents) as [Ty Ct].
  { unfold payload_view in V. apply bind_ret_inv in V. destruct V as (t' & Q1 & V).
    apply bind_ret_inv in V. destruct V as (ct' & Q2 & V). injection V as -> ->. now split. }
  destruct fl; cbn [write_any].
  - unfold sync_write. rewrite Ct, Ty. cbn [bind]. rewrite En. cbn [bind].
    destruct (write_flush_healthy Sync (pw_writer p) pkt H) as (w & Q & _). rewrite Q. eauto.
  - unfold tokio_write. rewrite Ct, Ty. cbn [bind]. change (encryption_buffer_len (len contents)) with (len contents + 20).
    rewrite encrypt_exact, En. cbn [bind].
    destruct (write_flush_healthy Tokio (pw_writer p) pkt H) as (w & Q & _). rewrite Q. eauto.
Qed.
Print Assumptions C38_healthy.

(** Success means that the packet was also flushed, and a failing flush is reported. *)
Definition flushed (before after : list fev) : Prop :=
  exists n, before = repeat FlushPending n ++ FlushOk :: after \/ before = repeat FlushPending n /\ after = [].

Lemma write_script_short fl s bs r s' out :
  write_script fl s bs = (r, s', out) -> match r with Ok _ => out = bs | Err _ => len out < len bs end.
Proof.
  revert bs r s' out. induction s as [|e s IH]; intros [|b bs] r s' out H; cbn [write_script] in H.
  - now injection H as <- <- <-.
  - now injection H as <- <- <-.
  - now injection H as <- <- <-.
  - destruct e as [n|k|]; [| |exact (IH _ _ _ _ H)].
    + destruct (N.eqb_spec n 0); [injection H as <- <- <-; rewrite len_cons; cbn; lia|].
      destruct (N.leb_spec (len (b :: bs)) n); [now injection H as <- <- <-|].
      destruct (write_script fl s (drop n (b :: bs))) as [[r0 s0] out0] eqn:Q. injection H as <- <- <-.
      apply IH in Q. destruct r0.
      * rewrite Q. apply take_drop.
      * rewrite len_app, len_take. rewrite len_drop in Q. lia.
    + destruct fl, k; try (injection H as <- <- <-; rewrite len_cons; cbn; lia); exact (IH _ _ _ _ H).
Qed.

Lemma flush_script_ok f : forall f', flush_script f = (Ok tt, f') -> flushed f f'.
Proof.
  induction f as [|[|k|] f IH]; intros f' H; cbn [flush_script] in H.
  - injection H as <-. exists 0%nat. now right.
  - injection H as <-. exists 0%nat. now left.
  - discriminate.
  - destruct (IH _ H) as [n [-> |[-> ->]]]; exists (S n); [now left|now right].
Qed.

Lemma flush_script_fail n k f : flush_script (repeat FlushPending n ++ FlushFail k :: f) = (Err k, f).
Proof. induction n; cbn; auto. Qed.

Theorem C38_flushed : forall (E : Env) (EL : EnvLaws E) fl p pl x p' t contents,
  write_any fl p pl = Ret (x, p') -> payload_view pl = Ret (t, contents) ->
  let sent := len (written (pw_writer p')) - len (written (pw_writer p)) in
  (x = Ok tt -> flushed (flushes (pw_writer p)) (flushes (pw_writer p'))) /\
  (forall n k rest, flushes (pw_writer p) = repeat FlushPending n ++ FlushFail k :: rest ->
     x = Err (from_io k) /\ sent = len contents + 20 /\ flushes (pw_writer p') = rest \/
     (exists k', x = Err (from_io k')) /\ sent < len contents + 20).
Proof.
  intros E EL fl p pl x p' t contents H V.
  assert (payload_type pl = Ret t /\ payload_contents pl = Ret contents) as [Ty Ct].
  { unfold payload_view in V. apply bind_ret_inv in V. destruct V as (t' & Q1 & V).
    apply bind_ret_inv in V. destruct V as (ct' & Q2 & V). injection V as -> ->. now split. }
  assert (exists pkt c y w, encrypt_to_vec (pw_cipher p) contents t None = Ret (pkt, c) /\
            write_flush fl (pw_writer p) pkt = (y, w) /\ p' = PWriter c w /\
            x = match y with Ok _ => Ok tt | Err k => Err (from_io k) end) as (pkt & c & y & w & En & W & -> & ->).
  { destruct fl; cbn [write_any] in H.
    - unfold sync_write in H. rewrite Ct, Ty in H. cbn [bind] in H.
      apply bind_ret_inv in H. destruct H as ([pkt c] & En & H).
      destruct (write_flush Sync (pw_writer p) pkt) as [y w] eqn:W. injection H as <- <-.
      exists pkt, c, y, w. auto.
    - unfold tokio_write in H. rewrite Ct, Ty in H. cbn [bind] in H.
      change (encryption_buffer_len (len contents)) with (len contents + 20) in H. rewrite encrypt_exact in H.
      apply bind_ret_inv in H. destruct H as ([[y0 c] pkt] & En & H).
      apply bind_ret_inv in En. destruct En as ([pkt' c'] & En & Q). injection Q as <- <- <-.
      destruct (write_flush Tokio (pw_writer p) pkt') as [y w] eqn:W. injection H as <- <-.
      exists pkt', c', y, w. auto. }
  pose proof (encrypt_vec_len _ _ _ _ _ _ En) as L. cbn [pw_writer].
  unfold write_flush, write_all in W.
  destruct (write_script fl (w_script (pw_writer p)) pkt) as [[r s] out] eqn:Q. apply write_script_short in Q.
  destruct r as [[]|k0].
  - subst out. unfold flush in W. cbn [flushes w_script written] in W.
    destruct (flush_script (flushes (pw_writer p))) as [r f] eqn:F. injection W as <- <-.
    cbn [flushes written]. rewrite len_app. split.
    + intros X. destruct r as [[]|]; [|discriminate]. now apply flush_script_ok.
    + intros n k rest P. rewrite P, flush_script_fail in F. injection F as <- <-. left. repeat split. lia.
  - injection W as <- <-. cbn [flushes written]. rewrite len_app. split; [discriminate|].
    intros n k rest _. right. split; [eauto|]. lia.
Qed.
Print Assumptions C38_flushed.

(** Nothing marks the session as broken: a later write succeeds, but the peer never reads its payload. *)
Theorem C38_ok_is_delivered_refuted :
  ~ forall (E : Env) (EL : EnvLaws E) p pl1 pl2 x1 p1 p2,
      written (pw_writer p) = [] ->
      write_any Sync p pl1 = Ret (x1, p1) -> write_any Sync p1 pl2 = Ret (Ok tt, p2) ->
      exists n xs r q, read_many n (RSync (SyncReader (pw_cipher p)
                         (ChainReader [] true [Chunk (written (pw_writer p2))]))) = Ret (xs, r) /\
        In (Ok q) xs /\ payload_view q = payload_view pl2.
Proof.
  intros H. pose (p := PWriter toy_in (Writer [Accept 5; WFail (OtherKind 32)] [] [])).
  destruct (@write_any (toy true) Sync p (genuine [x01; x02])) as [[x1 p1]| |] eqn:W1;
    [|vm_compute in W1; discriminate|vm_compute in W1; discriminate].
  destruct (@write_any (toy true) Sync p1 (genuine [x03; x04; x05])) as [[x2 p2]| |] eqn:W2.
  2:{ vm_compute in W1. injection W1 as <- <-. vm_compute in W2. discriminate. }
  2:{ vm_compute in W1. injection W1 as <- <-. vm_compute in W2. discriminate. }
  assert (x2 = Ok tt) as -> by (vm_compute in W1; injection W1 as <- <-; vm_compute in W2; congruence).
  destruct (H _ (toy_laws true) p _ _ _ _ _ eq_refl W1 W2) as (n & xs & r & q & R & In & _).
  vm_compute in W1. injection W1 as <- <-. vm_compute in W2. injection W2 as <-.
  assert (Z : forall c n xs r, @read_many (toy true) n (RSync (SyncReader c (ChainReader [] true []))) = Ret (xs, r) ->
                ~ List.In (Ok q) xs).
  { clear. induction n as [|n IH]; intros xs r H.
    - injection H as <- <-. easy.
    - cbn [read_many] in H. apply bind_ret_inv in H. destruct H as ([x r1] & Q & H).
      cbn in Q. injection Q as <- <-. apply bind_ret_inv in H. destruct H as ([ys r2] & Q & H).
      injection H as <- <-. intros [D|D]; [discriminate|]. eapply IH; eassumption. }
  revert R.
  destruct n as [|n]; intros R.
  - injection R as <- <-. destruct In.
  - cbn [read_many] in R. apply bind_ret_inv in R. destruct R as ([x r1] & Q & R).
    vm_compute in Q. injection Q as <- <-.
    destruct n as [|n].
    { cbn in R. injection R as <- <-. destruct In as [D|[]]. discriminate. }
    cbn [read_many] in R. apply bind_ret_inv in R. destruct R as ([ys r2] & Q & R). injection R as <- <-.
    destruct In as [D|In]; [discriminate|].
    apply bind_ret_inv in Q. destruct Q as ([x r1] & Q & R).
    vm_compute in Q. injection Q as <- <-.
    apply bind_ret_inv in R. destruct R as ([zs r3] & Q & R). injection R as <- <-.
    destruct In as [D|In]; [discriminate|]. exact (Z _ _ _ _ Q In).
Qed.
Print Assumptions C38_ok_is_delivered_refuted.

Example C38_example :
  match @write_any (toy true) Sync (PWriter toy_in (Writer [WFail Interrupted; Accept 3; WPending] [] [])) (genuine [x01; x02; x03]),
        @write_any (toy true) Tokio (PWriter toy_in (Writer [] [FlushPending; FlushFail WriteZero] [])) (genuine [x01; x02; x03]) with
  | Ret (x, p), Ret (y, q) =>
      x = Ok tt /\ written (pw_writer p) = take 23 two_packets /\
      y = Err (Io WriteZero Abort) /\ pw_cipher q = pw_cipher p
  | _, _ => False
  end.
Proof. vm_compute. repeat split. Qed.

(** ** C39 *)
Theorem C39_accessors : forall contents,
  payload_view (genuine contents) = Ret (Genuine, contents) /\
  payload_view (decoy contents) = Ret (Decoy, contents) /\
  forall hd, payload_view (Decrypted (hd :: contents)) = Ret (from_byte hd, contents).
Proof.
  intros contents. split; [reflexivity|]. split; [reflexivity|]. intros hd.
  unfold payload_view, payload_type, payload_contents. rewrite slice_ok by (rewrite len_cons; lia).
  unfold index. cbn -[drop take len]. rewrite len_cons. change (drop 1 (hd :: contents)) with contents.
  now rewrite take_all by lia.
Qed.
Print Assumptions C39_accessors.

(** Every payload returned by a read, of a synchronous reader or of a tokio reader in any reachable
    state, has a header byte. *)
Theorem C39_read_payloads : forall (E : Env) (EL : EnvLaws E),
  (forall r p r' a, sync_read r = Ret (Ok p, r', a) -> exists hd x, p = Decrypted (hd :: x)) /\
  (forall acts c sr xs r f p,
     run_schedule acts FreshFuture (TReader c sr init_reading_length) = Ret (xs, r, f) ->
     In (Ok p) xs -> exists hd x, p = Decrypted (hd :: x)).
Proof.
  intros E EL. split; [exact sync_payload|]. intros acts c sr xs r f p H I.
  destruct (schedule_sound acts FreshFuture _ _ _ _ _ _ (fresh_stands c sr) Logic.I H) as (c' & rest & _ & _ & _ & P).
  rewrite Forall_forall in P. apply P. unfold payloads_of. apply in_flat_map. exists (Ok p). split; [assumption|].
  now left.
Qed.
Print Assumptions C39_read_payloads.

Example C39_example :
  payload_view (Decrypted [x80; x05]) = Ret (Decoy, [x05]) /\ payload_view (Decrypted [x7f]) = Ret (Genuine, []) /\
  payload_view (Decrypted []) = Panic.
Proof. vm_compute. repeat split. Qed.

(** ** C40 *)
Theorem C40_terminates : forall (E : Env) (EL : EnvLaws E) fl magic r rnd g d s w,
  len magic = 4 ->
  io_handshake fl magic r rnd g d s w <> NoFuel /\
  forall o, io_handshake fl magic r rnd g d s w = Ret o -> ho_reads o <= 4095.
Proof.
  intros E EL fl magic r rnd g d s w Hm. unfold io_handshake.
  destruct (hs_new magic r rnd) as [[h|y]| |] eqn:N; cbn [bind].
  - apply io_handshake_terminates. now rewrite (hs_new_magic _ _ _ _ N).
  - split; [discriminate|]. intros o H. injection H as <-. cbn. lia.
  - split; discriminate.
  - exfalso. revert N. unfold hs_new.
    repeat match goal with |- context [if ?b then _ else _] => destruct b end; discriminate.
Qed.
Print Assumptions C40_terminates.

(** One byte per read: as many reads as there are garbage bytes. *)
Definition long_wires (n : N) : bytes :=
  match wires (E := toy true) None (Some (repeat x2b (N.to_nat n))) None None [] [] with
  | Some p => snd p
  | None => []
  end.

Example C40_example :
  match @io_handshake (toy true) Sync mainnet Initiator ska None None (drip (long_wires 300)) fresh with
  | Ret o => ho_reads o = 300
  | _ => False
  end.
Proof. vm_compute. reflexivity. Qed.

(** ** C51 *)
Theorem C51_encrypts_first : forall (E : Env) (EL : EnvLaws E) p pl f p',
  start_write p pl = Ret (Ok f, p') ->
  exists t contents pkt,
    payload_view pl = Ret (t, contents) /\
    encrypt_to_vec (pw_cipher p) contents t None = Ret (pkt, pw_cipher p') /\
    pw_writer p' = pw_writer p /\ f = Writing pkt.
Proof. exact @start_write_encrypts. Qed.
Print Assumptions C51_encrypts_first.

(** Dropped after any number of polls: a prefix of the packet is on the wire, the cipher is past it. *)
Theorem C51_dropped : forall (E : Env) n pkt p x p',
  polls_write n (Writing pkt) p = (x, p') ->
  pw_cipher p' = pw_cipher p /\
  exists k, written (pw_writer p') = written (pw_writer p) ++ take k pkt /\
    (x = Some (Ok tt) -> written (pw_writer p') = written (pw_writer p) ++ pkt).
Proof. intros E n pkt p x p' H. exact (polls_write_prefix n (Writing pkt) p x p' H). Qed.
Print Assumptions C51_dropped.

(** Polled to its end it is [write]. *)
Theorem C51_awaited : forall (E : Env) p pl f p1 n,
  start_write p pl = Ret (Ok f, p1) -> (hold_ups (pw_writer p) < n)%nat ->
  exists x p2, polls_write n f p1 = (Some x, p2) /\ tokio_write p pl = Ret (x, p2).
Proof. exact @awaited_write. Qed.
Print Assumptions C51_awaited.

(** A dropped write future spoils the session: the next write succeeds, but what the peer's next read gives
    is not its payload. *)
Theorem C51_cancel_safe_refuted :
  ~ forall (E : Env) (EL : EnvLaws E) p pl1 pl2 f p1 p2 p3 n,
      written (pw_writer p) = [] ->
      start_write p pl1 = Ret (Ok f, p1) -> polls_write n f p1 = (None, p2) ->
      tokio_write p2 pl2 = Ret (Ok tt, p3) ->
      exists xs r q, read_many 2 (RTokio (TReader (pw_cipher p)
                       (TokioReader [] 0 [Chunk (written (pw_writer p3))]) init_reading_length)) = Ret (xs, r) /\
        In (Ok q) xs /\ payload_view q = payload_view pl2.
Proof.
  intros H. pose (p := PWriter toy_in (Writer [Accept 5; WPending] [] [])).
  destruct (@start_write (toy true) p (genuine [x01; x02])) as [[[f|y] p1]| |] eqn:W1;
    try (vm_compute in W1; discriminate).
  destruct (@polls_write 1 f p1) as [[x|] p2] eqn:W2.
  { exfalso. vm_compute in W1. injection W1 as <- <-. vm_compute in W2. discriminate. }
  destruct (@tokio_write (toy true) p2 (genuine [x03; x04; x05])) as [[x2 p3]| |] eqn:W3;
    try (exfalso; vm_compute in W1; injection W1 as <- <-; vm_compute in W2; injection W2 as <-;
         vm_compute in W3; discriminate).
  assert (x2 = Ok tt) as -> by (vm_compute in W1; injection W1 as <- <-; vm_compute in W2; injection W2 as <-;
                                 vm_compute in W3; congruence).
  destruct (H _ (toy_laws true) p _ _ _ _ _ _ _ eq_refl W1 W2 W3) as (xs & r & q & R & In & _).
  vm_compute in W1. injection W1 as <- <-. vm_compute in W2. injection W2 as <-. vm_compute in W3. injection W3 as <-.
  vm_compute in R. injection R as <- _. destruct In as [D|[D|[]]]; discriminate.
Qed.
Print Assumptions C51_cancel_safe_refuted.

Example C51_example :
  match @start_write (toy true) (PWriter toy_in (Writer [Accept 5; WPending; Accept 2; WPending] [FlushPending] [])) (genuine [x01; x02; x03]) with
  | Ret (Ok f, p1) =>
      written (pw_writer (snd (polls_write 1 f p1))) = take 5 two_packets /\
      written (pw_writer (snd (polls_write 2 f p1))) = take 7 two_packets /\
      polls_write 3 f p1 = (None, PWriter (pw_cipher p1) (Writer [] [] (take 23 two_packets))) /\
      polls_write 4 f p1 = (Some (Ok tt), PWriter (pw_cipher p1) (Writer [] [] (take 23 two_packets)))
  | _ => False
  end.
Proof. vm_compute. repeat split. Qed.

(** ** C52 *)
(** [into_inner] between packets hands over exactly what was not yet read. *)
Theorem C52_into_inner : forall (E : Env) acts c sr xs r f,
  run_schedule acts FreshFuture (TReader c sr init_reading_length) = Ret (xs, r, f) ->
  tr_state r = init_reading_length ->
  let '(c', sr') := tokio_reader_into_inner r in
  recv_all c (repeat None (length (payloads_of xs))) (session_content sr) =
    Ret (Some (map seen (payloads_of xs)), c', session_content sr').
Proof. exact @into_inner_at_boundary. Qed.
Print Assumptions C52_into_inner.

(** Inside a packet the part already read is dropped with the state. *)
Theorem C52_any_time_refuted :
  ~ forall (E : Env) (EL : EnvLaws E) acts c sr xs r f,
      run_schedule acts FreshFuture (TReader c sr init_reading_length) = Ret (xs, r, f) ->
      let '(c', sr') := tokio_reader_into_inner r in
      recv_all c (repeat None (length (payloads_of xs))) (session_content sr) =
        Ret (Some (map seen (payloads_of xs)), c', session_content sr').
Proof.
  intros H.
  specialize (H (toy true) (toy_laws true) [DoPoll; DoCancel] toy_in
                (TokioReader [] 0 [Chunk (take 5 two_packets); Pending; Chunk (drop 5 two_packets)])).
  destruct (@run_schedule (toy true) [DoPoll; DoCancel] FreshFuture (TReader toy_in
    (TokioReader [] 0 [Chunk (take 5 two_packets); Pending; Chunk (drop 5 two_packets)]) init_reading_length))
    as [[[xs r] f]| |] eqn:R; vm_compute in R; try discriminate.
  specialize (H xs r f eq_refl). injection R as <- <- <-. vm_compute in H. discriminate.
Qed.
Print Assumptions C52_any_time_refuted.

Example C52_example :
  match @run_schedule (toy true) [DoPoll] FreshFuture (TReader toy_in (TokioReader two_packets 0 []) init_reading_length) with
  | Ret (xs, r, f) => session_content (snd (tokio_reader_into_inner r)) = drop 23 two_packets
  | _ => False
  end.
Proof. vm_compute. reflexivity. Qed.

(** ** C53 *)
Theorem C53_handshake_no_panic : forall (E : Env) (EL : EnvLaws E) fl magic r rnd g d s w,
  len magic = 4 -> sk_valid rnd = true -> (debug_assertions = true -> rnd <> zeros 32) ->
  (overflow_checks = true -> len (decoy_list d) + 1 < 2 ^ 32 /\ len (content s) < 2 ^ 35) ->
  exists o, io_handshake fl magic r rnd g d s w = Ret o.
Proof. exact @io_no_panic. Qed.
Print Assumptions C53_handshake_no_panic.

Theorem C53_sync_no_panic : forall (E : Env) (EL : EnvLaws E) n c sr k,
  counted k c -> (overflow_checks = true -> k + N.of_nat n < 2 ^ 32) ->
  exists xs r, read_many n (RSync (SyncReader c sr)) = Ret (xs, r).
Proof.
  intros E EL. induction n as [|n IH]; intros c sr k C R; cbn [read_many read_any].
  - eauto.
  - destruct (sync_read_total (SyncReader c sr) k) as (x & r' & a & H & C').
    { exact C. }
    { intros Ho. specialize (R Ho). lia. }
    rewrite H. cbn [bind]. destruct r' as [c' sr'].
    destruct (IH c' sr' (k + 1)) as (xs & r & Q); [exact C'|intros Ho; specialize (R Ho); lia|].
    rewrite Q. cbn [bind]. eauto.
Qed.
Print Assumptions C53_sync_no_panic.

Theorem C53_tokio_no_panic : forall (E : Env) (EL : EnvLaws E) acts c sr k,
  counted k c -> (overflow_checks = true -> k + N.of_nat (polls acts) + 1 < 2 ^ 32) ->
  exists xs r f, run_schedule acts FreshFuture (TReader c sr init_reading_length) = Ret (xs, r, f).
Proof. exact C35_total. Qed.
Print Assumptions C53_tokio_no_panic.

Example C53_example :
  (exists o, @io_handshake (toy true) Tokio mainnet Responder skb None None
     [Chunk (repeat xff 64); Pending; Chunk (repeat x00 5000); Fail Interrupted] fresh = Ret o /\
     ho_result o = Err (Internal NoGarbageTerminator)) /\
  match @read_many (toy true) 3 (RSync (SyncReader toy_in (ChainReader [xff] false [Chunk (repeat x09 40); Chunk []])))
  with Ret (xs, _) => length xs = 3%nat | _ => False end.
Proof. split; [eexists|]; vm_compute; repeat split. Qed.
