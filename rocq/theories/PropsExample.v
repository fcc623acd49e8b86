(** * PropsExample: what the example program shows (C100) *)
From Coq Require Import List Arith NArith Bool Lia.
From Coq.Strings Require Import Byte.
From Verif Require Import Base BaseFacts Env FsChacha Cipher Histories CipherProofs Handshake SpecHandshake HsDriver Transport TransportProofs Io
  SpecIo IoRunProofs SpecTraffic Sessions SessionProofs Futures FuturesProofs ReaderProofs EndpointProofs Toy PropsCipher PropsHandshake PropsIo HsSteps HsStepsProofs PipesProofs PropsPipes
  HsRunProofs PropsSession PropsShape Buffered SpecBuffered BufferedProofs PropsBuffered ExampleProgram ExampleProofs.
Import ListNotations.
Local Open Scope N_scope.

(** ** C100 *)
(** Server and client, whatever the scenario, the keys and the segments, straight or through a [BufReader]: the server's writes
    succeed, and the client gets the messages of the scenario, one by one and no more, the stream then being at its end. *)
Theorem C100_benchmark : forall (E : Env) (EL : EnvLaws E) sc ska skb, EcdhAgrees E ->
  sk_valid ska = true -> sk_valid skb = true ->
  (debug_assertions = true -> ska <> zeros 32 /\ skb <> zeros 32) ->
  take 4 (ellswift_of ska) <> BITCOIN -> take 4 (ellswift_of skb) <> BITCOIN ->
  Forall (fun size => size < 2 ^ 24) (message_sizes sc) ->
  (overflow_checks = true -> total_messages sc + 1 < 2 ^ 32) ->
  exists outa outb pkb, len pkb = total_bytes sc + 20 * total_messages sc /\
    (forall reader w e, flatten Tokio reader = (outa, e) -> healthy w ->
       exists p, serve sc skb reader w = Ret p /\ written (pw_writer p) = written w ++ outb ++ pkb) /\
    (forall (St : Type) rd (rest : St -> script) size st w e, faithful rd rest size ->
       flatten Tokio (rest st) = (outb ++ pkb, e) -> healthy w ->
       exists enough, forall fuel, (enough <= fuel)%nat -> exists ps r st' w',
         client St rd fuel sc ska st w = Ret (Ok (ps, r), st', w') /\
         map payload_view ps = map Ret (messages_of sc) /\ written w' = written w ++ outa /\
         session_stream Tokio (set_inner (tr_reader r) (rest st')) = ([], e)).
Proof.
  intros E EL sc ska skb EA Va Vb Hz Ma Mb SZ OV.
  assert (Hm : len BITCOIN = 4) by reflexivity. assert (CA : forall s, calm Tokio s) by (intros s Q; discriminate Q).
  destruct (endpoints BITCOIN ska skb None None None None EA Hm Va Vb Hz) as
    (ha & fa & hb & fb & ha' & va & hb' & vb & m & oca & ocb & Sa & Sb & [La Lb] & Ka & Kb & KF & Oa & Ob & Ca & Cb & Fin);
    try assumption; try (cbn; lia); try (now constructor).
  change (len (decoy_list None) + 1) with 1 in *.
  destruct (send_all_ret (map as_msg (messages_of sc)) _ _ Cb) as (pkb & ocb' & Pb & _).
  { unfold len in *. rewrite map_length. fold (len (messages_of sc)). rewrite len_messages. intros Q. specialize (OV Q). lia. }
  assert (FA : forall q, first_at (terminator m q) (garbage_bytes None ++ terminator m q) (len (garbage_bytes None))) by (intros q; apply first_at_start).
  destruct (Fin (FA Initiator) (FA Responder) (List.concat pkb) []) as [Qa Qb]. clear Fin.
  assert (T : forall f v p : bytes, 64 <= len f -> take 64 ((f ++ v) ++ p) = take 64 f /\
     drop 64 ((f ++ v) ++ p) = drop 64 f ++ v ++ p /\ 64 <= len ((f ++ v) ++ p)).
  { intros f v p Lf. rewrite <- app_assoc. rewrite take_app_le, drop_app_le by assumption.
    rewrite len_app. repeat split; try reflexivity. lia. }
  destruct (T fb vb (List.concat pkb) Lb) as (T1 & T2 & T3). destruct (T fa va [] La) as (T4 & T5 & T6).
  rewrite <- T2 in Qa. rewrite <- T5 in Qb. rewrite <- T1 in Ka. rewrite <- T4 in Kb. rewrite app_nil_r in T6, Kb, Qb.
  assert (SZ2 : Forall (fun p => len (snd p) < 2 ^ 24) (messages_of sc)).
  { unfold messages_of. generalize (N.to_nat (iterations sc)) as n. induction n as [|n IH]; cbn [repeat List.concat]; [constructor|].
    apply Forall_app. split; [|exact IH]. clear - SZ. induction SZ as [|a l A _ I]; cbn [map]; constructor; [|exact I].
    cbn [snd]. unfold len. rewrite repeat_length. lia. }
  exists (fa ++ va), (fb ++ vb), (List.concat pkb). split; [|split].
  - rewrite (packet_lens _ _ _ _ Pb), sum_sizes, sizes_messages, len_messages. reflexivity.
  - intros reader w e F Hw.
    destruct (one_side Tokio BITCOIN Responder skb None None reader w e hb fb _ hb' vb oca _ (messages_of sc) Hm Hw Sb T6 Kb Qb F (CA _))
      as (rb & pb & Y1 & Y2 & Y3 & Y4 & Y5 & Y6 & Y7).
    rewrite Ob in Y4. rewrite <- Y4 in Pb. destruct (Y7 _ _ Pb) as (pb' & Wb & Wwb). exists pb'. split.
    + unfold serve. cbn [connect] in Y1. destruct (tokio_protocol_new BITCOIN Responder skb None None reader w) as [[p|y]| |]; cbn [bind] in *; try discriminate Y1.
      assert (t_writer p = pb) as -> by congruence. rewrite dump_concat, payloads_messages. apply write_payloads_many. rewrite map_map. exact Wb.
    + rewrite Wwb. reflexivity.
  - intros St rd rest size st w e FH F Hw.
    destruct (pure_handshake_complete Tokio BITCOIN Initiator ska None None _ e w _ _ ha fa ha' va Hm Hw Sa T3 Ka Qa) as (w' & a & Hw' & P).
    pose proof (pure_handshake_ok Tokio BITCOIN Initiator ska None None _ e w _ _ _ _ _ _ Hm P) as (_ & h0 & fa0 & h0' & wa0 & S0 & _ & K0 & _ & _ & Wr).
    rewrite Sa in S0. injection S0 as <- <-. rewrite Ka in K0. injection K0 as <- <-.
    destruct (ret_view Tokio BITCOIN Initiator ska None None (rest st) w _ e _ Hm F (CA _) P) as (o & H & V).
    destruct (view_ok Tokio o _ _ _ _ _ _ V) as (sr0 & R & S1 & Wo & _).
    destruct (hs_begin BITCOIN Initiator ska None) as [p| |] eqn:B.
    2,3: exfalso; apply start_inv in Sa; destruct Sa as (h1 & HN & SK); unfold hs_begin, begin in B; rewrite HN in B; cbn [bind] in B; rewrite SK in B; discriminate B.
    pose proof (C92_handshake E EL St rd rest size Tokio BITCOIN Initiator ska None None st w p FH Hm (CA _) B) as HS. rewrite H in HS.
    destruct HS as (n & x & st' & ST & VW). rewrite R in VW. cbn [stream_view] in VW. rewrite S1 in VW.
    destruct x as [[[i oc] sr]|y]; [|discriminate VW].
    cbn [stream_view] in VW. injection VW as -> _ SS.
    pose proof (any_steps_owned St rd None n p st w _ _ _ (begin_owned _ _ _ _ _ B) ST) as OW. cbn [place_owned] in OW.
    destruct sr as [? ? ?|l pos s]; [contradiction|].
    pose proof (recv_sent_msgs _ _ _ _ SZ2 Pb) as RC.
    assert (LM : length (messages_of sc) = N.to_nat (total_messages sc)) by (rewrite <- len_messages; unfold len; now rewrite Nat2N.id).
    exists (S (n + length (messages_of sc) + behind St size (TokioReader l pos s) st'))%nat. intros fuel L.
    destruct (reads_deliver St rd rest size FH fuel fuel (messages_of sc) FreshFuture (TReader ocb (TokioReader l pos s) init_reading_length) st' ocb
      (List.concat pkb) e ocb' [] 1 I ltac:(cbn [tr_reader]; lia) (fresh_within _ _ _ _ _ _ SS) I Cb
      ltac:(rewrite len_messages; intros Q; specialize (OV Q); lia) RC ltac:(cbn [tr_reader]; lia)) as (qs & r' & st2 & D1 & D2 & D3).
    exists qs, r', st2, (ho_writer o). unfold client. rewrite B. cbn [bind].
    replace fuel with (n + (fuel - n))%nat at 1 by lia.
    assert (SA : any_steps St rd (n + (fuel - n)) Tokio None p st w = Ret (Over (Ok (ocb, oc, TokioReader l pos s)), st', ho_writer o)).
    { clear - ST. generalize (fuel - n)%nat as k. revert p st w ST. induction n as [|n IH]; intros p st w ST; cbn [any_steps Nat.add] in *.
      - injection ST as -> -> ->. intros k. apply BufferedProofs.over_stays.
      - destruct (any_step St rd Tokio None p st w) as [[[p1 st1] w1]| |]; cbn [bind] in *; try discriminate ST. intros k. exact (IH _ _ _ ST k). }
    rewrite SA. cbn [bind]. rewrite <- LM, D1. cbn [bind]. split; [reflexivity|]. split; [exact D2|]. split; [rewrite Wo, Wr; reflexivity|].
    exact (at_packet_end (RTokio (set_reader r' (rest st2))) ocb' e D3).
Qed.

(** Straight from the transport: at least two reads for each message, whatever is at hand. *)
Theorem C100_two_calls : forall (E : Env) (St : Type) (rd : St -> N -> option read_result * St) polls fuel n c sr st k ps r st' k',
  session_leftover sr = [] ->
  read_payloads _ (counted_reader rd) polls fuel n FreshFuture (TReader c sr init_reading_length) (st, k) = Ret (Ok ps, r, (st', k')) ->
  k + 2 * N.of_nat n <= k'.
Proof.
  intros E St rd polls fuel n c sr st k ps r st' k' L H.
  destruct (payloads_calls St rd fuel polls n _ (TReader c sr init_reading_length) _ _ _ _ _ _ L eq_refl H) as (_ & [->|G] & K); [lia|]. unfold due in G. cbn [tr_state init_reading_length] in G. lia.
Qed.

(** Through a [BufReader] that has [bs] at hand: once for every [capacity] bytes, and once more. *)
Theorem C100_few_calls : forall (E : Env) polls fuel n f r capacity buffer calls bs ps r' b,
  read_payloads buf_reader buf_read polls fuel n f r (BufReader capacity buffer [Chunk bs] calls) = Ret (Ok ps, r', b) ->
  capacity * (br_calls b - calls - 1) <= len bs.
Proof.
  intros E polls fuel n f r capacity buffer calls bs ps r' b T.
  set (P := fun b : buf_reader => br_capacity b = capacity /\ calls <= br_calls b /\
    (br_inner b = [] /\ capacity * (br_calls b - calls - 1) <= len bs \/
     exists r, br_inner b = [Chunk r] /\ capacity * (br_calls b - calls) + len r <= len bs)).
  assert (K : P b).
  { eapply (payloads_keep buf_reader buf_read P); [| |exact T].
    2:{ split; [reflexivity|]. split; [cbn [br_calls]; lia|]. right. exists bs. split; [reflexivity|]. cbn [br_calls]. lia. }
    clear. intros b n o b' N0 (C & CL & H) R D. unfold buf_read in R. destruct (br_buffer b) as [|y l] eqn:B.
    - assert (EACH : forall m o1 s1, br_capacity b <= m -> 0 < m -> poll_script (br_inner b) m = (o1, s1) -> o1 <> Some (Data []) ->
        s1 = [] /\ capacity * (br_calls b + 1 - calls - 1) <= len bs \/ exists r, s1 = [Chunk r] /\ capacity * (br_calls b + 1 - calls) + len r <= len bs).
      { intros m o1 s1 LE M0 PS ND. destruct H as [(H1 & H2)|(r & H1 & H2)]; rewrite H1 in PS; cbn [poll_script read] in PS.
        - injection PS as <- <-. now contradict ND.
        - destruct (N.leb_spec (len r) m) as [G|G]; injection PS as <- <-.
          + left. split; [reflexivity|]. replace (br_calls b + 1 - calls - 1) with (br_calls b - calls) by lia. lia.
          + right. eexists. split; [reflexivity|]. rewrite len_drop. replace (br_calls b + 1 - calls) with (br_calls b - calls + 1) by lia. rewrite N.mul_add_distr_l. lia. }
      destruct (N.leb_spec (br_capacity b) n) as [G|G].
      + destruct (poll_script (br_inner b) n) as [o1 s1] eqn:PS. injection R as <- <-. split; [exact C|]. cbn [br_inner br_calls]. split; [lia|]. exact (EACH _ _ _ G N0 PS D).
      + destruct (poll_script (br_inner b) (br_capacity b)) as [o1 s1] eqn:PS.
        assert (C0 : 0 < br_capacity b) by lia.
        assert (ND : o1 <> Some (Data [])).
        { intros ->. injection R as <- <-. apply D. unfold take. now rewrite firstn_nil. }
        destruct o1 as [[bs1|k]|]; injection R as <- <-; (split; [exact C|]; cbn [br_inner br_calls]; split; [lia|]; exact (EACH _ _ _ (N.le_refl _) C0 PS ND)).
    - injection R as <- <-. split; [exact C|]. cbn [br_inner br_calls]. split; [exact CL|exact H]. }
  destruct K as (_ & CL & [(_ & H)|(q & _ & H)]); [exact H|].
  apply N.le_trans with (capacity * (br_calls b - calls) + len q); [|exact H]. 
  apply N.le_trans with (capacity * (br_calls b - calls)); [apply N.mul_le_mono_l|]; lia.
Qed.

(** A [BufReader] never costs more: with everything at hand, at most two reads for each message. *)
Theorem C100_never_more : forall (E : Env) polls fuel n c sr b ps r b',
  br_inner b = [] \/ (exists bs, br_inner b = [Chunk bs]) ->
  read_payloads buf_reader buf_read polls fuel n FreshFuture (TReader c sr init_reading_length) b = Ret (Ok ps, r, b') ->
  br_calls b' <= br_calls b + 2 * N.of_nat n.
Proof.
  intros E polls. induction polls as [|polls IH]; intros fuel [|n] c sr b ps r b' AH Q; cbn [read_payloads] in Q; try discriminate Q.
  1,2: injection Q as <- _ <-; lia.
  destruct (any_poll_read buf_reader buf_read fuel _ _ b) as [[[[x r1] b1] f1]| |] eqn:A; cbn [bind] in Q; try discriminate Q.
  destruct (buf_poll _ _ _ _ _ _ _ _ AH A) as (P1 & P2 & P3). destruct x as [[p|e]|]; [|discriminate Q|contradiction].
  destruct (P3 p eq_refl) as (P4 & -> & P5). destruct r1 as [c1 sr1 s1]. cbn [tr_state] in P5. subst s1.
  destruct (read_payloads buf_reader buf_read polls fuel n _ _ b1) as [[[[ps2|e] r2] b2]| |] eqn:B; cbn [bind] in Q; try discriminate Q.
  injection Q as _ _ <-. specialize (IH _ _ _ _ _ _ _ _ P2 B). lia.
Qed.

(** The three scenarios: their messages and bytes on the wire, and with the whole dump at hand the reads of the client after the
    handshake, straight from the transport and through the program's [BufReader] of 8192 bytes. *)
Definition wire_bytes (sc : scenario) : N := total_bytes sc + 20 * total_messages sc.
Theorem C100_scenarios :
  (total_messages bitcoin_typical, wire_bytes bitcoin_typical) = (100000, 11940000) /\
  (total_messages large_messages, wire_bytes large_messages) = (3000, 90172000) /\
  (total_messages small_messages, wire_bytes small_messages) = (100000, 2300000) /\
  (forall sc, In sc [bitcoin_typical; large_messages; small_messages] ->
     Forall (fun size => size < 2 ^ 24) (message_sizes sc) /\ total_messages sc + 1 < 2 ^ 32) /\
  forall (E : Env) sc most polls fuel c sr bs ps r,
    In (sc, most) [(bitcoin_typical, 1458); (large_messages, 6000); (small_messages, 281)] -> len bs = wire_bytes sc ->
    (forall st' k', session_leftover sr = [] ->
       read_payloads _ (counted_reader poll_script) polls fuel (N.to_nat (total_messages sc)) FreshFuture (TReader c sr init_reading_length) ([Chunk bs], 0)
         = Ret (Ok ps, r, (st', k')) -> 2 * total_messages sc <= k') /\
    (forall b, read_payloads buf_reader buf_read polls fuel (N.to_nat (total_messages sc)) FreshFuture (TReader c sr init_reading_length) (buf_new 8192 [Chunk bs])
         = Ret (Ok ps, r, b) -> br_calls b <= most).
Proof.
  split; [vm_compute; reflexivity|]. split; [vm_compute; reflexivity|]. split; [vm_compute; reflexivity|]. split.
  { intros sc [<-|[<-|[<-|[]]]]; (split; [repeat constructor|vm_compute; reflexivity]). }
  intros E sc most polls fuel c sr bs ps r H L. split.
  - intros st' k' LO Q. apply C100_two_calls in Q; [|exact LO]. rewrite N2Nat.id in Q. exact Q.
  - intros b Q. pose proof (C100_few_calls _ _ _ _ _ _ _ _ _ _ _ _ _ Q) as F. apply C100_never_more in Q; [|right; exists bs; reflexivity].
    rewrite N2Nat.id in Q. unfold buf_new in Q. cbn [br_calls] in Q. rewrite L in F. clear L. destruct H as [H|[H|[H|[]]]]; injection H as <- <-.
    + change (wire_bytes bitcoin_typical) with 11940000 in F. lia.
    + change (total_messages large_messages) with 3000 in Q. lia.
    + change (wire_bytes small_messages) with 2300000 in F. lia.
Qed.

(** What each client makes of the bytes of the server: the messages, the bytes it wrote, what is left, and the reads. *)
Definition tiny : scenario := Scenario [1; 2; 3] 4.
Definition from_client : bytes := Eval vm_compute in
  match wires (E := toy true) None None None None [] [] with Some p => fst p | None => [] end.
Definition from_server : bytes := Eval vm_compute in
  match serve (E := toy true) tiny skb [Chunk from_client] fresh with Ret p => written (pw_writer p) | _ => [] end.
Definition plain_client (s : script) :=
  match @client (toy true) _ (counted_reader poll_script) 2000 tiny ska (s, 0) fresh with
  | Ret (Ok (ps, _), (s, k), w) => Some (map payload_view ps, written w, s, k)
  | _ => None
  end.
Definition buffered_client (s : script) :=
  match @client (toy true) _ buf_read 2000 tiny ska (buf_new 8192 s) fresh with
  | Ret (Ok (ps, _), b, w) => Some (map payload_view ps, written w, br_inner b, br_calls b)
  | _ => None
  end.

Example C100_example :
  let ms := List.concat (repeat [Ret (Genuine, [x42]); Ret (Genuine, [x42; x42]); Ret (Genuine, [x42; x42; x42])] 4) in
  map Ret (messages_of tiny) = ms /\ len from_server = 100 + (total_bytes tiny + 20 * total_messages tiny) /\
  plain_client [Chunk from_server] = Some (ms, from_client, [], 28) /\
  buffered_client [Chunk from_server] = Some (ms, from_client, [], 1) /\
  buffered_client (drip from_server) = Some (ms, from_client, [], 728).
Proof. vm_compute. repeat split. Qed.

(** The [BufReader] does not always save reads: byte by byte, both clients ask as often. *)
Definition as_often {E : Env} fuel sc rnd s w : Prop :=
  match client _ (counted_reader poll_script) fuel sc rnd (s, 0) w, client _ buf_read fuel sc rnd (buf_new 8192 s) w with
  | Ret (Ok _, (_, k), _), Ret (Ok _, b, _) => br_calls b = k
  | _, _ => False
  end.

Lemma as_often_elim {E : Env} fuel sc rnd s w : as_often fuel sc rnd s w ->
  exists ps1 r1 s1 k1 w1 ps2 r2 b2 w2,
    client _ (counted_reader poll_script) fuel sc rnd (s, 0) w = Ret (Ok (ps1, r1), (s1, k1), w1) /\
    client _ buf_read fuel sc rnd (buf_new 8192 s) w = Ret (Ok (ps2, r2), b2, w2) /\ br_calls b2 = k1.
Proof.
  unfold as_often. intros P.
  destruct (client _ (counted_reader poll_script) fuel sc rnd (s, 0) w) as [[[[[ps1 r1]|e1] [s1 k1]] w1]| |]; try contradiction.
  destruct (client _ buf_read fuel sc rnd (buf_new 8192 s) w) as [[[[[ps2 r2]|e2] b2] w2]| |]; try contradiction.
  exists ps1, r1, s1, k1, w1, ps2, r2, b2, w2. repeat split. exact P.
Qed.

Theorem C100_always_fewer_refuted :
  ~ (forall (E : Env) (EL : EnvLaws E) fuel sc rnd s w ps1 r1 s1 k1 w1 ps2 r2 b2 w2,
       client _ (counted_reader poll_script) fuel sc rnd (s, 0) w = Ret (Ok (ps1, r1), (s1, k1), w1) ->
       client _ buf_read fuel sc rnd (buf_new 8192 s) w = Ret (Ok (ps2, r2), b2, w2) -> br_calls b2 < k1).
Proof.
  intros H. assert (P : @as_often (toy true) 2000 tiny ska (drip from_server) fresh) by (vm_compute; reflexivity).
  apply as_often_elim in P. destruct P as (ps1 & r1 & s1 & k1 & w1 & ps2 & r2 & b2 & w2 & P1 & P2 & P3).
  specialize (H _ (toy_laws true) _ _ _ _ _ _ _ _ _ _ _ _ _ _ P1 P2). rewrite P3 in H. exact (N.lt_irrefl _ H).
Qed.

Print Assumptions C100_benchmark.
Print Assumptions C100_two_calls.
Print Assumptions C100_few_calls.
Print Assumptions C100_never_more.
Print Assumptions C100_scenarios.
Print Assumptions C100_always_fewer_refuted.
