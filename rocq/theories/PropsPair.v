(** * PropsPair: two endpoints with an attacker between them (C67) *)
From Coq Require Import List NArith Bool Lia.
From Coq.Strings Require Import Byte.
From Verif Require Import Base BaseFacts Env FsChacha Spec FsChachaProofs Cipher CipherProofs Histories Handshake
  SpecHandshake HsDriver HandshakeProofs HsRunProofs Transport Io SpecIo Futures Sessions IoProofs FuturesProofs
  IoRunProofs SessionProofs ReaderProofs EndpointProofs OversizeProofs SpecIntegrity IntegrityProofs
  Traffic TrafficIo TrafficFutures SpecTraffic TrafficProofs TrafficSessionProofs SpecPair PairProofs
  Toy PropsHandshake PropsIo PropsTraffic.
Import ListNotations.
Local Open Scope N_scope.

(** ** C67 *)
(** Each endpoint makes its connection over the bytes the attacker gives it, of which only the first 64,
    the key of the other endpoint, are prescribed.  Endpoint B writes [pls] with whatever results. *)
Theorem C67_plain : forall (E : Env) (EL : EnvLaws E) magic r ska skb ga gb da db,
  EcdhAgrees E -> len magic = 4 ->
  sk_valid ska = true -> sk_valid skb = true ->
  (debug_assertions = true -> ska <> zeros 32 /\ skb <> zeros 32) ->
  len (garbage_bytes ga) <= 4095 -> len (garbage_bytes gb) <= 4095 ->
  (overflow_checks = true -> len (decoy_list da) + 1 < 2 ^ 32 /\ len (decoy_list db) + 1 < 2 ^ 32) ->
  take 4 (ellswift_of ska) <> magic -> take 4 (ellswift_of skb) <> magic ->
  exists m,
    (let '(ski, skr) := in_order r ska skb in
     keys_from (bip_prk magic (bip_secret (ellswift_of ski) (ellswift_of skr) ski PartyA)) m) /\
    forall fla flb sa sb wa wb ra pa rb pb received reply,
      content sa = ellswift_of skb ++ received -> content sb = ellswift_of ska ++ reply ->
      connect fla magic r ska ga da sa wa = Ret (Ok (ra, pa)) ->
      connect flb magic (opp r) skb gb db sb wb = Ret (Ok (rb, pb)) ->
      forall pls ws pb', write_many flb pb pls = Ret (ws, pb') ->
      let sent := handshake_msgs (garbage_bytes gb) (decoy_list db) ++ wire_of pls in
      len sent < 2 ^ 64 ->
      exists pkts, send_all (outbound (session_new m (opp r))) sent = Ret (pkts, pw_cipher pb') /\
        forall xs, reads ra xs ->
          let got := map seen (payloads_of xs) in
          prefix_of got (map seen pls) \/
          forged_below (len (decoy_list db) + 1 + len got) (send_packet_key m (opp r)) sent pkts received.
Proof.
  intros E EL magic r ska skb ga gb da db EA Hm Va Vb Hz Hga Hgb Hov Ma Mb.
  destruct (pair_integrity magic r ska skb ga gb da db EA Hm Va Vb Hz Hga Hgb Hov Ma Mb) as (m & KF & P).
  exists m. split; [exact KF|].
  intros fla flb sa sb wa wb ra pa rb pb received reply Ca Cb Xa Xb pls ws pb' W sent L.
  destruct (P fla flb sa sb wa wb ra pa rb pb received reply Ca Cb Xa Xb) as (ps & S0 & P').
  destruct (write_many_sends _ _ _ _ _ W) as (pkts & Sm).
  exists (ps ++ pkts). split; [exact (send_all_join _ _ _ _ _ _ _ S0 Sm)|].
  intros xs Rd. unfold sent in L. rewrite len_app in L. specialize (P' _ _ _ Sm L xs Rd).
  rewrite view_wire, handshake_msgs_len in P'. exact P'.
Qed.
Print Assumptions C67_plain.

(** Both endpoints shaped, whatever the schedule of B's calls and of its decoy thread or task. *)
Theorem C67_shaped : forall (E : Env) (EL : EnvLaws E) G (R : Rng G) (RL : RngLaws G R) magic r ska skb ca cb (ga gb : G),
  EcdhAgrees E -> len magic = 4 ->
  sk_valid ska = true -> sk_valid skb = true ->
  (debug_assertions = true -> ska <> zeros 32 /\ skb <> zeros 32) ->
  take 4 (ellswift_of ska) <> magic -> take 4 (ellswift_of skb) <> magic ->
  let '(garbb, db, _, _) := shaper_handshake (Shaper cb gb) in
  let hs := handshake_msgs (garbage_bytes garbb) (decoy_list db) in
  exists m,
    (let '(ski, skr) := in_order r ska skb in
     keys_from (bip_prk magic (bip_secret (ellswift_of ski) (ellswift_of skr) ski PartyA)) m) /\
    forall fla flb sa sb wa wb ra epa rb epb received reply,
      content sa = ellswift_of skb ++ received -> content sb = ellswift_of ska ++ reply ->
      shaped_connect fla magic r ska ca ga sa wa = Ret (Ok (ra, epa)) ->
      shaped_connect flb magic (opp r) skb cb gb sb wb = Ret (Ok (rb, epb)) ->
      forall acts epb', becomes epb acts epb' -> activity_sound acts ->
      4 + effort acts < 2 ^ (if overflow_checks then 32 else 64) ->
      exists ms pkts qs,
        send_all (outbound (session_new m (opp r))) (hs ++ ms) = Ret (pkts, pw_cipher (shaped_writer epb')) /\
        encrypted (firstn (length (results epb')) (requests acts)) (results epb') qs /\
        genuine_only (map view ms) = genuine_only (map seen qs) /\
        forall xs, reads ra xs ->
          let got := map seen (payloads_of xs) in
          prefix_of (genuine_only got) (genuine_only (map seen qs)) \/
          forged_below (len hs + len got) (send_packet_key m (opp r)) (hs ++ ms) pkts received.
Proof. exact @shaped_pair_integrity. Qed.
Print Assumptions C67_shaped.

(** The attacker passes the handshake of the initiator on to the responder and then: all of it; the
    packets of the session in another order (they are 22, 29 and 20 bytes long); the first packet, then the
    second with one bit changed; nothing but the first. *)
Example C67_example :
  let '(a, b) := sample_wires in
  let hs := len a - 71 in
  let cut i n := take n (drop (hs + i) a) in
  let reading wire :=
    match @connect (toy true) Sync mainnet Responder skb (Some (repeat x2b 40)) None [Chunk (take hs a ++ wire)] fresh with
    | Ret (Ok (rb, _)) =>
        match @read_many (toy true) 3 rb with Ret (xs, _) => Some (map seen (payloads_of xs)) | _ => None end
    | _ => None
    end in
  reading (drop hs a) = Some [(Genuine, [x07; x08]); (Decoy, zeros 9); (Genuine, [])] /\
  reading (cut 22 29 ++ cut 0 22 ++ cut 51 20) = Some [] /\
  reading (cut 0 22 ++ cut 22 10 ++ [xff] ++ cut 33 38) = Some [(Genuine, [x07; x08])] /\
  reading (cut 0 22) = Some [(Genuine, [x07; x08])].
Proof. vm_compute. repeat split. Qed.

(** Padding that fails: the payload behind it is never encrypted; a write that fails after its encryption. *)
Example C67_example_encrypted :
  encrypted [genuine [x01]; genuine [x02]; genuine [x03]] [Ok tt; Err (Io UnexpectedEof Abort); Err (Io UnexpectedEof Abort)]
    [genuine [x01]; genuine [x03]] /\
  ~ encrypted [genuine [x01]] [Ok tt] [].
Proof. split; [repeat constructor|]. intros H. inversion H. Qed.

(** A shaped writer; the attacker delivers everything, or removes the padding (25 bytes) before the payload. *)
Example C67_example_shaped :
  let '(a, b) := shaped_wires in
  let reading wire :=
    match @shaped_connect (toy true) _ draws Tokio mainnet Responder skb all_random [2; 0] [Chunk wire] fresh with
    | Ret (Ok (rb, _)) =>
        match @read_many (toy true) 3 rb with
        | Ret (xs, _) => Some (genuine_only (map seen (payloads_of xs)), length (payloads_of xs))
        | _ => None
        end
    | _ => None
    end in
  reading a = Some ([(Genuine, [x07; x08])], 2%nat) /\
  reading (take (len a - 47) a ++ drop (len a - 22) a) = Some ([], 0%nat).
Proof. vm_compute. repeat split. Qed.
