(** * PropsDraws: the random choices of a shaped endpoint (C69) *)
From Coq Require Import List NArith Bool Lia.
From Coq.Strings Require Import Byte.
From Verif Require Import Base BaseFacts Env FsChacha Cipher Histories CipherProofs Handshake SpecHandshake HsDriver
  Transport Io Futures Sessions Toy PropsHandshake PropsIo
  Traffic TrafficIo TrafficFutures SpecTraffic TrafficProofs PropsTraffic SpecDraws DrawsProofs.
Import ListNotations.
Local Open Scope N_scope.

(** ** C69 *)
(** From the seed on, every random number an endpoint uses is the next draw of its one generator: first those for the
    garbage and the decoys of the handshake, then those of the session in the order of what is written. *)
Theorem C69_from_seed : forall (E : Env) (EL : EnvLaws E) (G : Type) (R : Rng G) (RL : RngLaws G R)
    fl magic r rnd c (g : G) s w rd ep acts ep',
  len magic = 4 -> shaped_connect fl magic r rnd c g s w = Ret (Ok (rd, ep)) ->
  becomes ep acts ep' -> activity_sound acts -> (overflow_checks = true -> 4 + effort acts < 2 ^ 32) ->
  exists garbage decoys p us rs,
    connect fl magic r rnd garbage decoys s w = Ret (Ok (rd, p)) /\
    (garbage = None <-> padding_strategy c = Disabled) /\ (decoys = None <-> decoy_strategy c = Disabled) /\
    drawn g (handshake_draws garbage decoys ++ flat_map choice_draws us) (generator ep') /\
    Forall (choice_ok c) us /\
    serves fl p (flat_map choice_block us) rs (shaped_writer ep') /\ map snd rs = results ep'.
Proof.
  intros E EL G R RL fl magic r rnd c g s w rd ep acts ep' Hm H B So Hr.
  destruct (seed_chosen _ _ _ _ _ _ _ _ _ _ _ _ Hm H B So Hr) as (ga & da & p & rs & H1 & H2 & H3 & H4 & H5 & H6 & H7 & _).
  exists ga, da, p, (all_choices ep acts), rs. auto 10.
Qed.
Print Assumptions C69_from_seed.

(** The choices do not depend on what is written, nor on the transport or on the peer: two endpoints with the same
    configuration and seed, whose threads or tasks are scheduled alike, send the same garbage and handshake decoys and
    make the same choices, whatever the payloads. *)
Theorem C69_oblivious : forall (E : Env) (EL : EnvLaws E) (G : Type) (R : Rng G) (RL : RngLaws G R) fl c (g : G)
    magic1 r1 rnd1 s1 w1 rd1 ep1 acts1 ep1' magic2 r2 rnd2 s2 w2 rd2 ep2 acts2 ep2',
  len magic1 = 4 -> shaped_connect fl magic1 r1 rnd1 c g s1 w1 = Ret (Ok (rd1, ep1)) ->
  becomes ep1 acts1 ep1' -> activity_sound acts1 -> (overflow_checks = true -> 4 + effort acts1 < 2 ^ 32) ->
  len magic2 = 4 -> shaped_connect fl magic2 r2 rnd2 c g s2 w2 = Ret (Ok (rd2, ep2)) ->
  becomes ep2 acts2 ep2' -> activity_sound acts2 -> (overflow_checks = true -> 4 + effort acts2 < 2 ^ 32) ->
  blank_activity acts1 = blank_activity acts2 ->
  exists garbage decoys p1 us1 rs1 p2 us2 rs2,
    connect fl magic1 r1 rnd1 garbage decoys s1 w1 = Ret (Ok (rd1, p1)) /\
    connect fl magic2 r2 rnd2 garbage decoys s2 w2 = Ret (Ok (rd2, p2)) /\
    serves fl p1 (flat_map choice_block us1) rs1 (shaped_writer ep1') /\ map snd rs1 = results ep1' /\
    serves fl p2 (flat_map choice_block us2) rs2 (shaped_writer ep2') /\ map snd rs2 = results ep2' /\
    map blank_choice us1 = map blank_choice us2 /\ generator ep1' = generator ep2'.
Proof.
  intros E EL G R RL fl c g magic1 r1 rnd1 s1 w1 rd1 ep1 acts1 ep1' magic2 r2 rnd2 s2 w2 rd2 ep2 acts2 ep2'
    Hm1 H1 B1 So1 Hr1 Hm2 H2 B2 So2 Hr2 M.
  destruct (seed_chosen _ _ _ _ _ _ _ _ _ _ _ _ Hm1 H1 B1 So1 Hr1) as
    (ga & da & p1 & rs1 & C1 & _ & _ & _ & _ & S1 & A1 & sh & recs & Hs & St1 & Ct1).
  destruct (seed_chosen _ _ _ _ _ _ _ _ _ _ _ _ Hm2 H2 B2 So2 Hr2) as
    (ga2 & da2 & p2 & rs2 & C2 & _ & _ & _ & _ & S2 & A2 & sh2 & recs2 & Hs2 & St2 & Ct2).
  rewrite Hs in Hs2. injection Hs2 as <- <- <- <-.
  destruct (endpoint_oblivious _ _ _ _ _ _ _ _ _ _ _ _ St1 B1 Ct1 So1 St2 B2 Ct2 So2 Hr1 M) as (Q1 & Q2).
  exists ga, da, p1, (all_choices ep1 acts1), rs1, p2, (all_choices ep2 acts2), rs2. auto 10.
Qed.
Print Assumptions C69_oblivious.

(** A seed of nine numbers: 3 bytes of garbage, one decoy of 8 bytes, padding of 5 bytes for the first payload, at the
    first tick of the decoy thread no decoy (84), at the second (85) one of 7 bytes, padding of 3 bytes for the last. *)
Definition nine : list N := [3; 1; 7; 4; 84; 85; 6; 2; 42].
Definition busy (a b : bytes) : list move :=
  [CallWrite (genuine a); App; App; App; App; Thread; Thread; Thread; Thread; Thread; Thread; Thread; Thread; Thread;
   CallWrite (genuine b); App; App; App; App].
Example C69_example :
  let '(_, b) := shaped_wires in
  match @shaped_connect (toy true) _ draws Sync mainnet Initiator ska all_random nine [Chunk b] fresh with
  | Ret (Ok (_, Blocking s)) =>
      match @play (toy true) _ draws s (busy [x07; x08] []), @play (toy true) _ draws s (busy (repeat x09 30) [x01]) with
      | Some s1, Some s2 =>
          records s1 = [3; 8] ++ [2; 5] ++ [7] ++ [0; 3] /\
          records s2 = [3; 8] ++ [30; 5] ++ [7] ++ [1; 3] /\
          sh_rng (st_shaper s1) = [42] /\ sh_rng (st_shaper s2) = [42] /\ lock s1 = Free /\ lock s2 = Free
      | _, _ => False
      end
  | _ => False
  end /\
  drawn nine (handshake_draws (Some (repeat x5a 3)) (Some [repeat x5a 8]) ++
    flat_map choice_draws [PaddingOf 5 (genuine [x07; x08]); NoCover 84; CoverBy 85 7; PaddingOf 3 (genuine [])]) [42].
Proof.
  split; [vm_compute; repeat split|].
  repeat (first [apply drawn_nil | eapply drawn_ranged; [reflexivity|] | eapply drawn_filled; [reflexivity|]]).
Qed.
