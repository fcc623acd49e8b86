(** * PropsReal: C101, the key exchange with the functions of Rfc.v

    The other theorems hold for every environment whose key exchange agrees ([EcdhAgrees]).  Here that is proved of secp256k1
    itself: nothing is left to assume about the key exchange but that an encoding names the public key it was made from. *)
From Coq Require Import String List Arith NArith Bool Lia.
From Coq.Strings Require Import Byte.
From Verif Require Import Base BaseFacts Env FsChacha Spec Cipher Handshake SpecHandshake HsDriver HandshakeProofs HsRunProofs
  Transport Io SpecIo Futures Sessions EndpointProofs Toy Rfc SpecCurve RfcCurve PropsIo.
Import ListNotations.
Local Open Scope N_scope.

(** ** The environment

    [real chk enc]: the functions of Rfc.v, with [enc] for [ElligatorSwift::from_pubkey] (protocol/src/handshake.rs:131-133).
    BIP-324 draws the encoding at random among those of the public key; a secret key counts as valid if it is in range and [enc]
    gives one of them. *)
Definition names_public_key (e sk : bytes) : bool := decode_x e =? x_of (mult (be_val sk) generator).

Lemma names_spec e sk : names_public_key e sk = true -> decode_x e = x_of (mult (be_val sk) generator).
Proof. cbv delta [names_public_key]. cbv beta. generalize (decode_x e) (x_of (mult (be_val sk) generator)). intros a b. apply N.eqb_eq. Qed.

Definition real (chk : bool) (enc : bytes -> bytes) : Env := {|
  overflow_checks := chk;
  debug_assertions := chk;
  keystream := chacha_stream;
  mac := aead_mac;
  sk_valid := fun sk => sk_in_range sk && names_public_key (enc sk) sk;
  ellswift_of := enc;
  ecdh_xonly := ellswift_xdh;
  hkdf_extract := rfc_extract;
  hkdf_expand := rfc_expand
|}.

Lemma in_range_pos sk : sk_in_range sk = true -> exists k, be_val sk = N.pos k.
Proof.
  unfold sk_in_range. intros H. apply andb_true_iff in H. destruct H as (H & _). apply andb_true_iff in H. destruct H as (_ & H).
  destruct (be_val sk) as [|k]; [discriminate H|]. exists k. reflexivity.
Qed.

(** ** C101 *)

(** The number the model computes is the x coordinate of the public key: as many times the base point as the secret key says. *)
Theorem C101_public_key : forall sk, sk_in_range sk = true ->
  (exists q, multiple base_point (N.to_nat (be_val sk)) q) /\
  forall q, multiple base_point (N.to_nat (be_val sk)) q -> x_of (mult (be_val sk) generator) = abscissa q.
Proof.
  intros sk H. destruct (in_range_pos sk H) as (k & ->). split; [eexists; apply multiple_exists|]. intros q M. exact (public_key k q M).
Qed.
Print Assumptions C101_public_key.

(** Whatever 64 bytes the other side sends, they name a point of the curve. *)
Theorem C101_any_bytes : forall e, exists y,
  lift_x (decode_x e) = (decode_x e, y, 1) /\ on_curve (Some (decode_x e, y)).
Proof. exact decode_lift. Qed.
Print Assumptions C101_any_bytes.

(** Both sides hash the x coordinate of the same point. *)
Definition shared_hash (ea eb : bytes) (q : xy_point) : bytes :=
  tagged_hash "bip324_ellswift_xonly_ecdh" (ea ++ eb ++ be_bytes 32 (abscissa q)).

Theorem C101_secret : forall ea eb ska skb qa qb,
  sk_in_range ska = true -> sk_in_range skb = true ->
  multiple base_point (N.to_nat (be_val ska)) qa -> decode_x ea = abscissa qa ->
  multiple base_point (N.to_nat (be_val skb)) qb -> decode_x eb = abscissa qb ->
  exists q, multiple base_point (N.to_nat (be_val ska) * N.to_nat (be_val skb)) q /\
  forall data,
    ellswift_xdh ea eb ska PartyA data = shared_hash ea eb q /\
    ellswift_xdh ea eb skb PartyB data = shared_hash ea eb q.
Proof.
  intros ea eb ska skb qa qb A B MA EA MB EB. destruct (in_range_pos ska A) as (j & J). destruct (in_range_pos skb B) as (k & K).
  rewrite J in *. rewrite K in *. rewrite <- (public_key _ _ MA) in EA. rewrite <- (public_key _ _ MB) in EB.
  exists (coords (Curve.ntimes Fp Fzero Fone Fadd Fmul Fsub Fopp Fdiv Fp_eq_dec (N.to_nat (N.pos j) * N.to_nat (N.pos k)) (Curve.affine Fp Fzero Fmul Fdiv Fp_eq_dec G))).
  assert (M := multiple_exists (N.to_nat (N.pos j) * N.to_nat (N.pos k))). split; [exact M|]. set (q := coords _) in *. clearbody q. intros data.
  assert (SA : x_of (mult_pos j (lift_x (decode_x eb))) = abscissa q) by (rewrite EB; apply shared_point; exact M).
  assert (SB : x_of (mult_pos k (lift_x (decode_x ea))) = abscissa q) by (rewrite EA; apply shared_point; rewrite Nat.mul_comm; exact M).
  unfold ellswift_xdh, shared_hash. rewrite J, K. cbn [mult]. rewrite SA, SB. split; reflexivity.
Qed.
Print Assumptions C101_secret.

(** So the hypotheses of the other theorems hold of the real functions. *)
Theorem C101_hypotheses : forall chk enc, (forall sk, len (enc sk) = 64) ->
  EnvLaws (real chk enc) /\ KeystreamStable (real chk enc) /\ EcdhAgrees (real chk enc).
Proof.
  intros chk enc L. split; [|split].
  - destruct (rfc_laws chk) as [K M _ X]. exact (Build_EnvLaws (real chk enc) K M L X).
  - exact (rfc_keystream_stable chk).
  - intros ska skb A B data. cbn [sk_valid real] in A, B. apply andb_true_iff in A, B. destruct A as (A & NA), B as (B & NB).
    apply names_spec in NA, NB. destruct (C101_public_key ska A) as ((qa & MA) & PA). destruct (C101_public_key skb B) as ((qb & MB) & PB).
    rewrite (PA _ MA) in NA. rewrite (PB _ MB) in NB. destruct (C101_secret _ _ _ _ _ _ A B MA NA MB NB) as (q & _ & S). destruct (S data) as (S1 & S2).
    cbn [ecdh_xonly real ellswift_of]. rewrite S1, S2. reflexivity.
Qed.
Print Assumptions C101_hypotheses.

(** Two endpoints with the real functions: what C29 says of any environment that agrees, with no assumption left about the key
    exchange; the keys are not the zero key because they are in range. *)
Theorem C101_two_endpoints : forall chk enc magic ska skb ga gb da db psa psb,
  let E := real chk enc in
  (forall sk, len (enc sk) = 64) -> len magic = 4 ->
  sk_in_range ska = true -> names_public_key (enc ska) ska = true ->
  sk_in_range skb = true -> names_public_key (enc skb) skb = true ->
  len (garbage_bytes ga) <= 4095 -> len (garbage_bytes gb) <= 4095 ->
  Forall (fun d => len d + 17 <= 4000014) (decoy_list da) ->
  Forall (fun d => len d + 17 <= 4000014) (decoy_list db) ->
  (chk = true -> len (decoy_list da) + 1 + len psa < 2 ^ 32 /\ len (decoy_list db) + 1 + len psb < 2 ^ 32) ->
  take 4 (enc ska) <> magic -> take 4 (enc skb) <> magic ->
  exists m outa outb pka pkb,
    keys_from (bip_prk magic (bip_secret (enc ska) (enc skb) ska PartyA)) m /\
    (first_at (initiator_garbage_terminator m)
       (garbage_bytes ga ++ initiator_garbage_terminator m) (len (garbage_bytes ga)) ->
     first_at (responder_garbage_terminator m)
       (garbage_bytes gb ++ responder_garbage_terminator m) (len (garbage_bytes gb)) ->
     forall fla flb sa sb wa wb ea eb,
       flatten fla sa = (outb ++ pkb, ea) -> flatten flb sb = (outa ++ pka, eb) ->
       calm fla sa -> calm flb sb -> healthy wa -> healthy wb ->
       Forall (readable flb) psa -> Forall (readable fla) psb ->
       exists ra pa rb pb pa' pb' qa qb ra' rb',
         connect fla magic Initiator ska ga da sa wa = Ret (Ok (ra, pa)) /\
         connect flb magic Responder skb gb db sb wb = Ret (Ok (rb, pb)) /\
         written (pw_writer pa) = written wa ++ outa /\
         written (pw_writer pb) = written wb ++ outb /\
         write_many fla pa (map payload_of psa) = Ret (map (fun _ => Ok tt) psa, pa') /\
         write_many flb pb (map payload_of psb) = Ret (map (fun _ => Ok tt) psb, pb') /\
         written (pw_writer pa') = written wa ++ outa ++ pka /\
         written (pw_writer pb') = written wb ++ outb ++ pkb /\
         read_many (length psa) rb = Ret (map Ok qa, rb') /\ map payload_view qa = map Ret psa /\
         read_many (length psb) ra = Ret (map Ok qb, ra') /\ map payload_view qb = map Ret psb /\
         reader_stream ra' = ([], ea) /\ reader_stream rb' = ([], eb)).
Proof.
  intros chk enc magic ska skb ga gb da db psa psb E L MG RA NA RB NB. intros. destruct (C101_hypotheses chk enc L) as (EL & _ & AG).
  assert (NZ : forall sk, sk_in_range sk = true -> sk <> zeros 32).
  { intros sk R ->. destruct (in_range_pos _ R) as (k & Q). vm_compute in Q. discriminate Q. }
  apply (@C29_two_endpoints E EL); try assumption.
  - cbn [sk_valid E real]. rewrite RA, NA. reflexivity.
  - cbn [sk_valid E real]. rewrite RB, NB. reflexivity.
  - intros _. split; apply NZ; assumption.
Qed.
Print Assumptions C101_two_endpoints.

(** ** Examples *)

(** Twice and three times the base point: the slopes of the tangent and of the chord are given. *)
Definition twice : xy_point := Some (0xc6047f9441ed7d6d3045406e95c07cd85c778e4b8cef3ca7abac09b95c709ee5, 0x1ae168fea63dc339a3c58419466ceaeef7f632653266d0e1236431a950cfe52a).
Definition thrice : xy_point := Some (0xf9308a019258c31049344f85f89d5229b531c845836f99b08601f113bce036f9, 0x388f7b0f632de8140fe337e62a37f3566500a99934c2231b6cb9fd7584b8e672).
Example C101_multiples : multiple base_point 2 twice /\ multiple base_point 3 thrice.
Proof.
  assert (M1 : multiple base_point 1 base_point) by (eapply multiple_S; [apply multiple_0|apply sum_right]).
  assert (M2 : multiple base_point 2 twice).
  { eapply multiple_S; [exact M1|]. apply (sum_tangent 0xcb35b28428101a303eb9d1235992ac63f58857c2f631ee6936d3aebbeddcd1b1); [intros H; discriminate H|reflexivity|repeat split; reflexivity]. }
  split; [exact M2|]. eapply multiple_S; [exact M2|]. apply (sum_chord 0x342119815c0f816f31f431a9fe98a6c76d11425ecaeaecf2d0ef6def197c56b0); [discriminate|reflexivity|repeat split; reflexivity].
Qed.

Definition key_a : bytes := counting 1 32.
Definition key_b : bytes := counting 100 32.
Definition enc_a : bytes := Eval vm_compute in ellswift_encode key_a.
Definition enc_b : bytes := Eval vm_compute in ellswift_encode key_b.
(** In range, named by their encodings, and the two secrets. *)
Definition exchange := Eval vm_compute in
  (sk_in_range key_a && names_public_key enc_a key_a, sk_in_range key_b && names_public_key enc_b key_b,
   ellswift_xdh enc_a enc_b key_a PartyA [], ellswift_xdh enc_a enc_b key_b PartyB [],
   ellswift_xdh enc_a enc_b key_b PartyA [], x_of (mult 3 generator)).
Example C101_example :
  let '(va, vb, sa, sb, wrong, three_g) := exchange in
  va = true /\ vb = true /\ len enc_a = 64 /\ enc_a <> enc_b /\ len sa = 32 /\ sa = sb /\ wrong <> sa /\ three_g = abscissa thrice.
Proof. cbn. repeat split; discriminate. Qed.

(** Bytes that no one made from a key: all zero, and p followed by p. *)
Definition strangers := Eval vm_compute in
  map (fun e => let x := decode_x e in (x, snd (fst (lift_x x)))) [zeros 64; repeat xff 64; be_bytes 32 field_p ++ be_bytes 32 field_p].
Example C101_strangers : Forall (fun q => on_curve (Some q)) strangers.
Proof. repeat constructor. Qed.
