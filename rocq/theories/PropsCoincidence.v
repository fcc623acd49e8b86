(** * Property C106: for how many keys and terminators two honest endpoints do not come together *)
From Coq Require Import List NArith Bool Lia.
From Coq.Strings Require Import Byte.
From Verif Require Import Base BaseFacts Env Toy FsChacha Cipher CipherProofs Handshake HandshakeProofs SpecHandshake HsDriver HsRunProofs SpecIo EndpointProofs Transport Io Futures
  Sessions SessionProofs ForgeryProofs PropsHandshake PropsIo Rfc SpecCurve RfcCurve PropsReal SpecCoincidence.
Import ListNotations.
Local Open Scope N_scope.

Lemma len_again u : u <> [] -> len (again u) = 16.
Proof.
  intros H. unfold again. rewrite len_take. assert (1 <= len u) by (destruct u; [contradiction|]; rewrite len_cons; lia).
  apply N.min_l. cbn [repeat List.concat]. rewrite !len_app. lia.
Qed.

Lemma concat_snoc (u : bytes) : forall n, u ++ List.concat (repeat u n) = List.concat (repeat u n) ++ u.
Proof. induction n as [|n IH]; [now rewrite app_nil_r|]. cbn [repeat List.concat]. rewrite <- app_assoc, <- IH. reflexivity. Qed.

Lemma take_app_take n (a b : bytes) : take n (a ++ take n b) = take n (a ++ b).
Proof.
  destruct (N.le_ge_cases n (len a)) as [L|L].
  - now rewrite !take_app_le by exact L.
  - rewrite !take_app_ge by exact L. f_equal. rewrite take_take. f_equal. lia.
Qed.

(** A string that continues itself behind [u] is [u] again and again. *)
Lemma again_only u t : u <> [] -> len t = 16 -> take 16 (u ++ t) = t <-> t = again u.
Proof.
  intros H L. assert (1 <= len u) as U by (destruct u; [contradiction|]; rewrite len_cons; lia). split.
  - intros Q. assert (forall n, take 16 (List.concat (repeat u n) ++ t) = t) as I.
    { induction n as [|n IH]; [apply take_all; cbn; lia|]. cbn [repeat List.concat]. rewrite <- app_assoc, <- take_app_take, IH. exact Q. }
    specialize (I 16%nat). rewrite <- I at 1. unfold again. apply take_app_le. cbn [repeat List.concat]. rewrite !len_app. lia.
  - intros ->. unfold again at 1. rewrite take_app_take, concat_snoc. apply take_app_le. cbn [repeat List.concat]. rewrite !len_app. lia.
Qed.

Lemma found_early g t i : len t = 16 -> i < len g -> occurs_at t (g ++ t) i <-> t = again (drop i g).
Proof.
  intros L H. unfold occurs_at. rewrite len_app, L, drop_app_le by lia. rewrite again_only.
  - split; [tauto|]. intros Q. split; [lia|exact Q].
  - intros Q. apply (f_equal (@len byte)) in Q. rewrite len_drop in Q. change (len (@nil byte)) with 0 in Q. lia.
  - exact L.
Qed.

Lemma in_early g t : In t (early g) <-> exists i, i < len g /\ t = again (drop i g).
Proof.
  unfold early. rewrite in_map_iff. split.
  - intros (i & <- & I). apply in_seq in I. exists (N.of_nat i). unfold len, drop. rewrite Nnat.Nat2N.id. split; [lia|reflexivity].
  - intros (i & H & ->). exists (N.to_nat i). split; [reflexivity|]. apply in_seq. unfold len in H. lia.
Qed.

Lemma occurs_end g t : occurs_at t (g ++ t) (len g).
Proof. unfold occurs_at. rewrite len_app, drop_app_exact by reflexivity. split; [lia|]. apply take_all. lia. Qed.

(** ** C106 *)
(** Garbage followed by its terminator is taken for what it is unless the terminator is in a list that the garbage alone
    determines, with one entry for each byte of the garbage. *)
Theorem C106_terminators : forall g,
  len (early g) = len g /\
  forall t, len t = 16 -> (first_at t (g ++ t) (len g) <-> ~ In t (early g)).
Proof.
  intros g. split; [unfold early, len; now rewrite map_length, seq_length|]. intros t L. split.
  - intros (_ & N) I. apply in_early in I. destruct I as (i & H & Q). apply (N i H). now apply found_early.
  - intros N. split; [apply occurs_end|]. intros j H O. apply N. apply in_early. exists j. split; [exact H|]. now apply found_early.
Qed.
Print Assumptions C106_terminators.

(** What the receiver makes of it, whatever follows: the garbage that was sent, or, for these few, less. *)
Theorem C106_receiver : forall h g rest,
  let t := remote_garbage_terminator (hs_state h) in
  len t = 16 -> len g <= 4095 ->
  exists i h', i <= len g /\ (i = len g <-> ~ In t (early g)) /\
    receive_garbage h (g ++ t ++ rest) = Ret (Ok (FoundGarbage h' (i + 16))) /\
    h' = Handshake (hs_magic h) (hs_role h) (ReceivedGarbage (sv_cipher (hs_state h)) (if i =? 0 then None else Some (take i g))).
Proof.
  intros h g rest t L G. destruct (C22_garbage_total h (g ++ t ++ rest) L) as (r & R & _).
  destruct (C22_garbage_exact h (g ++ t ++ rest) r L R) as (X & _). fold t in X.
  assert (exists i, i <= len g /\ first_at t (g ++ t) i) as (i & I & F).
  { assert (forall n, exists i, i <= len g /\ first_at t (g ++ t) i \/ i = n /\ forall j, j < N.of_nat (N.to_nat n) -> j <= len g -> ~ occurs_at t (g ++ t) j) as S.
    { intros n. induction n as [|n IH] using N.peano_ind.
      - exists 0. right. split; [reflexivity|]. intros j H. cbn in H. lia.
      - destruct IH as (i & [(I & F)|(-> & N)]); [exists i; now left|]. rewrite N2Nat.id in N.
        destruct (N.le_gt_cases n (len g)) as [B|B].
        + destruct (list_eq_dec byte_eq_dec (take (len t) (drop n (g ++ t))) t) as [Q|Q].
          * exists n. left. split; [exact B|]. split; [split; [rewrite len_app; lia|exact Q]|]. intros j H. apply N; lia.
          * exists (N.succ n). right. split; [reflexivity|]. rewrite N2Nat.id. intros j H Hj O.
            destruct (N.eq_dec j n) as [->|D]; [now apply Q, O|]. apply (N j); [lia|exact Hj|exact O].
        + exists (N.succ n). right. split; [reflexivity|]. rewrite N2Nat.id. intros j H Hj. apply N; [lia|exact Hj]. }
    destruct (S (len g + 1)) as (i & [H|(_ & N)]); [now exists i|]. exfalso.
    rewrite N2Nat.id in N. apply (N (len g)); [lia|lia|apply occurs_end]. }
  exists i, (Handshake (hs_magic h) (hs_role h) (ReceivedGarbage (sv_cipher (hs_state h)) (if i =? 0 then None else Some (take i g)))).
  split; [exact I|]. split; [|split; [|reflexivity]].
  - rewrite <- (proj2 (C106_terminators g) t L). split; [now intros <-|]. intros (O & N).
    destruct (N.lt_ge_cases i (len g)) as [H|H]; [|lia]. exfalso. apply (N i H). apply F.
  - rewrite R. f_equal. apply X. exists i. split; [lia|]. split; [|split; [reflexivity|]].
    + destruct F as (O & N). split; [|intros j H].
      * rewrite app_assoc. apply occurs_app; [|exact O]. rewrite len_app. lia.
      * rewrite app_assoc, occurs_app; [now apply N|]. rewrite len_app. lia.
    + do 2 f_equal. destruct (i =? 0); [reflexivity|]. now rewrite take_app_le by exact I.
Qed.
Print Assumptions C106_receiver.

(** All byte strings of a length. *)
Lemma strings_len n : len (lists_of (repeat all_bytes n)) = 256 ^ N.of_nat n.
Proof.
  rewrite lists_len. induction n as [|n IH]; [reflexivity|]. cbn [repeat fold_right]. rewrite IH, Nat2N.inj_succ, N.pow_succ_r'. reflexivity.
Qed.

Lemma in_strings n : forall s, In s (lists_of (repeat all_bytes n)) <-> len s = N.of_nat n.
Proof.
  intros s. rewrite in_lists. assert (A := in_all). revert A. generalize all_bytes. intros al A. revert s. induction n as [|n IH]; intros s; cbn [repeat].
  - split; [intros H; inversion H; reflexivity|]. intros L. destruct s; [constructor|]. rewrite len_cons in L. lia.
  - split.
    + intros H. inversion H as [|b c s' cs Hb Hs]; subst. apply IH in Hs. rewrite len_cons. lia.
    + intros L. destruct s as [|b s]; [discriminate L|]. rewrite len_cons in L. constructor; [apply A|]. apply IH. lia.
Qed.

Lemma with_prefix n (p : bytes) : exists ks : list bytes, NoDup ks /\ (forall k, In k ks <-> len k = len p + N.of_nat n /\ take (len p) k = p) /\ len ks = 256 ^ N.of_nat n.
Proof.
  exists (map (app p) (lists_of (repeat all_bytes n))). split; [|split].
  - apply FinFun.Injective_map_NoDup; [intros x y Q; now apply app_inv_head in Q|]. apply nodup_lists. apply Forall_forall.
    intros c I. apply repeat_spec in I. subst. apply nodup_all.
  - intros k. rewrite in_map_iff. split.
    + intros (s & <- & I). apply in_strings in I. rewrite len_app, I, take_app_exact by reflexivity. split; reflexivity.
    + intros (L & Q). exists (drop (len p) k). split; [rewrite <- Q at 1; apply take_drop|]. apply in_strings. rewrite len_drop, L. lia.
  - rewrite len_map. apply strings_len.
Qed.

(** Of the 2^512 strings a key may be, 2^480 are taken for V1: one in 2^32.  A prefix of 16 bytes, as in the BIP, would leave one in 2^128. *)
Theorem C106_keys : forall (E : Env) (EL : EnvLaws E) h v1, len (hs_magic h) = 4 -> len v1 = 12 ->
  (exists ks : list bytes, NoDup ks /\ len ks = 2 ^ 480 /\
     forall k, In k ks <-> len k = 64 /\ receive_key h k = Ret (Err V1Protocol)) /\
  (exists ks : list bytes, NoDup ks /\ len ks = 2 ^ 384 /\
     forall k, In k ks <-> len k = 64 /\ take 16 k = hs_magic h ++ v1) /\
  (exists ks : list bytes, NoDup ks /\ len ks = 2 ^ 512 /\ forall k, In k ks <-> len k = 64).
Proof.
  intros E EL h v1 M V. split; [|split].
  - destruct (with_prefix 60 (hs_magic h)) as (ks & D & I & L). exists ks. split; [exact D|]. split; [rewrite L; reflexivity|].
    intros k. rewrite I, M. split; (intros (A & B); split; [exact A|]); now apply (C18_v1_detection E EL h k A M).
  - destruct (with_prefix 48 (hs_magic h ++ v1)) as (ks & D & I & L). exists ks. split; [exact D|]. split; [rewrite L; reflexivity|].
    intros k. rewrite I, len_app, M, V. reflexivity.
  - destruct (with_prefix 64 []) as (ks & D & I & L). exists ks. split; [exact D|]. split; [rewrite L; reflexivity|].
    intros k. rewrite I. cbn. split; [intros (A & _); exact A|]. intros A. split; [exact A|reflexivity].
Qed.
Print Assumptions C106_keys.

(** Two endpoints with the real functions come together and deliver everything unless a key begins with the magic or a terminator
    is in the list of the garbage it follows. *)
Theorem C106_endpoints : forall chk enc magic ska skb ga gb da db psa psb,
  let E := real chk enc in
  (forall sk, len (enc sk) = 64) -> len magic = 4 ->
  sk_in_range ska = true -> names_public_key (enc ska) ska = true ->
  sk_in_range skb = true -> names_public_key (enc skb) skb = true ->
  len (garbage_bytes ga) <= 4095 -> len (garbage_bytes gb) <= 4095 ->
  Forall (fun d => len d + 17 <= 4000014) (decoy_list da) ->
  Forall (fun d => len d + 17 <= 4000014) (decoy_list db) ->
  (chk = true -> len (decoy_list da) + 1 + len psa < 2 ^ 32 /\ len (decoy_list db) + 1 + len psb < 2 ^ 32) ->
  take 4 (enc ska) <> magic -> take 4 (enc skb) <> magic ->
  exists m outa outb pka pkb,
    keys_from (bip_prk magic (bip_secret (enc ska) (enc skb) ska PartyA)) m /\
    (In (initiator_garbage_terminator m) (early (garbage_bytes ga)) \/
     In (responder_garbage_terminator m) (early (garbage_bytes gb)) \/
     forall fla flb sa sb wa wb ea eb,
       flatten fla sa = (outb ++ pkb, ea) -> flatten flb sb = (outa ++ pka, eb) ->
       calm fla sa -> calm flb sb -> healthy wa -> healthy wb ->
       Forall (readable flb) psa -> Forall (readable fla) psb ->
       exists ra pa rb pb pa' pb' qa qb ra' rb',
         connect fla magic Initiator ska ga da sa wa = Ret (Ok (ra, pa)) /\
         connect flb magic Responder skb gb db sb wb = Ret (Ok (rb, pb)) /\
         written (pw_writer pa) = written wa ++ outa /\
         written (pw_writer pb) = written wb ++ outb /\
         write_many fla pa (map payload_of psa) = Ret (map (fun _ => Ok tt) psa, pa') /\
         write_many flb pb (map payload_of psb) = Ret (map (fun _ => Ok tt) psb, pb') /\
         written (pw_writer pa') = written wa ++ outa ++ pka /\
         written (pw_writer pb') = written wb ++ outb ++ pkb /\
         read_many (length psa) rb = Ret (map Ok qa, rb') /\ map payload_view qa = map Ret psa /\
         read_many (length psb) ra = Ret (map Ok qb, ra') /\ map payload_view qb = map Ret psb).
Proof.
  intros chk enc magic ska skb ga gb da db psa psb E L M Ra Na Rb Nb Ga Gb Da Db O Ta Tb.
  destruct (C101_two_endpoints chk enc magic ska skb ga gb da db psa psb L M Ra Na Rb Nb Ga Gb Da Db O Ta Tb)
    as (m & outa & outb & pka & pkb & K & H).
  exists m, outa, outb, pka, pkb. split; [exact K|].
  assert (len (initiator_garbage_terminator m) = 16 /\ len (responder_garbage_terminator m) = 16) as (Li & Lr).
  { unfold keys_from in K. tauto. }
  destruct (in_dec (list_eq_dec byte_eq_dec) (initiator_garbage_terminator m) (early (garbage_bytes ga))) as [Ia|Ia]; [now left|].
  destruct (in_dec (list_eq_dec byte_eq_dec) (responder_garbage_terminator m) (early (garbage_bytes gb))) as [Ib|Ib]; [right; now left|].
  right. right. intros fla flb sa sb wa wb ea eb Fa Fb Ca Cb Wa Wb Pa Pb.
  apply (proj2 (C106_terminators (garbage_bytes ga)) _ Li) in Ia. apply (proj2 (C106_terminators (garbage_bytes gb)) _ Lr) in Ib.
  destruct (H Ia Ib fla flb sa sb wa wb ea eb Fa Fb Ca Cb Wa Wb Pa Pb) as
    (ra & pa & rb & pb & pa' & pb' & qa & qb & ra' & rb' & Q).
  exists ra, pa, rb, pb, pa', pb', qa, qb, ra', rb'. tauto.
Qed.
Print Assumptions C106_endpoints.

(** The name of a version message, as at the beginning of a V1 connection: the BIP compares it as well. *)
Definition version_name : bytes := [x76; x65; x72; x73; x69; x6f; x6e; x00; x00; x00; x00; x00].

Theorem C106_whole_prefix_refuted :
  ~ forall (E : Env) (EL : EnvLaws E) h k, len (hs_magic h) = 4 -> len k = 64 ->
      receive_key h k = Ret (Err V1Protocol) -> take 16 k = hs_magic h ++ version_name.
Proof.
  intros H. specialize (H (toy true) (toy_laws true) (Handshake mainnet Initiator (SentKey (EcdhPoint ska (counting 9 64)) None))
    (mainnet ++ counting 1 60) eq_refl eq_refl).
  assert (Q : @receive_key (toy true) (Handshake mainnet Initiator (SentKey (EcdhPoint ska (counting 9 64)) None)) (mainnet ++ counting 1 60)
    = Ret (Err V1Protocol)) by (vm_compute; reflexivity).
  specialize (H Q). vm_compute in H. discriminate.
Qed.
Print Assumptions C106_whole_prefix_refuted.

(** Garbage of four bytes: four terminators.  With the last of them the receiver takes three bytes for the garbage, with any other string
    all four. *)
Example C106_example :
  let g := [x61; x62; x63; x64] in
  let found t := match receive_garbage (Handshake mainnet Initiator (SentVersion (sv_cipher (hs_state sample_sent)) t)) (g ++ t ++ [x00]) with
                 | Ret (Ok (FoundGarbage h n)) => Some n
                 | _ => None
                 end in
  early g = [[x61; x62; x63; x64; x61; x62; x63; x64; x61; x62; x63; x64; x61; x62; x63; x64];
             [x62; x63; x64; x62; x63; x64; x62; x63; x64; x62; x63; x64; x62; x63; x64; x62];
             [x63; x64; x63; x64; x63; x64; x63; x64; x63; x64; x63; x64; x63; x64; x63; x64]; repeat x64 16] /\
  map found (early g) = [Some 16; Some 17; Some 18; Some 19] /\ found (counting 170 16) = Some 20 /\
  length (early (repeat x07 40 ++ counting 0 60)) = 100%nat.
Proof. vm_compute. repeat split. Qed.
