(** * Property C86: what the search for the garbage terminator costs *)
From Coq Require Import List NArith Bool Lia.
From Coq.Strings Require Import Byte.
From Verif Require Import Base BaseFacts Env Toy FsChacha Cipher Handshake SpecHandshake HandshakeProofs Transport Io SpecIo
  Sessions TransportProofs SearchCost SpecTraffic PropsHandshake PropsIo.
Import ListNotations.
Local Open Scope N_scope.

Definition total_cost (t : bytes) (buffers : list bytes) : N := fold_right N.add 0 (map (search_cost t) buffers).

Lemma total_cost_app t a b : total_cost t (a ++ b) = total_cost t a + total_cost t b.
Proof.
  unfold total_cost. rewrite map_app, fold_right_app. induction (map (search_cost t) a) as [|x l IH]; [reflexivity|].
  cbn [fold_right]. rewrite IH. lia.
Qed.

Lemma compared_bound t : len t = 16 -> forall l, windows_compared t l <= len l - 15.
Proof.
  intros Ht. induction l as [|b l IH]; cbn [windows_compared]; rewrite Ht.
  - cbn. lia.
  - destruct (N.ltb_spec (len (b :: l)) 16) as [L|L]; [lia|]. destruct (bytes_eqb _ _); [lia|]. rewrite len_cons in *. lia.
Qed.

(** All windows, if none is the terminator. *)
Lemma compared_all t : len t = 16 -> forall l, (forall i, ~ occurs_at t l i) -> windows_compared t l = len l - 15.
Proof.
  intros Ht. induction l as [|b l IH]; intros N; cbn [windows_compared]; rewrite Ht.
  - cbn. reflexivity.
  - destruct (N.ltb_spec (len (b :: l)) 16) as [L|L]; [lia|]. destruct (bytes_eqb (take 16 (b :: l)) t) eqn:Q.
    + apply bytes_eqb_spec in Q. exfalso. apply (N 0). split; [lia|]. now rewrite drop_0, Ht.
    + rewrite IH; [rewrite len_cons in *; lia|]. intros i [O1 O2]. apply (N (i + 1)). split; [rewrite len_cons; lia|].
      rewrite <- O2 at 2. f_equal. unfold drop. replace (N.to_nat (i + 1)) with (S (N.to_nat i)) by lia. reflexivity.
Qed.

Lemma search_bound t l : len t = 16 -> search_cost t l <= N.min (len l) 4111 - 15.
Proof.
  intros Ht. unfold search_cost. change (MAX_NUM_GARBAGE_BYTES + NUM_GARBAGE_TERMINTOR_BYTES) with 4111.
  etransitivity; [apply (compared_bound t Ht)|]. rewrite len_take. lia.
Qed.

Lemma search_all t l : len t = 16 -> (forall i, ~ occurs_at t l i) -> search_cost t l = N.min (len l) 4111 - 15.
Proof.
  intros Ht N. unfold search_cost. change (MAX_NUM_GARBAGE_BYTES + NUM_GARBAGE_TERMINTOR_BYTES) with 4111.
  rewrite (compared_all t Ht); [rewrite len_take; lia|].
  intros i O. apply occurs_take in O. apply (N i). apply O.
Qed.

Lemma recorded_erases : forall fuel h buf s reads bufs,
  run_map fst (garbage_loop_recorded fuel h buf s reads bufs) = garbage_loop fuel h buf s reads.
Proof.
  induction fuel as [|fuel IH]; intros h buf s reads bufs; [reflexivity|]. cbn [garbage_loop_recorded garbage_loop].
  destruct (receive_garbage h buf) as [[[h' n|h']|e]| |]; cbn [bind]; try reflexivity.
  destruct (read s 256) as [[[|b bs]|k] s']; try reflexivity. apply IH.
Qed.

Definition half_square (m : N) : N := (m - 16) * (m - 15).

Lemma recorded_bound h : len (remote_garbage_terminator (hs_state h)) = 16 ->
  forall fuel buf s reads bufs x s' r bufs',
  garbage_loop_recorded fuel h buf s reads bufs = Ret (x, s', r, bufs') -> 16 <= len buf <= 4366 ->
  exists more, bufs' = bufs ++ more /\ Forall (fun b => len buf <= len b <= 4366) more /\
    len more <= 4112 - N.min (len buf) 4111 /\
    2 * total_cost (remote_garbage_terminator (hs_state h)) more + half_square (N.min (len buf) 4111) <= 4096 * 4097.
Proof.
  intros Ht. set (t := remote_garbage_terminator (hs_state h)) in *.
  assert (forall m, 16 <= m <= 4111 -> 2 * (m - 15) + half_square m <= 4096 * 4097) as Last.
  { intros m Hm. unfold half_square. assert (m - 16 <= 4095) by lia. assert (m - 15 <= 4096) by lia. nia. }
  assert (forall buf, 16 <= len buf <= 4366 -> Forall (fun b => len buf <= len b <= 4366) [buf] /\
    len [buf] <= 4112 - N.min (len buf) 4111 /\ 2 * total_cost t [buf] + half_square (N.min (len buf) 4111) <= 4096 * 4097) as One.
  { intros buf L. split; [constructor; [lia|constructor]|]. split; [change (len [buf]) with 1; lia|].
    specialize (Last (N.min (len buf) 4111) ltac:(lia)). unfold total_cost. cbn [map fold_right].
    pose proof (search_bound t buf Ht). lia. }
  induction fuel as [|fuel IH]; intros buf s reads bufs x s' r bufs' H L; [discriminate|]. cbn [garbage_loop_recorded] in H.
  destruct (receive_garbage_cases h buf Ht) as [(i & _ & _ & K)|[(_ & _ & K)|(_ & L1 & K)]]; rewrite K in H; cbn [bind found] in H.
  - injection H as <- <- <- <-. exists [buf]. split; [reflexivity|]. now apply One.
  - injection H as <- <- <- <-. exists [buf]. split; [reflexivity|]. now apply One.
  - destruct (read s 256) as [[[|b bs]|k] s1] eqn:R.
    + injection H as <- <- <- <-. exists [buf]. split; [reflexivity|]. now apply One.
    + apply IH in H.
      * destruct H as (more & -> & F & Lm & C). exists (buf :: more). split; [now rewrite <- app_assoc|].
        assert (len (buf ++ b :: bs) = len buf + (len bs + 1)) as La by (rewrite len_app, len_cons; reflexivity).
        rewrite La in Lm, C. split; [|split].
        -- constructor; [lia|]. eapply Forall_impl; [|exact F]. cbn. intros l. rewrite La. lia.
        -- rewrite ?len_cons. lia.
        -- change (buf :: more) with ([buf] ++ more). rewrite total_cost_app.
           assert (total_cost t [buf] <= len buf - 15) as Q.
           { unfold total_cost. cbn [map fold_right]. pose proof (search_bound t buf Ht). lia. }
           set (c := total_cost t more) in *. set (c1 := total_cost t [buf]) in *.
           replace (N.min (len buf) 4111) with (len buf) by lia.
           set (m' := N.min (len buf + (len bs + 1)) 4111) in *.
           assert (len buf + 1 <= m') as G by lia. clearbody m' c c1. unfold half_square in *.
           set (a := len buf - 16) in *. replace (len buf - 15) with (a + 1) in * by lia.
           assert (a + 1 <= m' - 16) as G2 by lia. replace (m' - 15) with (m' - 16 + 1) in C by lia.
           set (d := m' - 16) in *. clearbody a d. clear - Q G2 C. nia.
      * assert (len (b :: bs) <= 256) as Lb.
        { clear - R. revert R. generalize (b :: bs). intros l. revert l s1. induction s as [|[c|k|] s IH]; intros l s1 R; cbn [read] in R.
          - injection R as <- _. cbn. lia.
          - destruct (N.leb_spec (len c) 256) as [Q|Q]; injection R as <- _; [lia|]. rewrite len_take. lia.
          - discriminate.
          - eapply IH. exact R. }
        rewrite len_app. lia.
    + injection H as <- <- <- <-. exists [buf]. split; [reflexivity|]. now apply One.
Qed.

(** ** C86 *)
(** The record changes nothing. *)
Theorem C86_recorded : forall fuel h buf s reads bufs,
  run_map fst (garbage_loop_recorded fuel h buf s reads bufs) = garbage_loop fuel h buf s reads.
Proof. apply recorded_erases. Qed.
Print Assumptions C86_recorded.

(** Whatever the peer sends, and however it arrives. *)
Theorem C86_bounded : forall h buf s x s' r buffers,
  let t := remote_garbage_terminator (hs_state h) in
  len t = 16 -> len buf = 16 ->
  garbage_loop_recorded garbage_fuel h buf s 0 [] = Ret (x, s', r, buffers) ->
  total_cost t buffers <= 8390656 /\ len buffers <= 4096 /\ Forall (fun b => len b <= 4366) buffers.
Proof.
  intros h buf s x s' r buffers t Ht Lb H.
  destruct (recorded_bound h Ht _ _ _ _ _ _ _ _ _ H ltac:(lia)) as (more & -> & F & Lm & C).
  rewrite Lb in *. change (N.min 16 4111) with 16 in *. change (half_square 16) with 0 in C. fold t in C.
  cbn [app]. split; [lia|]. split; [lia|]. eapply Forall_impl; [|exact F]. cbn. intros l. lia.
Qed.
Print Assumptions C86_bounded.

Lemma occurs_longer t (a b : bytes) i : occurs_at t a i -> occurs_at t (a ++ b) i.
Proof.
  intros [O1 O2]. split; [rewrite len_app; lia|]. rewrite <- O2 at 2.
  rewrite drop_app_le by lia. apply take_app_le. rewrite len_drop. lia.
Qed.

Lemma drip_cost h : len (remote_garbage_terminator (hs_state h)) = 16 ->
  let t := remote_garbage_terminator (hs_state h) in
  forall c fuel (buf : bytes) rest reads bufs, (forall i, ~ occurs_at t (buf ++ c) i) -> 16 <= len buf -> len (buf ++ c) = 4111 ->
  (length c < fuel)%nat ->
  exists more, garbage_loop_recorded fuel h buf (drip c ++ rest) reads bufs =
      Ret (Err (Internal NoGarbageTerminator), rest, reads + len c, bufs ++ more) /\
    2 * total_cost t more + half_square (len buf) = 4096 * 4097.
Proof.
  intros Ht t. assert (forall buf, (forall i, ~ occurs_at t buf i) -> len buf <= 4111 -> total_cost t [buf] = len buf - 15) as One.
  { intros buf No L. unfold total_cost. cbn [map fold_right]. rewrite (search_all t buf Ht No). lia. }
  induction c as [|b c IH]; intros fuel buf rest reads bufs No L16 L Hf; (destruct fuel as [|fuel]; [cbn in Hf; lia|]);
    cbn [garbage_loop_recorded].
  - rewrite app_nil_r in *.
    destruct (receive_garbage_cases h buf Ht) as [(i & _ & [O _] & K)|[(_ & _ & K)|(_ & L1 & K)]]; [now apply No in O| |lia].
    rewrite K. cbn [bind]. exists [buf]. split; [now rewrite N.add_0_r|].
    assert (2 * (len buf - 15) + half_square (len buf) = 4096 * 4097) as Q by (rewrite L; reflexivity).
    rewrite <- Q. f_equal. f_equal. apply One; [exact No|lia].
  - destruct (receive_garbage_cases h buf Ht) as [(i & _ & [O _] & K)|[(_ & L1 & K)|(_ & L1 & K)]].
    + exfalso. apply (No i). now apply occurs_longer.
    + rewrite len_app, len_cons in L. lia.
    + rewrite K. cbn [bind]. cbn [drip flat_map app read]. change (len [b] <=? 256) with true. cbv iota.
      fold (drip c). assert (buf ++ b :: c = (buf ++ [b]) ++ c) as Q by now rewrite <- app_assoc. rewrite Q in No, L.
      destruct (IH fuel (buf ++ [b]) rest (reads + 1) (bufs ++ [buf]) No ltac:(rewrite len_app; lia) L ltac:(cbn in Hf; lia))
        as (more & G & C).
      exists (buf :: more). rewrite G. split; [rewrite len_cons, <- app_assoc; do 2 f_equal; f_equal; lia|].
      change (buf :: more) with ([buf] ++ more). rewrite total_cost_app.
      assert (total_cost t [buf] = len buf - 15) as Q1.
      { apply One; [|lia]. intros i O. apply (No i). rewrite <- app_assoc. now apply occurs_longer. }
      rewrite Q1.
      rewrite len_app in C. change (len [b]) with 1 in C. unfold half_square in *.
      replace (len buf + 1 - 16) with (len buf - 15) in C by lia. replace (len buf + 1 - 15) with (len buf - 15 + 1) in C by lia.
      replace (len buf - 16) with (len buf - 15 - 1) by lia. set (a := len buf - 15) in *. assert (1 <= a) by lia. clearbody a.
      clear - C H. nia.
Qed.

(** The bound is reached: a peer without terminator whose bytes come one at a time. *)
Theorem C86_reached : forall h buf c rest,
  let t := remote_garbage_terminator (hs_state h) in
  len t = 16 -> len buf = 16 -> len c = 4095 -> (forall i, ~ occurs_at t (buf ++ c) i) ->
  exists buffers,
    garbage_loop_recorded garbage_fuel h buf (drip c ++ rest) 0 [] = Ret (Err (Internal NoGarbageTerminator), rest, 4095, buffers) /\
    total_cost t buffers = 8390656.
Proof.
  intros h buf c rest t Ht Lb Lc No.
  destruct (drip_cost h Ht c garbage_fuel buf rest 0 [] No ltac:(lia) ltac:(rewrite len_app; lia)) as (more & G & C).
  { unfold garbage_fuel. unfold len in Lc. lia. }
  exists more. split; [rewrite G, Lc; reflexivity|]. rewrite Lb in C. change (half_square 16) with 0 in C. unfold t. lia.
Qed.
Print Assumptions C86_reached.

(** The windows compared by searches of 4112 bytes and, before it, of [k] buffers 256 bytes shorter each. *)
Fixpoint full_reads (k : nat) : N :=
  match k with O => 4096 | S k' => (4112 - 256 * N.of_nat k - 15) + full_reads k' end.

Lemma full_cost h : len (remote_garbage_terminator (hs_state h)) = 16 ->
  let t := remote_garbage_terminator (hs_state h) in
  forall k fuel (buf c : bytes) rest reads bufs, (forall i, ~ occurs_at t (buf ++ c) i) -> (k <= 16)%nat ->
  len buf = 4112 - 256 * N.of_nat k -> 256 * N.of_nat k < len c -> (k < fuel)%nat ->
  exists more, garbage_loop_recorded fuel h buf (Chunk c :: rest) reads bufs =
      Ret (Err (Internal NoGarbageTerminator), Chunk (drop (256 * N.of_nat k) c) :: rest, reads + N.of_nat k, bufs ++ more) /\
    total_cost t more = full_reads k.
Proof.
  intros Ht t. induction k as [|k IH]; intros fuel buf c rest reads bufs No K Lb Lc Hf; (destruct fuel as [|fuel]; [lia|]);
    cbn [garbage_loop_recorded].
  - destruct (receive_garbage_cases h buf Ht) as [(i & _ & [O _] & G)|[(_ & _ & G)|(_ & L1 & G)]]; [|rewrite G; cbn [bind]|lia].
    + exfalso. apply (No i). now apply occurs_longer.
    + exists [buf]. split; [now rewrite N.add_0_r|]. unfold total_cost. cbn [map fold_right]. rewrite (search_all t buf Ht).
      * rewrite Lb. reflexivity.
      * intros i O. apply (No i). now apply occurs_longer.
  - destruct (receive_garbage_cases h buf Ht) as [(i & _ & [O _] & G)|[(_ & L1 & G)|(_ & L1 & G)]]; [|lia|].
    + exfalso. apply (No i). now apply occurs_longer.
    + rewrite G. cbn [bind read]. replace (len c <=? 256) with false by (symmetry; apply N.leb_gt; lia).
      destruct (take 256 c) as [|b bs] eqn:Q; [apply (f_equal len) in Q; rewrite len_take in Q; cbn in Q; lia|]. rewrite <- Q.
      assert (buf ++ c = (buf ++ take 256 c) ++ drop 256 c) as Qc by (rewrite <- app_assoc, take_drop; reflexivity).
      rewrite Qc in No.
      destruct (IH fuel (buf ++ take 256 c) (drop 256 c) rest (reads + 1) (bufs ++ [buf]) No) as (more & R & C).
      * lia.
      * rewrite len_app, len_take. lia.
      * rewrite len_drop. lia.
      * lia.
      * exists (buf :: more). rewrite R. split.
        -- rewrite <- app_assoc, drop_drop. cbn [app].
           replace (256 + 256 * N.of_nat k) with (256 * N.of_nat (S k)) by lia.
           replace (reads + 1 + N.of_nat k) with (reads + N.of_nat (S k)) by lia. reflexivity.
        -- change (buf :: more) with ([buf] ++ more). rewrite total_cost_app, C. cbn [full_reads]. f_equal.
           unfold total_cost. cbn [map fold_right]. rewrite (search_all t buf Ht).
           ++ rewrite Lb. lia.
           ++ intros i O. apply (No i). rewrite <- Qc. now apply occurs_longer.
Qed.

(** With full reads the same peer costs 34832. *)
Theorem C86_full_reads : forall h buf c rest,
  let t := remote_garbage_terminator (hs_state h) in
  len t = 16 -> len buf = 16 -> 4096 < len c -> (forall i, ~ occurs_at t (buf ++ c) i) ->
  exists buffers,
    garbage_loop_recorded garbage_fuel h buf (Chunk c :: rest) 0 [] =
      Ret (Err (Internal NoGarbageTerminator), Chunk (drop 4096 c) :: rest, 16, buffers) /\
    total_cost t buffers = 34832.
Proof.
  intros h buf c rest t Ht Lb Lc No.
  destruct (full_cost h Ht 16 garbage_fuel buf c rest 0 [] No) as (more & G & C).
  - lia.
  - rewrite Lb. reflexivity.
  - exact Lc.
  - unfold garbage_fuel. lia.
  - exists more. split; [rewrite G; reflexivity|]. exact C.
Qed.
Print Assumptions C86_full_reads.

(** "Only search up to the maximum amount of garbage bytes allowed in the spec to avoid a DOS vector"
    (handshake.rs:469-470): the limit is one of each search, not of the handshake. *)
Theorem C86_looked_at_once_refuted :
  ~ forall h buf s x s' r buffers,
      len (remote_garbage_terminator (hs_state h)) = 16 -> len buf = 16 ->
      garbage_loop_recorded garbage_fuel h buf s 0 [] = Ret (x, s', r, buffers) ->
      total_cost (remote_garbage_terminator (hs_state h)) buffers <= 4096.
Proof.
  intros H. pose (t := repeat xff 16). pose (buf := repeat x00 16). pose (c := zeros 4095).
  pose (h := Handshake mainnet Initiator (SentVersion (session_new sample_km Initiator) t)).
  assert (forall i, ~ occurs_at t (buf ++ c) i) as No.
  { intros i [O1 O2].
    assert (In xff (buf ++ c)) as I.
    { assert (In xff (take (len t) (drop i (buf ++ c)))) as I by (rewrite O2; now left).
      rewrite <- (take_drop i (buf ++ c)), <- (take_drop (len t) (drop i (buf ++ c))).
      apply in_or_app. right. apply in_or_app. now left. }
    change buf with (repeat x00 16) in I. change c with (repeat x00 (N.to_nat 4095)) in I.
    rewrite <- repeat_app in I. apply repeat_spec in I. discriminate. }
  destruct (C86_reached h buf c [] eq_refl eq_refl (len_zeros 4095) No) as (buffers & R & C).
  pose proof (H h buf (drip c ++ []) _ _ _ _ eq_refl eq_refl R) as Q. rewrite C in Q. lia.
Qed.
Print Assumptions C86_looked_at_once_refuted.

(** Three bytes of garbage, one at a time: four searches, which compare 1, 2, 3 and 4 windows. *)
Example C86_example :
  let t := repeat xff 16 in
  let h := Handshake mainnet Initiator (SentVersion (session_new sample_km Initiator) t) in
  match garbage_loop_recorded 10 h ([x01; x02; x03] ++ repeat xff 13) (drip (repeat xff 3)) 0 [] with
  | Ret (Ok (_, n, buf), _, reads, buffers) =>
      n = 19 /\ reads = 3 /\ map len buffers = [16; 17; 18; 19] /\ map (search_cost t) buffers = [1; 2; 3; 4] /\ total_cost t buffers = 10
  | _ => False
  end.
Proof. vm_compute. repeat split. Qed.
