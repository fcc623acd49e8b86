(** * BufferedProofs: the crate over any reader is the crate over the script of its answers *)
From Coq Require Import List NArith Bool Lia.
From Coq.Strings Require Import Byte.
From Verif Require Import Base BaseFacts Env FsChacha Cipher CipherProofs Handshake Transport TransportProofs Io SpecIo HsSteps HsStepsProofs Futures
  Sessions PipesProofs Buffered SpecBuffered.
Import ListNotations.
Local Open Scope N_scope.

(** ** Items *)

Lemma items_app s1 s2 : items (s1 ++ s2) = items s1 ++ items s2.
Proof. unfold items. apply flat_map_app. Qed.

Lemma chunk_items bs : bs <> [] -> items [Chunk bs] = map Byt bs.
Proof. intros H. destruct bs; [contradiction|]. cbn. rewrite app_nil_r. reflexivity. Qed.

Lemma chunk_split n bs : 0 < n -> n < len bs -> items [Chunk (take n bs)] ++ items [Chunk (drop n bs)] = items [Chunk bs].
Proof.
  intros N0 L. rewrite !chunk_items, <- map_app, take_drop; [reflexivity|..]; intros Q; apply (f_equal len) in Q;
    rewrite ?len_take, ?len_drop, len_nil in Q; lia.
Qed.

(** One poll of a script. *)
Lemma poll_items s n o s' : 0 < n -> poll_script s n = (o, s') ->
  exists k, items (polled o) ++ items s' = items s ++ repeat Eof k /\
    match o with Some (Data bs) => len bs <= n /\ (k <> 0%nat -> bs = []) | _ => k = 0%nat end.
Proof.
  intros N0 H. destruct s as [|[bs|k|] s]; cbn [poll_script read] in H.
  - injection H as <- <-. exists 1%nat. split; [reflexivity|]. cbn. split; [lia|reflexivity].
  - destruct (N.leb_spec (len bs) n).
    + injection H as <- <-. exists 0%nat. cbn [polled answer_script repeat]. rewrite app_nil_r, <- items_app.
      split; [reflexivity|]. split; [assumption|]. intros Q. now contradict Q.
    + injection H as <- <-. exists 0%nat. cbn [polled answer_script repeat]. rewrite app_nil_r.
      change (Chunk (drop n bs) :: s) with ([Chunk (drop n bs)] ++ s). change (Chunk bs :: s) with ([Chunk bs] ++ s).
      rewrite !items_app, app_assoc, chunk_split by assumption. split; [reflexivity|]. split; [rewrite len_take; lia|].
      intros Q. now contradict Q.
  - injection H as <- <-. exists 0%nat. cbn. rewrite app_nil_r. split; reflexivity.
  - injection H as <- <-. exists 0%nat. cbn. rewrite app_nil_r. split; reflexivity.
Qed.

Lemma items_unread b : items (unread b) = (match br_buffer b with [] => [] | _ => map Byt (br_buffer b) end) ++ items (br_inner b).
Proof. unfold unread. destruct (br_buffer b) as [|x l] eqn:B; reflexivity. Qed.

Lemma buf_items b n o b' : 0 < n -> buf_read b n = (o, b') ->
  exists k, items (polled o) ++ items (unread b') = items (unread b) ++ repeat Eof k /\
    match o with Some (Data bs) => len bs <= n | _ => True end.
Proof.
  intros N0 H. destruct b as [cap buf s calls]. unfold buf_read in H. cbn [br_buffer br_capacity br_inner br_calls] in H.
  destruct buf as [|x buf].
  - destruct (N.leb_spec cap n) as [C|C].
    + destruct (poll_script s n) as [o1 s1] eqn:P. injection H as <- <-. destruct (poll_items _ _ _ _ N0 P) as (k & Q & F).
      exists k. split; [exact Q|]. destruct o1 as [[bs|e]|]; trivial. exact (proj1 F).
    + assert (C0 : 0 < cap) by lia. destruct (poll_script s cap) as [o1 s1] eqn:P. destruct (poll_items _ _ _ _ C0 P) as (k & Q & F).
      destruct o1 as [[bs|e]|]; injection H as <- <-; [|exists k; split; [exact Q|trivial]..].
      destruct F as (F1 & F2). exists k. split; [|rewrite len_take; lia]. change (items (unread (BufReader cap [] s calls))) with (items s). rewrite <- Q. unfold unread. cbn [br_buffer br_inner polled answer_script].
      destruct (N.le_gt_cases (len bs) n) as [L|L].
      * rewrite drop_all, take_all by lia. reflexivity.
      * destruct (drop n bs) as [|y t] eqn:D; [apply (f_equal len) in D; rewrite len_drop, len_nil in D; lia|]. rewrite <- D.
        change (Chunk (drop n bs) :: s1) with ([Chunk (drop n bs)] ++ s1). rewrite items_app, app_assoc, chunk_split by assumption. reflexivity.
  - injection H as <- <-. exists 0%nat. cbn [repeat]. rewrite app_nil_r. split; [|rewrite len_take; lia]. unfold unread. cbn [br_buffer br_inner polled answer_script].
    set (bs := x :: buf). assert (B : bs <> []) by discriminate. clearbody bs.
    destruct (N.le_gt_cases (len bs) n) as [L|L].
    + rewrite drop_all, take_all by lia. destruct bs; [contradiction|]. change (Chunk (b :: bs) :: s) with ([Chunk (b :: bs)] ++ s). rewrite items_app. reflexivity.
    + destruct (drop n bs) as [|y t] eqn:D; [apply (f_equal len) in D; rewrite len_drop, len_nil in D; lia|]. rewrite <- D.
      change (Chunk (drop n bs) :: s) with ([Chunk (drop n bs)] ++ s). rewrite items_app, app_assoc, chunk_split by assumption.
      destruct bs; [contradiction|]. change (Chunk (b :: bs) :: s) with ([Chunk (b :: bs)] ++ s). rewrite items_app. reflexivity.
Qed.

(** Items tell the stream. *)
Lemma flatten_items fl : forall s, flatten fl s = stream_of fl (items s).
Proof.
  induction s as [|[bs|k|] s IH]; cbn [flatten]; [reflexivity|..].
  - destruct bs as [|b bs]; [reflexivity|]. change (Chunk (b :: bs) :: s) with ([Chunk (b :: bs)] ++ s). rewrite items_app, chunk_items by discriminate.
    rewrite IH. generalize (b :: bs) as l. induction l as [|y l IHl]; cbn [map app stream_of].
    + destruct (stream_of fl (items s)). reflexivity.
    + rewrite <- IHl. destruct (stream_of fl (items s)). reflexivity.
  - cbn. rewrite IH. reflexivity.
  - cbn. exact IH.
Qed.

Lemma stream_eofs fl k : forall l, stream_of fl (l ++ repeat Eof k) = stream_of fl l.
Proof.
  induction l as [|[b| |e] l IH]; cbn [app stream_of]; try reflexivity.
  - destruct k; reflexivity.
  - rewrite IH. reflexivity.
  - rewrite IH. reflexivity.
Qed.

Lemma same_flatten fl s1 s2 : same_items s1 s2 -> flatten fl s1 = flatten fl s2.
Proof. intros (k & H). rewrite !flatten_items, H. apply stream_eofs. Qed.

Lemma calm_items fl s : calm fl s <-> (fl = Sync -> ~ In (Failure Interrupted) (items s)).
Proof.
  unfold calm. split; intros H F; specialize (H F); clear F.
  - intros I. unfold items in I. apply in_flat_map in I. destruct I as (ev & Ie & I). rewrite Forall_forall in H. specialize (H ev Ie).
    destruct ev as [[|b bs]|k|]; cbn in I.
    + destruct I as [I|[]]. discriminate I.
    + destruct I as [I|I]; [discriminate I|]. apply in_map_iff in I. destruct I as (? & I & _). discriminate I.
    + destruct I as [I|[]]. injection I as ->. now apply H.
    + destruct I.
  - apply Forall_forall. intros ev Ie ->. apply H. unfold items. apply in_flat_map. exists (Fail Interrupted). split; [exact Ie|left; reflexivity].
Qed.

Lemma same_calm fl s1 s2 : same_items s1 s2 -> calm fl s2 -> calm fl s1.
Proof.
  intros (k & H) C. apply calm_items. intros F I. rewrite H in I. apply in_app_or in I. destruct I as [I|I].
  - exact (proj1 (calm_items fl s2) C F I).
  - apply repeat_spec in I. discriminate I.
Qed.

Lemma same_refl s : same_items s s.
Proof. exists 0%nat. cbn. now rewrite app_nil_r. Qed.

Lemma same_trans s1 s2 s3 : same_items s1 s2 -> same_items s2 s3 -> same_items s1 s3.
Proof. intros (k & H) (m & H'). exists (m + k)%nat. rewrite H, H', repeat_app, app_assoc. reflexivity. Qed.

Lemma same_prefix s s1 s2 : same_items s1 s2 -> same_items (s ++ s1) (s ++ s2).
Proof. intros (k & H). exists k. rewrite !items_app, H, app_assoc. reflexivity. Qed.

(** ** The two readers *)

Lemma poll_script_size s n o s' : 0 < n -> poll_script s n = (o, s') ->
  match o with
  | Some (Data bs) => len bs <= n /\ (length bs + script_size s' <= script_size s)%nat
  | _ => (script_size s' < script_size s)%nat
  end.
Proof.
  intros N0 H. destruct s as [|[bs|k|] s]; cbn [poll_script read] in H.
  - injection H as <- <-. cbn. split; lia.
  - destruct (N.leb_spec (len bs) n).
    + injection H as <- <-. cbn [script_size]. split; [assumption|lia].
    + injection H as <- <-. cbn [script_size]. split; [rewrite len_take; lia|].
      rewrite <- (take_drop n bs) at 3. rewrite app_length. lia.
  - injection H as <- <-. cbn [script_size]. lia.
  - injection H as <- <-. cbn [script_size]. lia.
Qed.

Lemma script_faithful : faithful poll_script (fun s => s) script_size.
Proof.
  intros s n o s' N0 H. split; [|exact (poll_script_size _ _ _ _ N0 H)].
  destruct (poll_items _ _ _ _ N0 H) as (k & Q & _). exists k. now rewrite items_app.
Qed.

Definition buf_size (b : buf_reader) : nat := length (br_buffer b) + script_size (br_inner b).

Lemma buf_faithful : faithful buf_read unread buf_size.
Proof.
  intros b n o b' N0 H. destruct (buf_items _ _ _ _ N0 H) as (k & Q & F). split; [exists k; now rewrite items_app|].
  destruct b as [cap buf s calls]. unfold buf_read in H. unfold buf_size. cbn [br_buffer br_capacity br_inner br_calls] in *.
  destruct buf as [|x buf].
  - destruct (N.leb_spec cap n) as [C|C].
    + destruct (poll_script s n) as [o1 s1] eqn:P. injection H as <- <-. cbn [br_buffer br_inner length]. exact (poll_script_size _ _ _ _ N0 P).
    + assert (C0 : 0 < cap) by lia. destruct (poll_script s cap) as [o1 s1] eqn:P. pose proof (poll_script_size _ _ _ _ C0 P) as Z.
      destruct o1 as [[bs|e]|]; injection H as <- <-; cbn [br_buffer br_inner length]; [|exact Z|exact Z].
      split; [exact F|]. rewrite <- (take_drop n bs), app_length in Z. lia.
  - injection H as <- <-. cbn [br_buffer br_inner]. split; [exact F|]. set (bs := x :: buf). rewrite <- (take_drop n bs) at 3. rewrite app_length. lia.
Qed.

(** ** Sessions over a reader *)

Lemma set_inner_twice sr s t : set_inner (set_inner sr s) t = set_inner sr t.
Proof. destruct sr; reflexivity. Qed.
Lemma leftover_set sr s : session_leftover (set_inner sr s) = session_leftover sr.
Proof. destruct sr as [? [|] ?|? ? ?]; reflexivity. Qed.
Lemma inner_set sr s : inner (set_inner sr s) = s.
Proof. destruct sr; reflexivity. Qed.
Lemma session_inner_set sr s : session_inner (set_inner sr s) = s.
Proof. destruct sr; reflexivity. Qed.

(** With a leftover, the transport is not read. *)
Lemma leftover_read sr n : session_leftover sr <> [] -> 0 < n -> exists bs sr',
  bs <> [] /\ len bs <= n /\ session_leftover sr = bs ++ session_leftover sr' /\ (session_leftover sr' = [] \/ len bs = n) /\
  forall s, session_read (set_inner sr s) n = (Data bs, set_inner sr' s).
Proof.
  intros L N0. destruct sr as [cur [|] t|l pos t]; cbn [session_leftover] in L; [contradiction| |].
  - exists (take n cur), (ChainReader (drop n cur) false t). cbn [session_leftover set_inner].
    assert (LT : len (take n cur) = N.min n (len cur)) by apply len_take.
    split; [|split; [rewrite LT; lia|split; [now rewrite take_drop|split]]].
    + destruct cur; [contradiction|]. intros Q. apply (f_equal len) in Q. rewrite LT, len_cons, len_nil in Q. lia.
    + destruct (N.le_gt_cases (len cur) n); [left; now apply drop_all|right; rewrite LT; lia].
    + intros s. cbn [session_read]. destruct cur; [contradiction|]. reflexivity.
  - set (to_copy := N.min (len (drop pos l)) n).
    assert (LD : len (drop pos l) <> 0) by (intros Q; apply L; now apply len_0_nil).
    exists (take to_copy (drop pos l)), (TokioReader l (pos + to_copy) t). cbn [session_leftover set_inner].
    assert (LT : len (take to_copy (drop pos l)) = to_copy) by (rewrite len_take; subst to_copy; lia).
    split; [|split; [rewrite LT; subst to_copy; lia|split; [|split]]].
    + intros Q. apply (f_equal len) in Q. rewrite LT, len_nil in Q. subst to_copy. lia.
    + rewrite <- drop_drop, take_drop. reflexivity.
    + destruct (N.le_gt_cases (len (drop pos l)) n) as [G|G].
      * left. apply drop_all. rewrite len_drop in LD, G. subst to_copy. rewrite len_drop. lia.
      * right. rewrite LT. subst to_copy. lia.
    + intros s. cbn [session_read]. rewrite len_drop in LD. destruct (N.ltb_spec pos (len l)); [|lia]. reflexivity.
Qed.

(** Without one, it is. *)
Lemma empty_read sr : session_leftover sr = [] -> exists sr', session_leftover sr' = [] /\
  forall s n, session_read (set_inner sr s) n = (fst (read s n), set_inner sr' (snd (read s n))).
Proof.
  intros L. destruct sr as [cur [|] t|l pos t]; cbn [session_leftover] in L.
  - exists (ChainReader cur true t). split; [reflexivity|]. intros s n. cbn [set_inner session_read]. destruct (read s n). reflexivity.
  - subst cur. exists (ChainReader [] true t). split; [reflexivity|]. intros s n. cbn [set_inner session_read]. destruct (read s n). reflexivity.
  - exists (TokioReader l pos t). split; [exact L|]. intros s n. cbn [set_inner session_read].
    apply (f_equal len) in L. rewrite len_drop, len_nil in L. destruct (N.ltb_spec pos (len l)); [lia|]. destruct (read s n). reflexivity.
Qed.

Lemma read_answer r n t : match r with Data bs => len bs <= n | _ => True end -> read (answer_script r ++ t) n = (r, t).
Proof.
  destruct r as [bs|k]; intros F; cbn [answer_script app read]; [|reflexivity]. destruct (N.leb_spec (len bs) n); [reflexivity|lia].
Qed.

Lemma splice_len buf a b src buf' : splice buf a b src = Ret buf' -> len buf' = len buf.
Proof.
  unfold splice. destruct ((a <=? b) && (b <=? len buf) && (len src =? b - a))%bool eqn:B; [|discriminate]. intros H. injection H as <-.
  apply andb_prop in B. destruct B as (B & B3). apply andb_prop in B. destruct B as (B1 & B2). apply N.leb_le in B1, B2. apply N.eqb_eq in B3.
  autorewrite with len. lia.
Qed.

Section Readers.
Context {E : Env}.
Variables (St : Type) (rd : St -> N -> option read_result * St) (rest : St -> script) (size : St -> nat).
Hypothesis faith : faithful rd rest size.

(** *** Exact reads *)

Lemma any_read_exact_meaning fl : forall fuel sr st n c e,
  (length (session_leftover sr) + size st < fuel)%nat ->
  session_stream fl (set_inner sr (rest st)) = (c, e) ->
  exists x sr' st', any_read_exact St rd fuel fl sr st n = Ret (x, sr', st') /\
    (length (session_leftover sr') + size st' <= length (session_leftover sr) + size st)%nat /\
    (n <= len c -> x = Ok (take n c) /\ session_stream fl (set_inner sr' (rest st')) = (drop n c, e)) /\
    (len c < n -> x = Err (end_kind e)).
Proof.
  induction fuel as [|fuel IH]; intros sr st n c e F H; [lia|]. cbn [any_read_exact].
  destruct (N.eqb_spec n 0) as [->|N0].
  { exists (Ok []), sr, st. split; [reflexivity|]. split; [lia|]. split; [intros _; now rewrite take_0, drop_0|lia]. }
  assert (P0 : 0 < n) by lia. unfold any_session_read. destruct (session_leftover sr) as [|b lo] eqn:L.
  - destruct (rd st n) as [o st1] eqn:R. destruct (faith _ _ _ _ P0 R) as (SM & SZ). cbn [length] in F.
    destruct (empty_read sr L) as (sr1 & L1 & ER).
    unfold session_stream in H. rewrite session_inner_set, leftover_set, L in H. rewrite <- (same_flatten fl _ _ SM) in H.
    assert (ST : session_stream fl (set_inner sr1 (rest st1)) = flatten fl (rest st1)).
    { unfold session_stream. rewrite session_inner_set, leftover_set, L1. destruct (flatten fl (rest st1)). reflexivity. }
    destruct o as [r|].
    + rewrite ER. assert (RA : read (answer_script r) n = (r, [])).
      { rewrite <- (app_nil_r (answer_script r)). apply read_answer. destruct r; [apply SZ|exact I]. }
      rewrite RA. cbn [fst snd]. rewrite set_inner_twice.
      destruct r as [[|y bs]|k]; cbn [polled answer_script app flatten] in H.
      * exists (Err UnexpectedEof), (set_inner sr1 []), st1. split; [reflexivity|]. rewrite leftover_set, L1. cbn [length] in *. split; [lia|].
        injection H as <- <-. rewrite len_nil. split; [lia|reflexivity].
      * set (bsy := y :: bs) in *. destruct SZ as (LE & SZ). destruct (flatten fl (rest st1)) as [c1 e1] eqn:F1. injection H as <- <-. change (y :: bs ++ c1) with (bsy ++ c1).
        assert (Z : (1 <= length bsy)%nat) by (subst bsy; cbn; lia).
        destruct (IH (set_inner sr1 []) st1 (n - len bsy) c1 e1) as (x & sr' & st' & Q & SZ' & Q1 & Q2).
        { rewrite leftover_set, L1. cbn [length]. lia. }
        { rewrite set_inner_twice, ST. reflexivity. }
        rewrite leftover_set, L1 in SZ'. cbn [length] in SZ'.
        rewrite Q. cbn [bind]. eexists _, _, _. split; [reflexivity|]. cbn [length]. split; [lia|]. rewrite len_app. split.
        -- intros LE2. destruct Q1 as (-> & Q1); [lia|]. rewrite Q1. rewrite take_app_ge, drop_app_ge by assumption. auto.
        -- intros GT. rewrite Q2 by lia. reflexivity.
      * cbn [flatten app] in H. rewrite retries_is in H. destruct (retries fl k) eqn:Rt.
        -- destruct (IH (set_inner sr1 []) st1 n c e) as (x & sr' & st' & Q & SZ' & Q1).
           { rewrite leftover_set, L1. cbn [length]. lia. }
           { rewrite set_inner_twice, ST. destruct (flatten fl (rest st1)). exact H. }
           rewrite leftover_set, L1 in SZ'. cbn [length] in SZ'. rewrite Q. eexists _, _, _. split; [reflexivity|]. cbn [length]. split; [lia|exact Q1].
        -- injection H as <- <-. eexists _, _, _. split; [reflexivity|]. rewrite leftover_set, L1. cbn [length]. split; [lia|]. rewrite len_nil. split; [lia|reflexivity].
    + cbn [polled app flatten] in H. destruct (IH sr st1 n c e) as (x & sr' & st' & Q & SZ' & Q1).
      { rewrite L. cbn [length]. lia. }
      { unfold session_stream. rewrite session_inner_set, leftover_set, L. exact H. }
      rewrite L in SZ'. cbn [length] in SZ'. rewrite Q. eexists _, _, _. split; [reflexivity|]. cbn [length]. split; [lia|exact Q1].
  - destruct (leftover_read sr n) as (bs & sr1 & NE & LE & LO & _ & RD); [rewrite L; discriminate|exact P0|].
    assert (RS : session_read sr n = (Data bs, set_inner sr1 (inner sr))) by (rewrite <- RD; f_equal; destruct sr; reflexivity).
    rewrite RS. destruct bs as [|y bs]; [contradiction|]. set (bsy := y :: bs) in *.
    unfold session_stream in H. rewrite session_inner_set, leftover_set, LO in H. destruct (flatten fl (rest st)) as [c1 e1] eqn:F1.
    injection H as <- <-.
    replace (y :: (bs ++ session_leftover sr1) ++ c1) with (bsy ++ session_leftover sr1 ++ c1) by (subst bsy; cbn [app]; rewrite app_assoc; reflexivity).
    assert (Z : (1 <= length bsy)%nat) by (subst bsy; cbn; lia). rewrite <- L, LO, app_length in *.
    destruct (IH (set_inner sr1 (inner sr)) st (n - len bsy) (session_leftover sr1 ++ c1) e1) as (x & sr' & st' & Q & SZ' & Q1 & Q2).
    { rewrite leftover_set. lia. }
    { unfold session_stream. rewrite set_inner_twice, session_inner_set, leftover_set, F1. reflexivity. }
    rewrite leftover_set in SZ'. rewrite Q. cbn [bind]. eexists _, _, _. split; [reflexivity|]. split; [lia|]. rewrite len_app. split.
    + intros LE2. destruct Q1 as (-> & Q1); [lia|]. rewrite Q1. rewrite (take_app_ge n bsy), (drop_app_ge n bsy) by exact LE. auto.
    + intros GT. rewrite Q2 by lia. reflexivity.
Qed.

(** *** A blocking read *)

Lemma any_sync_read_meaning {EL : EnvLaws E} fuel c sr st :
  (length (session_leftover sr) + size st < fuel)%nat ->
  match sync_read (SyncReader c (set_inner sr (rest st))) with
  | Ret (x, r, a) => exists sr' st', any_sync_read St rd fuel c sr st = Ret (x, sr_cipher r, sr', st', a) /\
      (length (session_leftover sr') + size st' <= length (session_leftover sr) + size st)%nat /\
      ((forall k, x <> Err (from_io k)) -> session_stream Sync (set_inner sr' (rest st')) = session_stream Sync (sr_reader r))
  | Panic => any_sync_read St rd fuel c sr st = Panic
  | NoFuel => any_sync_read St rd fuel c sr st = NoFuel
  end.
Proof.
  intros F. unfold sync_read, any_sync_read. cbn [sr_reader sr_cipher].
  destruct (session_stream Sync (set_inner sr (rest st))) as [cs e] eqn:S0.
  destruct (any_read_exact_meaning Sync fuel sr st NUM_LENGTH_BYTES cs e F S0) as (x & sr1 & st1 & Q & Z1 & Q1 & Q2). rewrite Q. cbn [bind].
  destruct (session_read_exact_stream Sync _ NUM_LENGTH_BYTES _ _ S0) as (P1 & P2).
  destruct (N.le_gt_cases NUM_LENGTH_BYTES (len cs)) as [G|G].
  2:{ destruct (P2 G) as (sr' & ->). rewrite (Q2 G). exists sr1, st1. split; [reflexivity|]. split; [exact Z1|]. intros K. now destruct (K (end_kind e)). }
  destruct (P1 G) as (s1 & -> & S1 & _ & _). destruct (Q1 G) as (-> & T1).
  destruct (decrypt_packet_len c (take NUM_LENGTH_BYTES cs)) as [[pl c1]| |]; cbn [bind]; [|reflexivity..].
  destruct (any_read_exact_meaning Sync fuel sr1 st1 pl _ e ltac:(lia) T1) as (x & sr2 & st2 & R & Z2 & R1 & R2). rewrite R. cbn [bind].
  destruct (session_read_exact_stream Sync _ pl _ _ S1) as (P3 & P4).
  destruct (N.le_gt_cases pl (len (drop NUM_LENGTH_BYTES cs))) as [G1|G1].
  2:{ destruct (P4 G1) as (sr' & ->). rewrite (R2 G1). exists sr2, st2. split; [reflexivity|]. split; [lia|]. intros K. now destruct (K (end_kind e)). }
  destruct (P3 G1) as (s2 & -> & S2 & _ & _). destruct (R1 G1) as (-> & T2).
  destruct (decrypt_to_vec c1 (take pl (drop NUM_LENGTH_BYTES cs)) None) as [[x2 c2]| |]; cbn [bind]; [|reflexivity..].
  destruct x2 as [[t pt]|er].
  - destruct (payload_decrypted pt) as [p| |]; cbn [bind]; [|reflexivity..]. exists sr2, st2. split; [reflexivity|]. split; [lia|].
    intros _. cbn [sr_reader]. rewrite T2, S2. reflexivity.
  - exists sr2, st2. split; [reflexivity|]. split; [lia|]. intros _. cbn [sr_reader]. rewrite T2, S2. reflexivity.
Qed.

(** *** Polls *)

Lemma same_polled o s st st1 : same_items (polled o ++ rest st1) (rest st) -> same_items (s ++ polled o ++ rest st1) (s ++ rest st).
Proof. apply same_prefix. Qed.

Definition owned (sr : session) : Prop := match sr with TokioReader _ _ _ => True | _ => False end.

Lemma poll_session_is sr n s : owned sr -> session_leftover sr = [] ->
  poll_session (set_inner sr s) n = (fst (poll_script s n), set_inner sr (snd (poll_script s n))).
Proof.
  intros O L. destruct sr as [? ? ?|l pos t]; [contradiction|]. cbn [session_leftover] in L. cbn [set_inner poll_session].
  apply (f_equal len) in L. rewrite len_drop, len_nil in L. destruct (N.ltb_spec pos (len l)); [lia|]. destruct (poll_script s n). reflexivity.
Qed.

Lemma poll_answer o n t : match o with Some (Data bs) => len bs <= n | _ => True end -> poll_script (polled o ++ t) n = (o, t).
Proof.
  destruct o as [r|]; intros F; cbn [polled app poll_script]; [|reflexivity].
  assert (R : read (answer_script r ++ t) n = (r, t)) by (apply read_answer; destruct r; assumption).
  unfold poll_script. destruct r as [bs|k]; cbn [answer_script app] in *; rewrite R; reflexivity.
Qed.

Lemma any_session_poll sr st n : owned sr -> 0 < n ->
  exists o sr' st' tr, any_session_read St rd sr st n = (o, sr', st') /\ owned sr' /\
    (forall t, poll_session (set_inner sr (tr ++ t)) n = (o, set_inner sr' t)) /\
    same_items (tr ++ rest st') (rest st) /\ (length tr <= 1)%nat /\
    match o with
    | Some (Data bs) => len bs <= n /\ (length bs + length (session_leftover sr') + size st' <= length (session_leftover sr) + size st)%nat /\
        (session_leftover sr' = [] /\ (session_leftover sr = [] -> length tr = 1%nat) \/ len bs = n)
    | _ => (length (session_leftover sr') + size st' < length (session_leftover sr) + size st)%nat
    end.
Proof.
  intros O N0. unfold any_session_read. destruct (session_leftover sr) as [|b lo] eqn:L.
  - destruct (rd st n) as [o st1] eqn:R. destruct (faith _ _ _ _ N0 R) as (SM & SZ).
    exists o, (match o with Some _ => set_inner sr [] | None => sr end), st1, (polled o). destruct sr as [? ? ?|l pos t]; [contradiction|].
    assert (PS : forall t0, poll_session (set_inner (TokioReader l pos t) (polled o ++ t0)) n = (o, set_inner (TokioReader l pos t) t0)).
    { intros t0. rewrite poll_session_is by (exact I || exact L). rewrite poll_answer by (destruct o as [[|]|]; [apply SZ|exact I..]). reflexivity. }
    split; [|split; [destruct o; exact I|split; [intros t0; rewrite PS; destruct o; reflexivity|split; [exact SM|split]]]].
    + destruct o as [r|]; [|reflexivity].
      assert (RA : read (answer_script r) n = (r, [])).
      { rewrite <- (app_nil_r (answer_script r)). apply read_answer. destruct r; [apply SZ|exact I]. }
      cbn [set_inner session_read]. cbn [session_leftover] in L. apply (f_equal len) in L. rewrite len_drop, len_nil in L.
      destruct (N.ltb_spec pos (len l)); [lia|]. rewrite RA. reflexivity.
    + destruct o as [[|]|]; cbn; lia.
    + destruct o as [[bs|k]|]; cbn [set_inner session_leftover length]; cbn [session_leftover] in L; rewrite ?L; cbn [length].
      * destruct SZ as (S1 & S2). split; [exact S1|]. split; [lia|]. left. split; [reflexivity|intros _; reflexivity].
      * lia.
      * lia.
  - destruct (leftover_read sr n) as (bs & sr1 & NE & LE & LO & FULL & RD); [rewrite L; discriminate|exact N0|].
    assert (RS : session_read sr n = (Data bs, set_inner sr1 (inner sr))) by (rewrite <- RD; f_equal; destruct sr; reflexivity).
    rewrite RS. exists (Some (Data bs)), (set_inner sr1 (inner sr)), st, []. split; [reflexivity|].
    assert (PS : forall t, poll_session (set_inner sr t) n = (Some (Data bs), set_inner sr1 t)).
    { intros t. rewrite <- (f_equal (fun q => let '(r, z) := q in (Some r, z)) (RD t)). destruct sr as [? ? ?|l pos s]; [contradiction|].
      cbn [set_inner poll_session session_read]. cbn [session_leftover] in L. apply (f_equal len) in L. rewrite len_drop, len_cons in L.
      destruct (N.ltb_spec pos (len l)); [reflexivity|lia]. }
    assert (O1 : owned sr1).
    { specialize (PS []). destruct sr as [? ? ?|l pos s]; [contradiction|]. cbn [set_inner poll_session] in PS.
      cbn [session_leftover] in L. apply (f_equal len) in L. rewrite len_drop, len_cons in L.
      destruct (N.ltb_spec pos (len l)); [|lia]. injection PS as _ PS. destruct sr1; [discriminate|exact I]. }
    split; [destruct sr1; [contradiction|exact I]|]. split; [intros t; rewrite set_inner_twice; apply PS|]. split; [apply same_refl|].
    split; [cbn; lia|]. split; [exact LE|]. rewrite leftover_set. rewrite <- L, LO, app_length. split; [lia|].
    destruct FULL as [FULL|FULL]; [left; split; [exact FULL|]|right; exact FULL]. rewrite FULL, app_nil_r. intros Q. contradiction.
Qed.

Lemma any_fill_meaning : forall fuel sr st buf m, owned sr ->
  (length (session_leftover sr) + size st < fuel)%nat ->
  exists tr, match any_fill St rd fuel sr st buf m with
  | Ret (x, sr', st', buf', m') => owned sr' /\ same_items (tr ++ rest st') (rest st) /\
      (length (session_leftover sr') + size st' <= length (session_leftover sr) + size st)%nat /\
      forall t k, (length tr + (match session_leftover sr with [] => 0 | _ => 1 end) + 1 < k)%nat ->
        fill k (set_inner sr (tr ++ t)) buf m = Ret (x, set_inner sr' t, buf', m')
  | Panic => forall t k, (length tr + (match session_leftover sr with [] => 0 | _ => 1 end) + 1 < k)%nat ->
        fill k (set_inner sr (tr ++ t)) buf m = Panic
  | NoFuel => False
  end.
Proof.
  induction fuel as [|fuel IH]; intros sr st buf m O F; [lia|]. cbn [any_fill].
  destruct (N.ltb_spec m (len buf)) as [G|G].
  2:{ exists []. split; [exact O|]. split; [apply same_refl|]. split; [lia|]. intros t [|k] K; [lia|]. cbn [fill app].
      destruct (N.ltb_spec m (len buf)); [lia|reflexivity]. }
  destruct (any_session_poll sr st (len buf - m) O ltac:(lia)) as (o & sr1 & st1 & tr & Q & O1 & PS & SM & LT & SZ). rewrite Q.
  assert (ONE : forall x, (forall k t, fill (S k) (set_inner sr (tr ++ t)) buf m = Ret (x, set_inner sr1 t, buf, m)) ->
    forall t k, (length tr + (match session_leftover sr with [] => 0 | _ => 1 end) + 1 < k)%nat ->
      fill k (set_inner sr (tr ++ t)) buf m = Ret (x, set_inner sr1 t, buf, m)).
  { intros x H t [|k] K; [lia|]. apply H. }
  assert (GO : (m <? len buf) = true) by now apply N.ltb_lt.
  destruct o as [[bs|k]|].
  - destruct bs as [|y bs].
    + exists tr. split; [exact O1|]. split; [exact SM|]. cbn [length] in SZ. split; [lia|]. apply ONE. intros k t. cbn [fill]. rewrite GO, PS. reflexivity.
    + set (bsy := y :: bs) in *. assert (Z : (1 <= length bsy)%nat) by (subst bsy; cbn; lia). destruct SZ as (LE & SZ & FULL).
      destruct (splice buf m (m + len bsy) bsy) as [buf1| |] eqn:SP; cbn [bind].
      2:{ exists tr. intros t [|k] K; [lia|]. cbn [fill]. rewrite GO, PS. subst bsy. rewrite SP. reflexivity. }
      2:{ exfalso. unfold splice in SP. destruct (_ && _ && _)%bool in SP; discriminate SP. }
      assert (LB : len buf1 = len buf) by (eapply splice_len; exact SP).
      destruct (IH sr1 st1 buf1 (m + len bsy) O1 ltac:(lia)) as (tr1 & H).
      assert (STEP : forall k t, fill (S k) (set_inner sr (tr ++ t)) buf m = fill k (set_inner sr1 t) buf1 (m + len bsy)).
      { intros k t. cbn [fill]. rewrite GO, PS. subst bsy. rewrite SP. reflexivity. }
      assert (KK : len bsy <> len buf - m -> (match session_leftover sr1 with [] => 0 | _ => 1 end = 0)%nat /\
        (1 <= length tr + match session_leftover sr with [] => 0 | _ => 1 end)%nat).
      { intros NF. destruct FULL as [(FULL & T1)|FULL]; [|contradiction]. rewrite FULL. split; [reflexivity|].
        destruct (session_leftover sr); [rewrite T1 by reflexivity; lia|lia]. }
      destruct (N.eqb_spec (len bsy) (len buf - m)) as [EQ|NE].
      * (* the buffer is full *)
        exists tr. assert (DONE : (m + len bsy <? len buf1) = false) by (apply N.ltb_ge; lia).
        assert (FD : any_fill St rd fuel sr1 st1 buf1 (m + len bsy) = Ret (Filled, sr1, st1, buf1, m + len bsy)).
        { destruct fuel as [|fuel]; [lia|]. cbn [any_fill]. rewrite DONE. reflexivity. }
        rewrite FD. split; [exact O1|]. split; [exact SM|]. split; [lia|].
        intros t [|[|k]] K; [lia|lia|]. rewrite STEP. cbn [fill]. rewrite DONE. reflexivity.
      * destruct (KK NE) as (K1 & K2). exists (tr ++ tr1). destruct (any_fill St rd fuel sr1 st1 buf1 (m + len bsy)) as [[[[[x sr'] st'] buf'] m']| |].
        -- destruct H as (H1 & H2 & H3 & H4). split; [exact H1|]. split; [|split; [lia|]].
           { rewrite <- app_assoc. eapply same_trans; [apply same_prefix; exact H2|exact SM]. }
           intros t [|k] K; [lia|]. rewrite <- app_assoc, STEP. apply H4. rewrite app_length in K. lia.
        -- intros t [|k] K; [lia|]. rewrite <- app_assoc, STEP. apply H. rewrite app_length in K. lia.
        -- exact H.
  - exists tr. split; [exact O1|]. split; [exact SM|]. split; [lia|]. apply ONE. intros k0 t. cbn [fill]. rewrite GO, PS. reflexivity.
  - exists tr. split; [exact O1|]. split; [exact SM|]. split; [lia|]. apply ONE. intros k t. cbn [fill]. rewrite GO, PS. reflexivity.
Qed.



Definition set_reader (r : tokio_reader) (s : script) : tokio_reader := TReader (tr_cipher r) (set_inner (tr_reader r) s) (tr_state r).

(** What a poll over the reader is on the script of its answers. *)
Definition like_poll (sr : session) (st : St) (y : run (poll (result perror payload) * tokio_reader * St * read_future))
    (z : script -> run (poll (result perror payload) * tokio_reader * read_future)) : Prop :=
  exists tr, match y with
  | Ret (x, r', st', f') => owned (tr_reader r') /\ same_items (tr ++ rest st') (rest st) /\
      (length (session_leftover (tr_reader r')) + size st' <= length (session_leftover sr) + size st)%nat /\
      forall t, z (tr ++ t) = Ret (x, set_reader r' t, f')
  | Panic => forall t, z (tr ++ t) = Panic
  | NoFuel => forall t, z (tr ++ t) = NoFuel
  end.

Lemma fill_fuel_enough sr tr t : (length tr + (match session_leftover sr with [] => 0 | _ => 1 end) + 1 < fill_fuel (set_inner sr (tr ++ t)))%nat.
Proof. destruct sr; cbn [set_inner fill_fuel]; rewrite app_length; destruct (session_leftover _); lia. Qed.

Lemma any_payload_meaning fuel c sr st pb m : owned sr -> (length (session_leftover sr) + size st < fuel)%nat ->
  like_poll sr st (any_payload St rd fuel c sr st pb m) (fun s => phase_payload c (set_inner sr s) pb m).
Proof.
  intros O F. destruct (any_fill_meaning fuel sr st pb m O F) as (tr & H). exists tr. unfold any_payload, phase_payload.
  destruct (any_fill St rd fuel sr st pb m) as [[[[[x sr'] st'] pb'] m']| |]; cbn [bind]; [|intros t; rewrite H by apply fill_fuel_enough; reflexivity|contradiction].
  destruct H as (O' & SM & SZ & H).
  assert (H' : forall t, fill (fill_fuel (set_inner sr (tr ++ t))) (set_inner sr (tr ++ t)) pb m = Ret (x, set_inner sr' t, pb', m'))
    by (intros t; apply H, fill_fuel_enough).
  destruct x as [| |e].
  - destruct (decryption_buffer_len (len pb')) as [pn| |] eqn:D; cbn [bind]; [|intros t; rewrite H'; cbn [bind]; rewrite D; reflexivity..].
    destruct (decrypt c pb' (zeros pn) None) as [[[[y|e] c'] pt]| |] eqn:DD; cbn [bind];
      [| |intros t; rewrite H'; cbn [bind]; rewrite D; cbn [bind]; rewrite DD; reflexivity..].
    + destruct (payload_decrypted pt) as [p| |] eqn:P; cbn [bind];
        [|intros t; rewrite H'; cbn [bind]; rewrite D; cbn [bind]; rewrite DD; cbn [bind]; rewrite P; reflexivity..].
      repeat split; [exact O'|exact SM|exact SZ|]. intros t. rewrite H'. cbn [bind]. rewrite D. cbn [bind]. rewrite DD. cbn [bind]. rewrite P. reflexivity.
    + repeat split; [exact O'|exact SM|exact SZ|]. intros t. rewrite H'. cbn [bind]. rewrite D. cbn [bind]. rewrite DD. reflexivity.
  - repeat split; [exact O'|exact SM|exact SZ|]. intros t. rewrite H'. reflexivity.
  - repeat split; [exact O'|exact SM|exact SZ|]. intros t. rewrite H'. reflexivity.
Qed.

Lemma any_length_meaning fuel c sr st lb m : owned sr -> (length (session_leftover sr) + size st < fuel)%nat ->
  like_poll sr st (any_length St rd fuel c sr st lb m) (fun s => phase_length c (set_inner sr s) lb m).
Proof.
  intros O F. destruct (any_fill_meaning fuel sr st lb m O F) as (tr & H). unfold any_length, phase_length.
  destruct (any_fill St rd fuel sr st lb m) as [[[[[x sr'] st'] pb'] m']| |]; cbn [bind];
    [|exists tr; intros t; rewrite H by apply fill_fuel_enough; reflexivity|contradiction].
  destruct H as (O' & SM & SZ & H).
  assert (H' : forall t, fill (fill_fuel (set_inner sr (tr ++ t))) (set_inner sr (tr ++ t)) lb m = Ret (x, set_inner sr' t, pb', m'))
    by (intros t; apply H, fill_fuel_enough).
  destruct x as [| |e].
  - destruct (decrypt_packet_len c pb') as [[pn c']| |] eqn:D; cbn [bind]; [|exists tr; intros t; rewrite H'; cbn [bind]; rewrite D; reflexivity..].
    destruct (any_payload_meaning fuel c' sr' st' (zeros pn) 0 O' ltac:(lia)) as (tr2 & H2). exists (tr ++ tr2).
    assert (H3 : forall t, (let! (x, sr0, length_bytes, bytes_read) := fill (fill_fuel (set_inner sr ((tr ++ tr2) ++ t))) (set_inner sr ((tr ++ tr2) ++ t)) lb m in
      let st0 := Futures.ReadingLength length_bytes bytes_read in
      match x with
      | Filled => let! (packet_bytes_len, c0) := decrypt_packet_len c length_bytes in phase_payload c0 sr0 (zeros packet_bytes_len) 0
      | Waiting => Ret (NotReady, TReader c sr0 st0, AtLength)
      | FillErr e => Ret (Ready (Err e), TReader c sr0 st0, FreshFuture)
      end) = phase_payload c' (set_inner sr' (tr2 ++ t)) (zeros pn) 0).
    { intros t. rewrite <- app_assoc, H'. cbn [bind]. rewrite D. reflexivity. }
    destruct (any_payload St rd fuel c' sr' st' (zeros pn) 0) as [[[[x r'] st2] f']| |].
    + destruct H2 as (O2 & SM2 & SZ2 & H2). split; [exact O2|]. split; [|split; [lia|intros t; rewrite H3; apply H2]].
      rewrite <- app_assoc. eapply same_trans; [apply same_prefix; exact SM2|exact SM].
    + intros t. rewrite H3. apply H2.
    + intros t. rewrite H3. apply H2.
  - exists tr. repeat split; [exact O'|exact SM|exact SZ|]. intros t. rewrite H'. reflexivity.
  - exists tr. repeat split; [exact O'|exact SM|exact SZ|]. intros t. rewrite H'. reflexivity.
Qed.

Lemma any_poll_meaning fuel f r st : owned (tr_reader r) -> (length (session_leftover (tr_reader r)) + size st < fuel)%nat ->
  like_poll (tr_reader r) st (any_poll_read St rd fuel f r st) (fun s => poll_read f (set_reader r s)).
Proof.
  intros O F. unfold any_poll_read, poll_read. destruct r as [c sr ds]. cbn [set_reader tr_cipher tr_reader tr_state] in *.
  destruct f, ds as [lb m|pb m]; try (apply any_length_meaning; assumption); try (apply any_payload_meaning; assumption); exists []; reflexivity.
Qed.

Lemma any_schedule_meaning fuel : forall acts f r st, owned (tr_reader r) -> (length (session_leftover (tr_reader r)) + size st < fuel)%nat ->
  exists tr, match any_schedule St rd fuel acts f r st with
  | Ret (xs, r', st', f') => owned (tr_reader r') /\ same_items (tr ++ rest st') (rest st) /\
      forall t, run_schedule acts f (set_reader r (tr ++ t)) = Ret (xs, set_reader r' t, f')
  | Panic => forall t, run_schedule acts f (set_reader r (tr ++ t)) = Panic
  | NoFuel => forall t, run_schedule acts f (set_reader r (tr ++ t)) = NoFuel
  end.
Proof.
  induction acts as [|[|] acts IH]; intros f r st O F; cbn [any_schedule run_schedule].
  - exists []. split; [exact O|]. split; [apply same_refl|reflexivity].
  - destruct (any_poll_meaning fuel f r st O F) as (tr & H).
    destruct (any_poll_read St rd fuel f r st) as [[[[x r1] st1] f1]| |]; cbn [bind]; [|exists tr; intros t; rewrite H; reflexivity..].
    destruct H as (O1 & SM & SZ & H). destruct (IH f1 r1 st1 O1 ltac:(lia)) as (tr2 & H2). exists (tr ++ tr2).
    destruct (any_schedule St rd fuel acts f1 r1 st1) as [[[[xs r2] st2] f2]| |]; cbn [bind].
    + destruct H2 as (O2 & SM2 & H2). split; [exact O2|]. split; [rewrite <- app_assoc; eapply same_trans; [apply same_prefix; exact SM2|exact SM]|].
      intros t. rewrite <- app_assoc, H. cbn [bind]. rewrite H2. reflexivity.
    + intros t. rewrite <- app_assoc, H. cbn [bind]. rewrite H2. reflexivity.
    + intros t. rewrite <- app_assoc, H. cbn [bind]. rewrite H2. reflexivity.
  - apply IH; assumption.
Qed.

End Readers.

(** ** The handshake over a reader *)

Lemma slice_shorter l a b m : slice l a b = Ret m -> len m <= len l.
Proof.
  unfold slice. destruct (_ && _)%bool; [|discriminate]. intros H. injection H as <-. autorewrite with len. lia.
Qed.

Section Handshakes.
Context {E : Env}.
Variables (fl : flavor) (decoys : option (list bytes)).

(** The place asks for at least one byte whenever it reads. *)
Definition asks (p : place) : Prop :=
  match p with
  | ReadingKey got _ => len got < NUM_ELLIGATOR_SWIFT_BYTES
  | ReadingTerminator got _ => len got < NUM_GARBAGE_TERMINTOR_BYTES
  | HsSteps.ReadingLength _ got _ => len got < NUM_LENGTH_BYTES
  | ReadingPacket _ n got _ => len got < n
  | _ => True
  end.

Definition over (p : place) : Prop := match p with Over _ => True | _ => False end.

Definition weight (p : place) : nat :=
  match p with
  | SendingKey _ _ => 8
  | FlushingKey _ => 7
  | ReadingKey _ _ => 6
  | SendingVersion _ _ => 5
  | FlushingVersion _ => 4
  | ReadingTerminator got _ => 3 + length got
  | ReadingGarbage buf _ => 2 + length buf
  | HsSteps.ReadingLength sr _ _ | ReadingPacket sr _ _ _ => 1 + length (session_leftover sr)
  | Over _ => 0
  end.

Definition given (r : read_result) : bytes := match r with Data bs => bs | ReadErr _ => [] end.

(** Where a read leads. *)
Definition onward (p : place) (got_now : nat) (q : run place) : Prop :=
  forall p', q = Ret p' -> asks p' /\ (over p' \/ (weight p' <= weight p + got_now)%nat).

Lemma scan_onward h buf p got : (length buf + 2 <= weight p + got)%nat -> onward p got (scan_garbage fl h buf).
Proof.
  intros W p' H. unfold scan_garbage in H. destruct (receive_garbage h buf) as [[[h' consumed|h']|e]| |]; cbn [bind] in H; try discriminate H.
  - destruct (slice buf consumed (len buf)) as [lo| |] eqn:SL; cbn [bind] in H; try discriminate H. injection H as <-.
    split; [reflexivity|]. right. cbn [weight].
    assert (LL : (length lo <= length buf)%nat).
    { apply slice_shorter in SL. unfold len in SL. lia. }
    destruct fl; cbn [session_reader session_leftover]; [|change (drop 0 lo) with lo]; lia.
  - injection H as <-. split; [exact I|]. right. cbn [weight]. lia.
  - injection H as <-. split; [exact I|]. left. exact I.
Qed.

Lemma packet_onward sr h pb p got : (length (session_leftover sr) + 1 <= weight p + got)%nat -> onward p got (packet_read sr h pb).
Proof.
  intros W p' H. unfold packet_read in H. destruct (receive_version h pb) as [[[[c|h']|e] v]| |]; cbn [bind] in H; try discriminate H.
  - destruct (into_split c) as [i o]. injection H as <-. split; [exact I|]. left. exact I.
  - injection H as <-. split; [reflexivity|]. right. cbn [weight]. lia.
  - injection H as <-. split; [exact I|]. left. exact I.
Qed.

Lemma length_onward sr h lb p got : (length (session_leftover sr) + 1 <= weight p + got)%nat -> onward p got (length_read sr h lb).
Proof.
  intros W p' H. unfold length_read in H. destruct (hs_decrypt_packet_len h lb) as [[n h']| |]; cbn [bind] in H; try discriminate H.
  destruct (MAX_PACKET_SIZE_FOR_ALLOCATION <? n); [injection H as <-; split; [exact I|left; exact I]|].
  destruct (N.eqb_spec n 0); [exact (packet_onward sr h' [] p got W p' H)|]. injection H as <-. split; [cbn [asks]; rewrite len_nil; lia|].
  right. cbn [weight]. lia.
Qed.

Lemma key_onward h e p got : (5 <= weight p + got)%nat -> onward p got (key_read decoys h e).
Proof.
  intros W p' H. unfold key_read in H. destruct (receive_key h e) as [[h'|er]| |]; cbn [bind] in H; try discriminate H.
  - destruct (send_version h' (zeros (send_version_len decoys)) decoys) as [[[h2|er] vb]| |]; cbn [bind] in H; try discriminate H; injection H as <-;
      (split; [exact I|]); [right; cbn [weight]; lia|left; exact I].
  - injection H as <-. split; [exact I|left; exact I].
Qed.

Lemma reading_onward k n got r again done p :
  (forall g, len g < n -> asks (again g)) -> len got < n ->
  (forall g, (length g <= length got + length (given r))%nat -> (weight (again g) <= weight p + k)%nat) ->
  (forall g, length g = (length got + length (given r))%nat -> onward p k (done g)) ->
  onward p k (reading fl n got r again done).
Proof.
  intros A1 LT A2 D p' H. destruct r as [[|b bs]|e]; cbn [reading] in H.
  - injection H as <-. split; [exact I|left; exact I].
  - destruct (N.leb_spec n (len (got ++ b :: bs))) as [G|G].
    + apply (D (got ++ b :: bs)); [apply app_length|exact H].
    + injection H as <-. split; [apply A1, G|]. right. apply A2. cbn [given]. rewrite app_length. lia.
  - destruct (retries fl e); injection H as <-; [|split; [exact I|left; exact I]]. split; [apply A1, LT|]. right. apply A2. lia.
Qed.

(** Every operation reads the transport once, or does not. *)
Lemma step_kinds p w : asks p ->
  (request p = None /\ exists q w', (forall s, hs_step fl decoys p s w = let! p' := q in Ret (p', s, w')) /\
    forall p', q = Ret p' -> asks p' /\ (over p' \/ (weight p' + length (w_script w') < weight p + length (w_script w))%nat)) \/
  (exists n K, request p = Some n /\ 0 < n /\
    (forall s, hs_step fl decoys p s w = let '(r, s') := read s n in let! p' := K r in Ret (p', s', w)) /\
    (forall r, onward p (length (given r)) (K r)) /\ forall p', K (Data []) = Ret p' -> over p').
Proof.
  intros A. destruct p as [ks h|h|got h|vs h|h|got h|buf h|sr got h|sr n got h|x].
  - left. split; [reflexivity|]. destruct (write_once fl w ks) as [x w'] eqn:W. eexists (Ret _), w'. split.
    { intros s. cbn [hs_step]. rewrite W. reflexivity. }
    intros p' Q. injection Q as <-. unfold write_once in W. destruct (w_script w) as [|[n|k|] ws] eqn:WS.
    + injection W as <- <-. split; [exact I|right; cbn; lia].
    + destruct (n =? 0); [|destruct (len ks <=? n)]; injection W as <- <-; (split; [exact I|]); [left; exact I|right; cbn; lia..].
    + destruct (retries fl k); injection W as <- <-; (split; [exact I|]); [right; cbn; lia|left; exact I].
    + injection W as <- <-. split; [exact I|right; cbn; lia].
  - left. split; [reflexivity|]. destruct (flush w) as [x w'] eqn:W. eexists (Ret _), w'. split.
    { intros s. cbn [hs_step]. rewrite W. reflexivity. }
    assert (WW : w_script w' = w_script w) by (unfold flush in W; destruct (flush_script (flushes w)); injection W as <- <-; reflexivity).
    intros p' Q. injection Q as <-. rewrite WW. destruct x; (split; [exact I || reflexivity|]); [right; cbn; lia|left; exact I].
  - right. eexists _, (fun r => reading fl NUM_ELLIGATOR_SWIFT_BYTES got r (fun got => ReadingKey got h) (key_read decoys h)).
    split; [reflexivity|]. cbn [asks] in A. split; [lia|]. split; [reflexivity|]. split.
    + intros r. apply reading_onward; [intros g G; exact G|exact A|intros g G; cbn [weight]; lia|intros g G; apply key_onward; cbn [weight]; lia].
    + intros p' Q. injection Q as <-. exact I.
  - left. split; [reflexivity|]. destruct (write_once fl w vs) as [x w'] eqn:W. eexists (Ret _), w'. split.
    { intros s. cbn [hs_step]. rewrite W. reflexivity. }
    intros p' Q. injection Q as <-. unfold write_once in W. destruct (w_script w) as [|[n|k|] ws] eqn:WS.
    + injection W as <- <-. split; [exact I|right; cbn; lia].
    + destruct (n =? 0); [|destruct (len vs <=? n)]; injection W as <- <-; (split; [exact I|]); [left; exact I|right; cbn; lia..].
    + destruct (retries fl k); injection W as <- <-; (split; [exact I|]); [right; cbn; lia|left; exact I].
    + injection W as <- <-. split; [exact I|right; cbn; lia].
  - left. split; [reflexivity|]. destruct (flush w) as [x w'] eqn:W. eexists (Ret _), w'. split.
    { intros s. cbn [hs_step]. rewrite W. reflexivity. }
    assert (WW : w_script w' = w_script w) by (unfold flush in W; destruct (flush_script (flushes w)); injection W as <- <-; reflexivity).
    intros p' Q. injection Q as <-. rewrite WW. destruct x; (split; [exact I || reflexivity|]); [right; cbn; lia|left; exact I].
  - right. eexists _, (fun r => reading fl NUM_GARBAGE_TERMINTOR_BYTES got r (fun got => ReadingTerminator got h) (scan_garbage fl h)).
    split; [reflexivity|]. cbn [asks] in A. split; [lia|]. split; [reflexivity|]. split.
    + intros r. apply reading_onward; [intros g G; exact G|exact A|intros g G; cbn [weight]; lia|intros g G; apply scan_onward; cbn [weight]; lia].
    + intros p' Q. injection Q as <-. exact I.
  - right. eexists _, (fun r => match r with Data [] => failed eof | Data bs => scan_garbage fl h (buf ++ bs) | ReadErr k => failed (from_io k) end).
    split; [reflexivity|]. split; [lia|]. split; [reflexivity|]. split.
    + intros r. destruct r as [[|b bs]|k].
      * intros p' Q. injection Q as <-. split; [exact I|left; exact I].
      * apply scan_onward. cbn [weight given]. rewrite app_length. lia.
      * intros p' Q. injection Q as <-. split; [exact I|left; exact I].
    + intros p' Q. injection Q as <-. exact I.
  - cbn [asks] in A. destruct (session_leftover sr) as [|lb lo] eqn:L.
    + right. destruct (empty_read sr L) as (sr1 & L1 & ER).
      exists (NUM_LENGTH_BYTES - len got), (fun r => reading fl NUM_LENGTH_BYTES got r (fun got => HsSteps.ReadingLength (set_inner sr1 []) got h) (length_read (set_inner sr1 []) h)).
      split; [cbn [request]; rewrite L; reflexivity|]. split; [lia|]. split.
      { intros s. cbn [hs_step]. rewrite ER. destruct (read s (NUM_LENGTH_BYTES - len got)) as [r s']. cbn [fst snd]. rewrite set_inner_twice, inner_set. reflexivity. }
      split.
      * intros r. apply reading_onward; [intros g G; exact G|exact A|intros g G; cbn [weight]; rewrite leftover_set, L1, L; cbn [length]; lia|].
        intros g G. apply length_onward. cbn [weight]. rewrite leftover_set, L1, L. cbn [length]. lia.
      * intros p' Q. injection Q as <-. exact I.
    + left. split; [cbn [request]; rewrite L; reflexivity|].
      destruct (leftover_read sr (NUM_LENGTH_BYTES - len got)) as (bs & sr1 & NE & LE & LO & _ & RD); [rewrite L; discriminate|lia|].
      exists (reading fl NUM_LENGTH_BYTES got (Data bs) (fun got => HsSteps.ReadingLength (set_inner sr1 []) got h) (length_read (set_inner sr1 []) h)), w. split.
      { intros s. cbn [hs_step]. rewrite RD, set_inner_twice, inner_set. reflexivity. }
      assert (Z : (1 <= length bs)%nat) by (destruct bs; [contradiction|cbn; lia]).
      assert (O : onward (HsSteps.ReadingLength (set_inner sr1 []) got h) 0
        (reading fl NUM_LENGTH_BYTES got (Data bs) (fun got => HsSteps.ReadingLength (set_inner sr1 []) got h) (length_read (set_inner sr1 []) h))).
      { apply reading_onward; [intros g G; exact G|exact A|intros g G; cbn [weight]; lia|intros g G; apply length_onward; cbn [weight]; lia]. }
      intros p' Q. destruct (O p' Q) as (O1 & O2). split; [exact O1|]. destruct O2 as [O2|O2]; [left; exact O2|right].
      cbn [weight] in O2 |- *. rewrite leftover_set in O2. rewrite LO, app_length. lia.
  - cbn [asks] in A. destruct (session_leftover sr) as [|lb lo] eqn:L.
    + right. destruct (empty_read sr L) as (sr1 & L1 & ER).
      exists (n - len got), (fun r => reading fl n got r (fun got => ReadingPacket (set_inner sr1 []) n got h) (packet_read (set_inner sr1 []) h)).
      split; [cbn [request]; rewrite L; reflexivity|]. split; [lia|]. split.
      { intros s. cbn [hs_step]. rewrite ER. destruct (read s (n - len got)) as [r s']. cbn [fst snd]. rewrite set_inner_twice, inner_set. reflexivity. }
      split.
      * intros r. apply reading_onward; [intros g G; exact G|exact A|intros g G; cbn [weight]; rewrite leftover_set, L1, L; cbn [length]; lia|].
        intros g G. apply packet_onward. cbn [weight]. rewrite leftover_set, L1, L. cbn [length]. lia.
      * intros p' Q. injection Q as <-. exact I.
    + left. split; [cbn [request]; rewrite L; reflexivity|].
      destruct (leftover_read sr (n - len got)) as (bs & sr1 & NE & LE & LO & _ & RD); [rewrite L; discriminate|lia|].
      exists (reading fl n got (Data bs) (fun got => ReadingPacket (set_inner sr1 []) n got h) (packet_read (set_inner sr1 []) h)), w. split.
      { intros s. cbn [hs_step]. rewrite RD, set_inner_twice, inner_set. reflexivity. }
      assert (Z : (1 <= length bs)%nat) by (destruct bs; [contradiction|cbn; lia]).
      assert (O : onward (ReadingPacket (set_inner sr1 []) n got h) 0
        (reading fl n got (Data bs) (fun got => ReadingPacket (set_inner sr1 []) n got h) (packet_read (set_inner sr1 []) h))).
      { apply reading_onward; [intros g G; exact G|exact A|intros g G; cbn [weight]; lia|intros g G; apply packet_onward; cbn [weight]; lia]. }
      intros p' Q. destruct (O p' Q) as (O1 & O2). split; [exact O1|]. destruct O2 as [O2|O2]; [left; exact O2|right].
      cbn [weight] in O2 |- *. rewrite leftover_set in O2. rewrite LO, app_length. lia.
  - left. split; [reflexivity|]. exists (Ret (Over x)), w. split; [reflexivity|]. intros p' Q. injection Q as <-. split; [exact I|left; exact I].
Qed.

Variables (St : Type) (rd : St -> N -> option read_result * St) (rest : St -> script) (size : St -> nat).
Hypothesis faith : faithful rd rest size.

Definition total (p : place) (st : St) (w : writer) : nat := weight p + length (w_script w) + 2 * size st.

Lemma any_step_meaning p st w : asks p ->
  exists tr, match any_step St rd fl decoys p st w with
  | Ret (p', st', w') => asks p' /\ (over p' \/ (total p' st' w' < total p st w)%nat) /\ same_items (tr ++ rest st') (rest st) /\
      exists k, forall t, hs_steps k fl decoys p (tr ++ t) w = Ret (p', t, w')
  | Panic => (exists u, same_items (tr ++ u) (rest st)) /\ forall t, hs_step fl decoys p (tr ++ t) w = Panic
  | NoFuel => forall t, hs_step fl decoys p (tr ++ t) w = NoFuel
  end.
Proof.
  intros A. unfold any_step. destruct (step_kinds p w A) as [(R & q & w' & H & D)|(n & K & R & N0 & H & O & Z)]; rewrite R.
  - exists []. rewrite H. destruct q as [p'| |]; cbn [bind]; [|split; [exists (rest st); apply same_refl|intros t; apply H]|intros t; apply H]. destruct (D p' eq_refl) as (A' & D').
    split; [exact A'|]. split; [destruct D' as [D'|D']; [left; exact D'|right; unfold total; lia]|]. split; [apply same_refl|].
    exists 1%nat. intros t. cbn [hs_steps app]. rewrite H. reflexivity.
  - destruct (rd st n) as [[r|] st'] eqn:RD; destruct (faith _ _ _ _ N0 RD) as (SM & SZ).
    + exists (answer_script r).
      assert (RA : forall t, read (answer_script r ++ t) n = (r, t)) by (intros t; apply read_answer; destruct r; [apply SZ|exact I]).
      assert (RA0 : read (answer_script r) n = (r, [])) by (rewrite <- (app_nil_r (answer_script r)); apply RA).
      rewrite H, RA0. destruct (K r) as [p'| |] eqn:KR; cbn [bind]; [|split; [exists (rest st'); exact SM|]; intros t; rewrite H, RA, KR; reflexivity|intros t; rewrite H, RA, KR; reflexivity].
      destruct (O r p' KR) as (A' & D'). split; [exact A'|]. split.
      { destruct D' as [D'|D']; [left; exact D'|]. destruct r as [[|b bs]|e].
        - left. exact (Z p' KR).
        - right. unfold total. cbn [given length] in D'. destruct SZ as (_ & SZ). cbn [length] in SZ. lia.
        - right. unfold total. cbn [given length] in D'. lia. }
      split; [exact SM|]. exists 1%nat. intros t. cbn [hs_steps]. rewrite H, RA, KR. reflexivity.
    + exists []. split; [exact A|]. split; [right; unfold total; lia|]. split.
      { destruct SM as (k & SM). exists k. exact SM. }
      exists 0%nat. reflexivity.
Qed.

Lemma over_stays n x st w : any_steps St rd n fl decoys (Over x) st w = Ret (Over x, st, w).
Proof. induction n as [|n IH]; [reflexivity|]. cbn [any_steps any_step request hs_step bind]. exact IH. Qed.

Lemma any_steps_meaning : forall n p st w, asks p ->
  exists tr, match any_steps St rd n fl decoys p st w with
  | Ret (p', st', w') => (over p' \/ (total p' st' w' + n <= total p st w)%nat) /\ same_items (tr ++ rest st') (rest st) /\
      exists k, forall t, hs_steps k fl decoys p (tr ++ t) w = Ret (p', t, w')
  | Panic => (exists u, same_items (tr ++ u) (rest st)) /\ exists k, forall t, hs_steps k fl decoys p (tr ++ t) w = Panic
  | NoFuel => exists k, forall t, hs_steps k fl decoys p (tr ++ t) w = NoFuel
  end.
Proof.
  induction n as [|n IH]; intros p st w A; cbn [any_steps].
  - exists []. split; [right; lia|]. split; [apply same_refl|]. exists 0%nat. reflexivity.
  - destruct (any_step_meaning p st w A) as (tr & H). destruct (any_step St rd fl decoys p st w) as [[[p1 st1] w1]| |]; cbn [bind].
    2: destruct H as (U & H); exists tr; split; [exact U|].
    2,3: exists 1%nat || exists tr, 1%nat; intros t; cbn [hs_steps]; rewrite H; reflexivity.
    destruct H as (A1 & D & SM & k & H). destruct (IH p1 st1 w1 A1) as (tr2 & H2). exists (tr ++ tr2).
    destruct (any_steps St rd n fl decoys p1 st1 w1) as [[[p2 st2] w2]| |] eqn:Q.
    + destruct H2 as (D2 & SM2 & k2 & H2). split; [|split].
      * destruct D2 as [D2|D2]; [left; exact D2|]. destruct D as [D|D]; [|right; lia]. destruct p1; try contradiction. rewrite over_stays in Q. injection Q as <- _ _. left. exact I.
      * rewrite <- app_assoc. eapply same_trans; [apply same_prefix; exact SM2|exact SM].
      * exists (k + k2)%nat. intros t. rewrite <- app_assoc, hs_steps_app, H. cbn [bind]. apply H2.
    + destruct H2 as ((u & U) & k2 & H2). split; [exists u; rewrite <- app_assoc; eapply same_trans; [apply same_prefix; exact U|exact SM]|]. exists (k + k2)%nat. intros t. rewrite <- app_assoc, hs_steps_app, H. cbn [bind]. apply H2.
    + destruct H2 as (k2 & H2). exists (k + k2)%nat. intros t. rewrite <- app_assoc, hs_steps_app, H. cbn [bind]. apply H2.
Qed.

End Handshakes.
