(** * PipesProofs: two endpoints joined by bounded pipes *)
From Coq Require Import List NArith Bool Lia.
From Coq.Strings Require Import Byte.
From Coq Require Import ZifyBool ZifyNat ZifyN.
From Verif Require Import Base BaseFacts Env FsChacha Cipher Histories Handshake SpecHandshake HsDriver HandshakeProofs HsRunProofs
  Transport Io SpecIo Sessions TransportProofs IoProofs IoRunProofs SessionProofs EndpointProofs HsSteps HsStepsProofs SpecPipes.
Import ListNotations.
Local Open Scope N_scope.

(** ** Single reads *)

Lemma unread_chunk c : unread [Chunk c] = c.
Proof. unfold unread. destruct c; cbn [flatten fst]; [reflexivity|]. apply app_nil_r. Qed.

Lemma nonempty_len (l : bytes) : l <> [] <-> 0 < len l.
Proof. destruct l; rewrite ?len_nil, ?len_cons; split; intros; try lia; try congruence; discriminate. Qed.

Lemma read_one c n : 0 < n -> c <> [] ->
  exists bs s', read [Chunk c] n = (Data bs, s') /\ bs <> [] /\ len bs <= n /\ c = bs ++ unread s' /\
    forall s, read (Chunk bs :: s) n = (Data bs, s).
Proof.
  intros Hn Hc. cbn [read]. destruct (N.leb_spec (len c) n) as [L|L].
  - exists c, []. cbn [unread flatten fst]. repeat split; auto. { unfold unread. cbn. now rewrite app_nil_r. }
    intros s. cbn [read]. rewrite (proj2 (N.leb_le _ _) L). reflexivity.
  - exists (take n c), [Chunk (drop n c)]. rewrite unread_chunk, take_drop.
    apply nonempty_len in Hc. repeat split; auto.
    + apply nonempty_len. rewrite len_take. lia.
    + rewrite len_take. lia.
    + intros s. cbn [read]. assert (len (take n c) <= n) as Q by (rewrite len_take; lia).
      rewrite (proj2 (N.leb_le _ _) Q). reflexivity.
Qed.

Lemma session_read_one sr c n : session_leftover sr = [] -> 0 < n -> c <> [] ->
  exists bs sr', session_read (set_inner sr [Chunk c]) n = (Data bs, sr') /\ bs <> [] /\ len bs <= n /\
    c = bs ++ unread (inner sr') /\ session_leftover sr' = [] /\
    forall s, session_read (set_inner sr (Chunk bs :: s)) n = (Data bs, set_inner sr' s).
Proof.
  intros Hl Hn Hc. destruct (read_one c n Hn Hc) as (bs & s' & R & Hb & Lb & Q & R').
  destruct sr as [cur [|] s|l pos s]; cbn [set_inner session_leftover] in *.
  - exists bs, (ChainReader cur true s'). cbn [session_read]. rewrite R. repeat split; auto.
    intros s0. rewrite R'. reflexivity.
  - subst cur. exists bs, (ChainReader [] true s'). cbn [session_read]. rewrite R. repeat split; auto.
    intros s0. rewrite R'. reflexivity.
  - exists bs, (TokioReader l pos s'). assert (pos <? len l = false) as L.
    { apply N.ltb_ge. apply (f_equal len) in Hl. rewrite len_drop, len_nil in Hl. lia. }
    cbn [session_read]. rewrite L, R. repeat split; auto. intros s0. rewrite R'. reflexivity.
Qed.

Lemma session_read_left sr n : session_leftover sr <> [] -> 0 < n ->
  exists bs sr', bs <> [] /\ len bs <= n /\ (forall s, session_read (set_inner sr s) n = (Data bs, set_inner sr' s)) /\
    session_leftover sr = bs ++ session_leftover sr'.
Proof.
  intros Hl Hn. destruct sr as [cur [|] s|l pos s]; cbn [set_inner session_leftover] in *; [contradiction| |].
  - destruct cur as [|b cur]; [contradiction|]. exists (take n (b :: cur)), (ChainReader (drop n (b :: cur)) false []).
    repeat split.
    + apply nonempty_len. rewrite len_take, len_cons. lia.
    + rewrite len_take. lia.
    + cbn [session_leftover]. now rewrite take_drop.
  - apply nonempty_len in Hl. rewrite len_drop in Hl. set (m := N.min (len (drop pos l)) n).
    exists (take m (drop pos l)), (TokioReader l (pos + m) []). repeat split.
    + apply nonempty_len. rewrite len_take. subst m. rewrite len_drop. lia.
    + rewrite len_take. lia.
    + intros s0. cbn [session_read set_inner]. rewrite (proj2 (N.ltb_lt _ _)) by lia. reflexivity.
    + cbn [session_leftover]. rewrite <- drop_drop. now rewrite take_drop.
Qed.

Section WithEnv.
Context {E : Env}.

(** ** One turn *)

(** More is wanted by a [read_exact]. *)
Definition wanting (p : place) : Prop :=
  match p with
  | ReadingKey got _ => len got < 64
  | ReadingTerminator got _ => len got < 16
  | ReadingLength _ got _ => len got < 3
  | ReadingPacket _ n got _ => len got < n
  | Over (Err e) => exists y, e = Internal y
  | _ => True
  end.

(** Bytes read that may be looked at again, and the operations other than reads. *)
Definition weight (p : place) : N :=
  match p with
  | SendingKey _ _ => 4
  | FlushingKey _ => 3
  | ReadingKey _ _ => 2
  | SendingVersion _ _ => 2
  | FlushingVersion _ => 1
  | ReadingTerminator got _ => len got
  | ReadingGarbage buf _ => len buf
  | ReadingLength sr _ _ | ReadingPacket sr _ _ _ => len (session_leftover sr)
  | Over _ => 0
  end.

Definition fine (p : place) (k : N) : Prop := wanting p /\ weight p <= k.

Lemma fine_failed y p k : failed (Internal y) = Ret p -> fine p k.
Proof. intros H. injection H as <-. split; [now exists y|]. cbn. lia. Qed.

Lemma key_read_fine d h k p : key_read d h k = Ret p -> fine p 2.
Proof.
  unfold key_read. intros H. apply bind_ret_inv in H. destruct H as ([h1|e] & _ & H); [|eapply fine_failed, H].
  apply bind_ret_inv in H. destruct H as ([[h2|e] vb] & _ & H); [|eapply fine_failed, H].
  injection H as <-. split; [exact I|]. cbn. lia.
Qed.

Lemma leftover_new fl l : session_leftover (session_reader fl l []) = l.
Proof. destruct fl; reflexivity. Qed.

Lemma scan_garbage_fine fl h buf p : scan_garbage fl h buf = Ret p -> fine p (len buf).
Proof.
  unfold scan_garbage. intros H. apply bind_ret_inv in H. destruct H as ([[h1 n|h1]|e] & _ & H); [| |eapply fine_failed, H].
  - apply bind_ret_inv in H. destruct H as (l & Sl & H). injection H as <-.
    split; cbn [wanting weight]. { rewrite len_nil. lia. }
    rewrite leftover_new. unfold slice in Sl. destruct (_ && _)%bool; [|discriminate]. injection Sl as <-. rewrite len_take, len_drop. lia.
  - injection H as <-. split; [exact I|]. cbn. lia.
Qed.

Lemma packet_read_fine sr h bs p : packet_read sr h bs = Ret p -> fine p (len (session_leftover sr)).
Proof.
  unfold packet_read. intros H. apply bind_ret_inv in H. destruct H as ([[[c|h1]|e] buf] & _ & H); [| |eapply fine_failed, H].
  - destruct (into_split c) as [i o]. injection H as <-. split; [exact I|]. cbn. lia.
  - injection H as <-. split; cbn [wanting weight]; [|lia]. rewrite len_nil. lia.
Qed.

Lemma length_read_fine sr h bs p : length_read sr h bs = Ret p -> fine p (len (session_leftover sr)).
Proof.
  unfold length_read. intros H. apply bind_ret_inv in H. destruct H as ([n h1] & _ & H).
  destruct (_ <? n); [eapply fine_failed, H|]. destruct (N.eqb_spec n 0); [eapply packet_read_fine, H|].
  injection H as <-. split; cbn [wanting weight]; [|lia]. rewrite len_nil. lia.
Qed.

(** What a turn amounts to for an endpoint that runs on a script. *)
Inductive replays (fl : flavor) (d : option (list bytes)) (p p' : place) : bytes -> bytes -> Prop :=
| replays_write m out : wants_output p = true -> m <> 0 ->
    (forall s wt wr, hs_step fl d p s (Writer (Accept m :: wt) [] wr) = Ret (p', s, Writer wt [] (wr ++ out))) ->
    replays fl d p p' [] out
| replays_read bs : wants_input p = true -> bs <> [] ->
    (forall s w, hs_step fl d p (Chunk bs :: s) w = Ret (p', s, w)) -> replays fl d p p' bs []
| replays_local : wants_output p = false -> wants_input p = false -> is_over p = false ->
    (forall s wt wr, hs_step fl d p s (Writer wt [] wr) = Ret (p', s, Writer wt [] wr)) -> replays fl d p p' [] [].

Lemma reading_data fl n got bs again done : bs <> [] ->
  reading fl n got (Data bs) again done =
  if n <=? len (got ++ bs) then done (got ++ bs) else Ret (again (got ++ bs)).
Proof. intros Hb. destruct bs; [contradiction|reflexivity]. Qed.

Lemma set_inner_leftover sr s : session_leftover (set_inner sr s) = session_leftover sr.
Proof. destruct sr as [c [|] s0|l p s0]; reflexivity. Qed.

Lemma set_inner_twice sr s s' : set_inner (set_inner sr s) s' = set_inner sr s'.
Proof. destruct sr; reflexivity. Qed.

Lemma inner_set sr s : inner (set_inner sr s) = s.
Proof. destruct sr; reflexivity. Qed.

Lemma turn_replays fl d p inc room p' inc' out :
  wanting p -> turn fl d p inc room p' inc' out ->
  exists bs, inc = bs ++ inc' /\ len out <= room /\ replays fl d p p' bs out /\ wanting p' /\
    weight p' + 1 <= weight p + 2 * len bs + len out.
Proof.
  intros Wp T. destruct T as [m p' s' w' WO Hm H|m p' s' w' WI Hm H|p' s' w' WO WI NO H].
  - exists []. cbn [app]. change (len (@nil byte)) with 0. split; [reflexivity|].
    assert (Q : forall (rest : bytes) again done, hs_step fl d p [] (Writer [Accept m] [] []) =
        (let '(x, w) := write_once fl (Writer [Accept m] [] []) rest in
         Ret (match x with AllWritten => done | MoreToWrite rest => again rest | WriteFailed k => Over (Err (from_io k)) end, [], w)) ->
        (forall s w, hs_step fl d p s w =
         (let '(x, w) := write_once fl w rest in
          Ret (match x with AllWritten => done | MoreToWrite rest => again rest | WriteFailed k => Over (Err (from_io k)) end, s, w))) ->
        wanting done -> (forall r, wanting (again r)) -> weight done + 1 <= weight p -> (forall r, weight (again r) = weight p) ->
        len (written w') <= room /\ replays fl d p p' [] (written w') /\ wanting p' /\
        weight p' + 1 <= weight p + 2 * 0 + len (written w')).
    { intros rest again done Q1 Q2 W1 W2 Z1 Z2. rewrite Q1 in H. unfold write_once in H. cbn [w_script flushes written app] in H.
      destruct (N.eqb_spec m 0); [lia|]. destruct (N.leb_spec (len rest) m) as [L|L]; injection H as <- <- <-; cbn [written].
      - split; [lia|]. split; [|split; [assumption|lia]]. apply (replays_write _ _ _ _ m); [assumption|lia|].
        intros. rewrite Q2. unfold write_once. cbn [w_script app flushes written]. rewrite (proj2 (N.eqb_neq _ _)) by lia.
        rewrite (proj2 (N.leb_le _ _) L). reflexivity.
      - rewrite len_take. split; [lia|]. split; [|split; [apply W2|rewrite Z2; lia]]. apply (replays_write _ _ _ _ m); [assumption|lia|].
        intros. rewrite Q2. unfold write_once. cbn [w_script app flushes written]. rewrite (proj2 (N.eqb_neq _ _)) by lia.
        rewrite (proj2 (N.leb_gt _ _) L). reflexivity. }
    destruct p as [rest h|h|got h|rest h|h|got h|buf h|sr got h|sr n got h|x]; try discriminate WO.
    + apply (Q rest (fun r => SendingKey r h) (FlushingKey h)); cbn; auto; lia.
    + apply (Q rest (fun r => SendingVersion r h) (FlushingVersion h)); cbn; auto; lia.
  - assert (take m inc <> []) as Hc by (apply nonempty_len; rewrite len_take; lia).
    assert (Fin : forall bs u, take m inc = bs ++ u -> inc = bs ++ u ++ drop m inc).
    { intros bs u Q. rewrite <- (take_drop m inc) at 1. rewrite Q. now rewrite <- app_assoc. }
    change (len (@nil byte)) with 0.
    destruct p as [rest h|h|got h|rest h|h|got h|buf h|sr got h|sr n got h|x]; try discriminate WI; cbn [wanting] in Wp.
    + destruct (read_one (take m inc) (64 - len got)) as (bs & s1 & R & Hb & Lb & Q & R'); [lia|assumption|].
      exists bs. cbn [hs_step] in H. change NUM_ELLIGATOR_SWIFT_BYTES with 64 in H. rewrite R, reading_data in H by assumption.
      apply bind_ret_inv in H. destruct H as (p1 & P & H). injection H as <- <- <-.
      split; [auto|]. split; [lia|]. apply nonempty_len in Hb as Lb'. split; [|split].
      * apply replays_read; [assumption..|]. intros s w. cbn [hs_step]. change NUM_ELLIGATOR_SWIFT_BYTES with 64.
        rewrite R', reading_data, P by assumption. reflexivity.
      * destruct (N.leb_spec 64 (len (got ++ bs))); [eapply key_read_fine, P|]. injection P as <-. assumption.
      * destruct (N.leb_spec 64 (len (got ++ bs))).
        -- apply key_read_fine in P. destruct P as [_ P]. cbn [weight]. lia.
        -- injection P as <-. cbn [weight]. lia.
    + destruct (read_one (take m inc) (16 - len got)) as (bs & s1 & R & Hb & Lb & Q & R'); [lia|assumption|].
      exists bs. cbn [hs_step] in H. change NUM_GARBAGE_TERMINTOR_BYTES with 16 in H. rewrite R, reading_data in H by assumption.
      apply bind_ret_inv in H. destruct H as (p1 & P & H). injection H as <- <- <-.
      split; [auto|]. split; [lia|]. apply nonempty_len in Hb as Lb'. split; [|split].
      * apply replays_read; [assumption..|]. intros s w. cbn [hs_step]. change NUM_GARBAGE_TERMINTOR_BYTES with 16.
        rewrite R', reading_data, P by assumption. reflexivity.
      * destruct (N.leb_spec 16 (len (got ++ bs))); [eapply scan_garbage_fine, P|]. injection P as <-. assumption.
      * rewrite len_app in P. cbn [weight]. destruct (N.leb_spec 16 (len got + len bs)).
        -- apply scan_garbage_fine in P. destruct P as [_ P]. rewrite len_app in P. lia.
        -- injection P as <-. cbn [weight]. rewrite len_app. lia.
    + destruct (read_one (take m inc) 256) as (bs & s1 & R & Hb & Lb & Q & R'); [lia|assumption|].
      exists bs. cbn [hs_step] in H. rewrite R in H.
      assert (B : forall A (x y : A), match bs with [] => x | _ => y end = y) by (intros; destruct bs; [contradiction|reflexivity]).
      rewrite B in H.
      apply bind_ret_inv in H. destruct H as (p1 & P & H). injection H as <- <- <-.
      split; [auto|]. split; [lia|]. apply nonempty_len in Hb as Lb'. split; [|split].
      * apply replays_read; [assumption..|]. intros s w. cbn [hs_step]. rewrite R', B, P. reflexivity.
      * eapply scan_garbage_fine, P.
      * apply scan_garbage_fine in P. destruct P as [_ P]. rewrite len_app in P. cbn [weight]. lia.
    + cbn [wants_input] in WI. assert (session_leftover sr = []) as Hl by (destruct (session_leftover sr); [reflexivity|discriminate]).
      destruct (session_read_one sr (take m inc) (3 - len got) Hl) as (bs & sr1 & R & Hb & Lb & Q & L1 & R'); [lia|assumption|].
      exists bs. cbn [hs_step] in H. change NUM_LENGTH_BYTES with 3 in H. rewrite R, reading_data in H by assumption.
      apply bind_ret_inv in H. destruct H as (p1 & P & H). injection H as <- <- <-.
      split; [auto|]. split; [lia|]. apply nonempty_len in Hb as Lb'. split; [|split].
      * apply replays_read; [assumption..|]. intros s w. cbn [hs_step]. change NUM_LENGTH_BYTES with 3.
        rewrite R', reading_data, set_inner_twice, P, inner_set by assumption. reflexivity.
      * destruct (N.leb_spec 3 (len (got ++ bs))); [eapply length_read_fine, P|]. injection P as <-. assumption.
      * destruct (N.leb_spec 3 (len (got ++ bs))).
        -- apply length_read_fine in P. destruct P as [_ P]. cbn [weight]. rewrite set_inner_leftover, L1, len_nil in P. lia.
        -- injection P as <-. cbn [weight]. rewrite set_inner_leftover, L1, len_nil. lia.
    + cbn [wants_input] in WI. assert (session_leftover sr = []) as Hl by (destruct (session_leftover sr); [reflexivity|discriminate]).
      destruct (session_read_one sr (take m inc) (n - len got) Hl) as (bs & sr1 & R & Hb & Lb & Q & L1 & R'); [lia|assumption|].
      exists bs. cbn [hs_step] in H. rewrite R, reading_data in H by assumption.
      apply bind_ret_inv in H. destruct H as (p1 & P & H). injection H as <- <- <-.
      split; [auto|]. split; [lia|]. apply nonempty_len in Hb as Lb'. split; [|split].
      * apply replays_read; [assumption..|]. intros s w. cbn [hs_step].
        rewrite R', reading_data, set_inner_twice, P, inner_set by assumption. reflexivity.
      * destruct (N.leb_spec n (len (got ++ bs))); [eapply packet_read_fine, P|]. injection P as <-. assumption.
      * destruct (N.leb_spec n (len (got ++ bs))).
        -- apply packet_read_fine in P. destruct P as [_ P]. cbn [weight]. rewrite set_inner_leftover, L1, len_nil in P. lia.
        -- injection P as <-. cbn [weight]. rewrite set_inner_leftover, L1, len_nil. lia.
  - exists []. cbn [app]. change (len (@nil byte)) with 0. split; [reflexivity|]. split; [lia|].
    destruct p as [rest h|h|got h|rest h|h|got h|buf h|sr got h|sr n got h|x]; try discriminate; cbn [wanting wants_input] in *.
    + cbn [hs_step flush flushes] in H. injection H as <- <- <-. split; [|split; [cbn; lia|cbn; lia]].
      apply replays_local; [reflexivity..|]. reflexivity.
    + cbn [hs_step flush flushes] in H. injection H as <- <- <-. split; [|split; [cbn; lia|cbn; lia]].
      apply replays_local; [reflexivity..|]. reflexivity.
    + destruct (session_read_left sr (3 - len got)) as (bs & sr1 & Hb & Lb & R & Q); [destruct (session_leftover sr); discriminate|lia|].
      cbn [hs_step] in H. change NUM_LENGTH_BYTES with 3 in H. rewrite R, reading_data, set_inner_twice in H by assumption.
      apply bind_ret_inv in H. destruct H as (p1 & P & H). injection H as <- <- <-.
      apply nonempty_len in Hb as Lb'. assert (len (session_leftover sr) = len bs + len (session_leftover sr1)) as Z by (rewrite Q; apply len_app).
      split; [|split].
      * apply replays_local; [reflexivity|assumption|reflexivity|]. intros s wt wr. cbn [hs_step]. change NUM_LENGTH_BYTES with 3.
        rewrite R, reading_data, set_inner_twice, P, inner_set by assumption. reflexivity.
      * destruct (N.leb_spec 3 (len (got ++ bs))); [eapply length_read_fine, P|]. injection P as <-. assumption.
      * destruct (N.leb_spec 3 (len (got ++ bs))).
        -- apply length_read_fine in P. destruct P as [_ P]. cbn [weight]. rewrite set_inner_leftover in P. lia.
        -- injection P as <-. cbn [weight]. rewrite set_inner_leftover. lia.
    + destruct (session_read_left sr (n - len got)) as (bs & sr1 & Hb & Lb & R & Q); [destruct (session_leftover sr); discriminate|lia|].
      cbn [hs_step] in H. rewrite R, reading_data, set_inner_twice in H by assumption.
      apply bind_ret_inv in H. destruct H as (p1 & P & H). injection H as <- <- <-.
      apply nonempty_len in Hb as Lb'. assert (len (session_leftover sr) = len bs + len (session_leftover sr1)) as Z by (rewrite Q; apply len_app).
      split; [|split].
      * apply replays_local; [reflexivity|assumption|reflexivity|]. intros s wt wr. cbn [hs_step].
        rewrite R, reading_data, set_inner_twice, P, inner_set by assumption. reflexivity.
      * destruct (N.leb_spec n (len (got ++ bs))); [eapply packet_read_fine, P|]. injection P as <-. assumption.
      * destruct (N.leb_spec n (len (got ++ bs))).
        -- apply packet_read_fine in P. destruct P as [_ P]. cbn [weight]. rewrite set_inner_leftover in P. lia.
        -- injection P as <-. cbn [weight]. rewrite set_inner_leftover. lia.
Qed.

(** ** Many turns of one endpoint whose peer sends [theirs] *)

Lemma hs_steps_app fl d n m p s w :
  hs_steps (n + m) fl d p s w = let! (p, s, w) := hs_steps n fl d p s w in hs_steps m fl d p s w.
Proof.
  revert p s w. induction n as [|n IH]; intros p s w; [reflexivity|]. cbn [Nat.add hs_steps].
  destruct (hs_step fl d p s w) as [[[p1 s1] w1]| |]; cbn [bind]; auto.
Qed.

Lemma hs_steps_over fl d n x s w : hs_steps n fl d (Over x) s w = Ret (Over x, s, w).
Proof. induction n as [|n IH]; [reflexivity|]. cbn [hs_steps hs_step bind]. exact IH. Qed.

Lemma hs_step_written fl d p s ws fs wr :
  hs_step fl d p s (Writer ws fs wr) =
  let! (p', s', w') := hs_step fl d p s (Writer ws fs []) in Ret (p', s', Writer (w_script w') (flushes w') (wr ++ written w')).
Proof.
  destruct p as [rest h|h|got h|rest h|h|got h|buf h|sr got h|sr n got h|x]; cbn [hs_step].
  1,4: unfold write_once; cbn [w_script flushes written]; destruct ws as [|[n|k|] ws]; cbn [bind w_script flushes written app];
    rewrite ?app_nil_r; auto; destruct (n =? 0); cbn [bind w_script flushes written app]; rewrite ?app_nil_r; auto;
    destruct (len rest <=? n); reflexivity.
  1,3: unfold flush; cbn [w_script flushes written]; destruct (flush_script fs) as [x fs']; destruct x; cbn; rewrite ?app_nil_r; reflexivity.
  1,2,3: destruct (read _ _) as [rr s1]; match goal with |- (let! p := ?q in _) = _ => destruct q end; cbn; rewrite ?app_nil_r; reflexivity.
  1,2: destruct (session_read _ _) as [rr s1]; match goal with |- (let! p := ?q in _) = _ => destruct q end; cbn; rewrite ?app_nil_r; reflexivity.
  cbn. now rewrite app_nil_r.
Qed.

Definition sound_writes (ws : list wev) : Prop :=
  Forall (fun ev => match ev with Accept n => n <> 0 | WFail _ => False | WPending => True end) ws.

Lemma flatten_chunks fl rs : Forall (fun c : bytes => c <> []) rs -> flatten fl (map Chunk rs) = (List.concat rs, Closed).
Proof.
  induction 1 as [|c rs Hc _ IH]; [reflexivity|]. cbn [map flatten List.concat]. rewrite IH. destruct c; [contradiction|reflexivity].
Qed.

Lemma calm_chunks fl rs : calm fl (map Chunk rs).
Proof. intros _. apply Forall_forall. intros ev H. apply in_map_iff in H. destruct H as (c & <- & _). discriminate. Qed.

Lemma starved fl d p w : wanting p -> wants_input p = true -> exists e, hs_step fl d p [] w = Ret (Over (Err e), [], w).
Proof.
  destruct p as [rest h|h|got h|rest h|h|got h|buf h|sr got h|sr n got h|x]; try discriminate; cbn [hs_step wanting wants_input]; intros W WI.
  1,2,3: cbn [read reading bind failed]; eauto.
  1,2: assert (session_leftover sr = []) as Hl by (destruct (session_leftover sr); [reflexivity|discriminate]);
    destruct sr as [c [|] s|l p s]; cbn [set_inner session_leftover] in *; subst; cbn [session_read read];
    try (assert (p <? len l = false) as -> by (apply N.ltb_ge; apply (f_equal len) in Hl; rewrite len_drop, len_nil in Hl; lia));
    cbn [reading bind failed inner]; eauto.
Qed.

(** Reads of packets lead to further reads of packets. *)
Definition late (q : place) : Prop :=
  match q with
  | SendingKey _ _ | FlushingKey _ | ReadingKey _ _ | SendingVersion _ _ | FlushingVersion _ => False
  | _ => True
  end.

Lemma packet_read_late sr h bs p : packet_read sr h bs = Ret p -> late p.
Proof.
  unfold packet_read. intros H. apply bind_ret_inv in H. destruct H as ([[[c|h1]|e] buf] & _ & H).
  - destruct (into_split c) as [i o]. now injection H as <-.
  - now injection H as <-.
  - now injection H as <-.
Qed.

Lemma length_read_late sr h bs p : length_read sr h bs = Ret p -> late p.
Proof.
  unfold length_read. intros H. apply bind_ret_inv in H. destruct H as ([n h1] & _ & H).
  destruct (_ <? n); [now injection H as <-|]. destruct (N.eqb_spec n 0); [eapply packet_read_late, H|]. now injection H as <-.
Qed.

Lemma scan_garbage_late fl h buf p : scan_garbage fl h buf = Ret p -> late p.
Proof.
  unfold scan_garbage. intros H. apply bind_ret_inv in H. destruct H as ([[h2 n|h2]|e] & _ & H).
  - apply bind_ret_inv in H. destruct H as (l & _ & H). now injection H as <-.
  - now injection H as <-.
  - now injection H as <-.
Qed.

Lemma reading_late fl n got x again done p : (forall g, late (again g)) -> (forall bs q, done bs = Ret q -> late q) ->
  reading fl n got x again done = Ret p -> late p.
Proof.
  intros A D H. unfold reading in H. destruct x as [bs|k].
  - destruct bs; [now injection H as <-|]. cbn zeta in H. destruct (n <=? _); [eapply D, H|]. injection H as <-. apply A.
  - destruct (retries fl k); [injection H as <-; apply A|]. now injection H as <-.
Qed.

Section Endpoint.
Context {EL : EnvLaws E}.
Variables (fl : flavor) (magic : bytes) (r : role) (rnd : bytes) (g : option bytes) (d : option (list bytes)).
Variables (theirs : bytes) (h : handshake sent_key) (fa : bytes) (h' : handshake sent_version) (wa : bytes) (ic : cipher).
Hypothesis Hm : len magic = 4.
Hypothesis Hs : party_start magic r rnd g = Ret (Ok (h, fa)).
Hypothesis L64 : 64 < len theirs.
Hypothesis Hk : party_key h (take 64 theirs) d = Ret (Ok (h', wa)).
Hypothesis Hc : completes h' (drop 64 theirs) ic [].

Lemma begins : hs_begin magic r rnd g = Ret (SendingKey fa h).
Proof.
  apply start_inv in Hs. destruct Hs as (h0 & N & SK). unfold hs_begin. rewrite N. cbn [bind]. unfold begin. rewrite SK. reflexivity.
Qed.

Definition trace (c o : bytes) (p : place) : Prop :=
  exists n (rs : list bytes) ws, List.concat rs = c /\ Forall (fun c : bytes => c <> []) rs /\ sound_writes ws /\
    forall s wt, hs_steps n fl d (SendingKey fa h) (map Chunk rs ++ s) (Writer (ws ++ wt) [] []) = Ret (p, s, Writer wt [] o).

Lemma trace_start : trace [] [] (SendingKey fa h).
Proof. exists 0%nat, [], []. repeat split; auto; constructor. Qed.

Lemma trace_turn c o p p' bs out : trace c o p -> replays fl d p p' bs out -> trace (c ++ bs) (o ++ out) p'.
Proof.
  intros (n & rs & ws & <- & F & W & T) R.
  assert (Q : forall (rs' : list bytes) ws', Forall (fun c : bytes => c <> []) rs' -> sound_writes ws' ->
     (forall s wt, hs_step fl d p (map Chunk rs' ++ s) (Writer (ws' ++ wt) [] o) = Ret (p', s, Writer wt [] (o ++ out))) ->
     trace (List.concat rs ++ List.concat rs') (o ++ out) p').
  { intros rs' ws' F' W' H. exists (n + 1)%nat, (rs ++ rs'), (ws ++ ws'). split; [apply concat_app|].
    split; [apply Forall_app; auto|]. split; [apply Forall_app; auto|].
    intros s wt. rewrite map_app, <- !app_assoc, hs_steps_app, T. cbn [bind hs_steps]. rewrite H. reflexivity. }
  destruct R as [m out WO Hm0 H|bs WI Hb H|_ _ _ H].
  - apply (Q [] [Accept m]); [constructor|now repeat constructor|]. intros s wt. apply H.
  - replace bs with (List.concat [bs]) by apply app_nil_r. apply (Q [bs] []); [now repeat constructor|constructor|].
    intros s wt. cbn [map app]. rewrite app_nil_r. apply H.
  - apply (Q [] []); [constructor..|]. intros s wt. cbn [map app]. rewrite app_nil_r. apply H.
Qed.

(** The result of the handshake of Io.v on a prefix of what the peer sends. *)
Lemma script_end c rest (rs : list bytes) ws : c ++ rest = theirs -> List.concat rs = c -> Forall (fun c : bytes => c <> []) rs -> sound_writes ws ->
  exists n x s' w', hs_steps n fl d (SendingKey fa h) (map Chunk rs) (Writer ws [] []) = Ret (Over x, s', w') /\
    (rest <> [] -> x = Err (end_error Closed)) /\
    (rest = [] -> exists sr, x = Ok (ic, outbound (sv_cipher (hs_state h')), sr) /\ session_leftover sr = []).
Proof.
  intros P C F W.
  pose proof (handshake_steps fl d magic r rnd g (map Chunk rs) (Writer ws [] []) Hm) as Z. rewrite begins in Z. cbn [ends_run] in Z.
  pose proof (flatten_chunks fl rs F) as Fl. rewrite C in Fl.
  assert (healthy (Writer ws [] [])) as Hw by (split; [exact W|constructor]).
  destruct (pure_handshake_complete fl magic r rnd g d theirs Closed (Writer ws [] []) ic [] h fa h' wa Hm Hw Hs) as (w1 & a & _ & PC);
    [lia|assumption|assumption|].
  destruct rest as [|b rest].
  - rewrite app_nil_r in P. rewrite P in Fl.
    destruct (ret_view _ _ _ _ _ _ _ _ _ _ _ Hm Fl (calm_chunks fl rs) PC) as (o & Ho & V).
    apply view_ok in V. destruct V as (sr & Vr & Vs & _ & _).
    rewrite Ho in Z. cbn [bind outcome ends] in Z. destruct Z as (n & s' & x' & Z & J). exists n, x', s', (ho_writer o).
    split; [exact Z|]. split; [congruence|]. intros _. rewrite Vr in J.
    destruct x' as [[[i1 o1] sr1]|e]; [|discriminate]. cbn [joined] in J. injection J as <- <- ->. exists sr1. split; [reflexivity|].
    unfold session_stream in Vs. destruct (flatten fl (session_inner (set_inner sr1 s'))) as [c1 e1]. injection Vs as Vs _. apply app_eq_nil in Vs. destruct Vs as [Vs _].
    now rewrite set_inner_leftover in Vs.
  - destruct (handshake_truncated _ _ _ _ _ _ _ _ _ _ _ _ _ _ _ Hm PC (len c) Closed) as (w2 & a' & PT).
    { rewrite len_nil, <- P, len_app, len_cons. lia. }
    replace (take (len c) theirs) with c in PT by (rewrite <- P; symmetry; now apply take_app_exact).
    destruct (ret_view _ _ _ _ _ _ _ _ _ _ _ Hm Fl (calm_chunks fl rs) PT) as (o & Ho & V).
    unfold hs_view in V. injection V as V _ _.
    rewrite Ho in Z. cbn [bind outcome ends] in Z. destruct Z as (n & s' & x' & Z & J). exists n, x', s', (ho_writer o).
    split; [exact Z|]. split; [intros _|congruence]. destruct x' as [[[i1 o1] sr1]|e]; cbn [joined] in J; rewrite J in V; cbn [stream_view] in V; congruence.
Qed.

(** The rest of a run that goes on without anything more to read. *)
Lemma trace_end c rest o p (rs' : list bytes) ws' : c ++ List.concat rs' ++ rest = theirs -> trace c o p -> Forall (fun c : bytes => c <> []) rs' -> sound_writes ws' ->
  exists n x s' w', hs_steps n fl d p (map Chunk rs') (Writer ws' [] o) = Ret (Over x, s', w') /\
    (rest <> [] -> x = Err (end_error Closed)) /\
    (rest = [] -> exists sr, x = Ok (ic, outbound (sv_cipher (hs_state h')), sr) /\ session_leftover sr = []).
Proof.
  intros P (n & rs & ws & C & F & W & T) F' W'. rewrite app_assoc in P.
  destruct (script_end _ rest (rs ++ rs') (ws ++ ws') P) as (n1 & x & s' & w' & Z & Z1 & Z2).
  { rewrite concat_app. congruence. } { apply Forall_app; auto. } { apply Forall_app; auto. }
  rewrite map_app in Z. exists (n1 - n)%nat, x, s', w'. split; [|auto].
  destruct (Compare_dec.le_lt_dec n n1) as [L|L].
  - replace n1 with (n + (n1 - n))%nat in Z by lia. rewrite hs_steps_app, T in Z. exact Z.
  - replace (n1 - n)%nat with O by lia. cbn [hs_steps]. specialize (T (map Chunk rs') ws').
    replace n with (n1 + (n - n1))%nat in T by lia. rewrite hs_steps_app, Z in T. cbn [bind] in T. rewrite hs_steps_over in T. congruence.
Qed.

Lemma over_end c rest o x : c ++ rest = theirs -> trace c o (Over x) -> wanting (Over x) ->
  rest = [] /\ exists sr, x = Ok (ic, outbound (sv_cipher (hs_state h')), sr) /\ session_leftover sr = [].
Proof.
  intros P T W. destruct (trace_end c rest o (Over x) [] [] P T) as (n & x1 & s' & w' & Z & Z1 & Z2); [constructor..|].
  rewrite hs_steps_over in Z. injection Z as <- _ _. destruct rest as [|b rest]; [auto|].
  rewrite Z1 in W by discriminate. cbn [wanting] in W. destruct W as (y & W). discriminate.
Qed.

Lemma not_starved c rest o p : c ++ rest = theirs -> trace c o p -> wanting p -> wants_input p = true -> rest <> [].
Proof.
  intros P T W WI ->. destruct (trace_end c [] o p [] [] P T) as (n & x & s' & w' & Z & _ & Z2); [constructor..|].
  destruct (starved fl d p (Writer [] [] o) W WI) as (e & Q). destruct n as [|n].
  - injection Z as -> _ _. discriminate.
  - cbn [hs_steps map] in Z. rewrite Q in Z. cbn [bind] in Z. rewrite hs_steps_over in Z. injection Z as <- _ _.
    destruct (Z2 eq_refl) as (sr & Q1 & _). discriminate.
Qed.

Lemma step_returns c rest o p (rs' : list bytes) ws' : c ++ List.concat rs' ++ rest = theirs -> trace c o p -> is_over p = false ->
  Forall (fun c : bytes => c <> []) rs' -> sound_writes ws' ->
  exists p' s' w', hs_step fl d p (map Chunk rs') (Writer ws' [] []) = Ret (p', s', w').
Proof.
  intros P T NO F W. destruct (trace_end c rest o p rs' ws' P T F W) as (n & x & s' & w' & Z & _).
  destruct n as [|n]. { injection Z as -> _ _. discriminate. }
  cbn [hs_steps] in Z. rewrite hs_step_written in Z.
  destruct (hs_step fl d p (map Chunk rs') (Writer ws' [] [])) as [[[p1 s1] w1]| |]; [eauto|discriminate..].
Qed.

(** ** How far it is *)

Definition stands (p : place) (c o : bytes) : Prop :=
  match p with
  | SendingKey rest h1 => h1 = h /\ c = [] /\ rest <> [] /\ o ++ rest = fa
  | FlushingKey h1 => h1 = h /\ c = [] /\ o = fa
  | ReadingKey got h1 => h1 = h /\ c = got /\ len got < 64 /\ o = fa
  | SendingVersion rest _ => len c = 64 /\ len fa <= len o /\ rest <> [] /\ o ++ rest = fa ++ wa
  | FlushingVersion _ => len c = 64 /\ o = fa ++ wa
  | ReadingTerminator got _ => 64 <= len c /\ o = fa ++ wa
  | _ => 64 < len c /\ o = fa ++ wa
  end.

Lemma fa_nonempty : fa <> [].
Proof. apply start_inv in Hs. destruct Hs as (h0 & N & SK). eapply key_buffer_nonempty; eassumption. Qed.

Lemma wa_nonempty : wa <> [].
Proof.
  pose proof (start_magic _ _ _ _ _ _ Hs) as M. apply key_inv in Hk. destruct Hk as (h0 & RK & SV).
  refine (version_buffer_nonempty _ _ _ _ _ _ _ _ RK SV); [congruence|]. rewrite len_take. lia.
Qed.

Lemma key_read_is : key_read d h (take 64 theirs) = Ret (SendingVersion wa h').
Proof.
  apply key_inv in Hk. destruct Hk as (h0 & RK & SV). unfold key_read. rewrite RK. cbn [bind]. rewrite SV. reflexivity.
Qed.

Lemma write_form (rest : bytes) (o out wtotal : bytes) m (x : wrote_once) w1 :
  m <> 0 -> rest <> [] -> o ++ rest = wtotal ->
  write_once fl (Writer [Accept m] [] []) rest = (x, w1) -> written w1 = out ->
  (x = AllWritten /\ o ++ out = wtotal) \/ (exists rest', x = MoreToWrite rest' /\ rest' <> [] /\ (o ++ out) ++ rest' = wtotal).
Proof.
  intros Hm0 Hr Q H Ho. unfold write_once in H. cbn [w_script flushes written app] in H.
  rewrite (proj2 (N.eqb_neq _ _) Hm0) in H. destruct (N.leb_spec (len rest) m); injection H as <- <-; cbn [written] in Ho; subst out.
  - left. auto.
  - right. exists (drop m rest). split; [reflexivity|]. split; [apply nonempty_len; rewrite len_drop; lia|].
    rewrite <- app_assoc, take_drop. assumption.
Qed.

Lemma read_form bs n : forall x, read [Chunk bs] n = (x, []) -> x = Data bs.
Proof. intros x. cbn [read]. destruct (len bs <=? n); congruence. Qed.

Lemma stands_turn p c o p' bs out rest : stands p c o -> wanting p' -> replays fl d p p' bs out ->
  (c ++ bs) ++ rest = theirs -> stands p' (c ++ bs) (o ++ out).
Proof.
  intros St Wp' R P. destruct R as [m out WO Hm0 H|bs WI Hb H|WO WI NO H].
  - specialize (H [] [] []). rewrite app_nil_r in *.
    destruct p as [rs h1|h1|got h1|rs h1|h1|got h1|buf h1|sr got h1|sr n got h1|x]; try discriminate WO; cbn [hs_step] in H;
      destruct (write_once fl (Writer [Accept m] [] []) rs) as [x w1] eqn:W; cbn [stands] in St; injection H as <- ->.
    + destruct St as (-> & -> & Hr & Q). destruct (write_form rs o out fa m _ _ Hm0 Hr Q W eq_refl) as [[-> Z]|(r' & -> & Hr' & Z)]; cbn [stands]; auto.
    + destruct St as (L & La & Hr & Q). destruct (write_form rs o out _ m _ _ Hm0 Hr Q W eq_refl) as [[-> Z]|(r' & -> & Hr' & Z)]; cbn [stands]; auto.
      rewrite len_app. repeat split; auto. lia.
  - specialize (H [] (Writer [] [] [])). rewrite app_nil_r. apply nonempty_len in Hb as Lb.
    assert (Z : forall q, late q ->
      64 <= len c -> o = fa ++ wa -> stands q (c ++ bs) o).
    { intros q K L Q. destruct q; cbn [stands]; try contradiction; rewrite len_app; auto; split; auto; lia. }
    destruct p as [rs h1|h1|got h1|rs h1|h1|got h1|buf h1|sr got h1|sr n got h1|x]; try discriminate WI; cbn [hs_step] in H; cbn [stands] in St.
    + destruct St as (-> & -> & L & ->). change NUM_ELLIGATOR_SWIFT_BYTES with 64 in H.
      destruct (read [Chunk bs] (64 - len got)) as [x s1] eqn:Rd. apply bind_ret_inv in H. destruct H as (p1 & H & Q).
      injection Q as <- ->. apply read_form in Rd as Q. subst x. apply read_fits in Rd as Fits.
      rewrite reading_data in H by assumption. destruct (N.leb_spec 64 (len (got ++ bs))) as [L1|L1].
      * assert (got ++ bs = take 64 theirs) as Q. { rewrite <- P. symmetry. apply take_app_exact. rewrite len_app in *. lia. }
        rewrite Q, key_read_is in H. injection H as <-. cbn [stands]. rewrite Q. rewrite len_take. pose proof wa_nonempty. repeat split; auto; lia.
      * injection H as <-. cbn [stands]. auto.
    + destruct St as (L & ->). destruct (read [Chunk bs] _) as [x s1] eqn:Rd. apply bind_ret_inv in H. destruct H as (p1 & H & Q).
      injection Q as <- ->. apply read_form in Rd as Q. subst x. rewrite reading_data in H by assumption. destruct (_ <=? _).
      * apply Z; auto. eapply scan_garbage_late, H.
      * injection H as <-. cbn [stands]. rewrite len_app. split; [lia|auto].
    + destruct St as (L & ->). destruct (read [Chunk bs] _) as [x s1] eqn:Rd. apply bind_ret_inv in H. destruct H as (p1 & H & Q).
      injection Q as <- ->. apply read_form in Rd as Q. subst x. destruct bs as [|b bs]; [contradiction|]. apply Z; auto; [|lia]. eapply scan_garbage_late, H.
    + destruct St as (L & ->). destruct (session_read _ _) as [x s1] eqn:Rd. apply bind_ret_inv in H. destruct H as (p1 & H & Q).
      injection Q as <- _. apply Z; auto; [|lia]. eapply reading_late; [| |exact H]; [constructor|]. intros; eapply length_read_late; eassumption.
    + destruct St as (L & ->). destruct (session_read _ _) as [x s1] eqn:Rd. apply bind_ret_inv in H. destruct H as (p1 & H & Q).
      injection Q as <- _. apply Z; auto; [|lia]. eapply reading_late; [| |exact H]; [constructor|]. intros; eapply packet_read_late; eassumption.
  - specialize (H [] [] []). rewrite !app_nil_r in *.
    destruct p as [rs h1|h1|got h1|rs h1|h1|got h1|buf h1|sr got h1|sr n got h1|x]; try discriminate; cbn [stands hs_step flush flushes flush_script] in *.
    + injection H as <-. cbn [stands]. destruct St as (-> & -> & ->). rewrite len_nil. repeat split; auto; lia.
    + injection H as <-. cbn [stands]. destruct St as (L & ->). split; auto; lia.
    + destruct St as (L & ->). destruct (session_read _ _) as [x s1] eqn:Rd. apply bind_ret_inv in H. destruct H as (p1 & H & Q).
      injection Q as <- _. assert (late p1) as Q by (eapply reading_late; [| |exact H]; [constructor|]; intros; eapply length_read_late; eassumption).
      destruct p1; cbn [stands]; try contradiction; auto; split; auto; lia.
    + destruct St as (L & ->). destruct (session_read _ _) as [x s1] eqn:Rd. apply bind_ret_inv in H. destruct H as (p1 & H & Q).
      injection Q as <- _. assert (late p1) as Q by (eapply reading_late; [| |exact H]; [constructor|]; intros; eapply packet_read_late; eassumption).
      destruct p1; cbn [stands]; try contradiction; auto; split; auto; lia.
Qed.

Lemma stands_facts p c o : stands p c o ->
  (exists r, o ++ r = fa ++ wa) /\ len o <= len fa + len wa /\
  (0 < len c -> len fa <= len o) /\ (len fa < len o -> 64 <= len c) /\ (64 < len c -> len o = len fa + len wa) /\
  (wants_output p = true -> (len o < len fa /\ len c = 0) \/ (len o < len fa + len wa /\ len c = 64)) /\
  (wants_input p = true -> (len o = len fa /\ len c < 64) \/ (len o = len fa + len wa /\ 64 <= len c)).
Proof.
  clear Hc Hk L64 Hs Hm.
  intros St. assert (Q : o = fa ++ wa -> 64 <= len c -> wants_output p = false -> (exists r, o ++ r = fa ++ wa) /\ len o <= len fa + len wa /\
    (0 < len c -> len fa <= len o) /\ (len fa < len o -> 64 <= len c) /\ (64 < len c -> len o = len fa + len wa) /\
    (wants_output p = true -> (len o < len fa /\ len c = 0) \/ (len o < len fa + len wa /\ len c = 64)) /\
    (wants_input p = true -> (len o = len fa /\ len c < 64) \/ (len o = len fa + len wa /\ 64 <= len c))).
  { intros -> L W. rewrite len_app, W. split; [exists []; apply app_nil_r|]. repeat split; try lia; discriminate. }
  destruct p as [rest h1|h1|got h1|rest h1|h1|got h1|buf h1|sr got h1|sr n got h1|x]; cbn [stands] in St.
  - destruct St as (_ & -> & Hr & Z). apply nonempty_len in Hr. assert (len fa = len o + len rest) by (rewrite <- Z; apply len_app).
    change (len (@nil byte)) with 0. split; [exists (rest ++ wa); now rewrite app_assoc, Z|]. repeat split; try lia; discriminate.
  - destruct St as (_ & -> & ->). change (len (@nil byte)) with 0. split; [now exists wa|]. repeat split; try lia; discriminate.
  - destruct St as (_ & -> & L & ->). split; [now exists wa|]. repeat split; try lia; discriminate.
  - destruct St as (L & La & Hr & Z). apply nonempty_len in Hr.
    assert (len fa + len wa = len o + len rest) by (rewrite <- !len_app; now f_equal).
    split; [now exists rest|]. repeat split; try lia; discriminate.
  - destruct St as (L & Z). apply Q; auto; lia.
  - destruct St as (L & Z). apply Q; auto; lia.
  - destruct St as (L & Z). apply Q; auto; lia.
  - destruct St as (L & Z). apply Q; auto; lia.
  - destruct St as (L & Z). apply Q; auto; lia.
  - destruct St as (L & Z). apply Q; auto; lia.
Qed.

(** One of the three reasons to wait, or a turn. *)
Lemma can_turn p c o inc rest room : c ++ inc ++ rest = theirs -> trace c o p ->
  is_over p = true \/ (wants_output p = true /\ room = 0) \/ (wants_input p = true /\ inc = []) \/
  exists p' inc' out, turn fl d p inc room p' inc' out.
Proof.
  intros P T. destruct (is_over p) eqn:NO; [auto|right].
  destruct (wants_output p) eqn:WO.
  - destruct (N.eq_dec room 0) as [Z|Z]; [auto|right; right].
    destruct (step_returns c (inc ++ rest) o p [] [Accept 1] P T NO) as (p' & s' & w' & H); [constructor|repeat constructor; discriminate|].
    do 3 eexists. apply (turn_write fl d p inc room 1 p' s' w'); [assumption|lia|exact H].
  - right. destruct (wants_input p) eqn:WI.
    + destruct inc as [|b inc]; [auto|right].
      destruct (step_returns c (inc ++ rest) o p [[b]] [] P T NO) as (p' & s' & w' & H); [repeat constructor; discriminate|constructor|].
      do 3 eexists. apply (turn_read fl d p (b :: inc) room 1 p' s' w'); [assumption|rewrite len_cons; lia|exact H].
    + right. destruct (step_returns c (inc ++ rest) o p [] [] P T NO) as (p' & s' & w' & H); [constructor..|].
      do 3 eexists. apply (turn_local fl d p inc room p' s' w'); assumption.
Qed.

End Endpoint.
(** ** Both endpoints *)

Section Joined.
Context {EL : EnvLaws E}.
Variables (fla flb : flavor) (magic ska skb : bytes) (ga gb : option bytes) (da db : option (list bytes)) (K : N).
Variables (ha hb : handshake sent_key) (fa fb : bytes) (ha' hb' : handshake sent_version) (wa wb : bytes) (ica icb : cipher).
Hypothesis Hm : len magic = 4.
Hypothesis Sa : party_start magic Initiator ska ga = Ret (Ok (ha, fa)).
Hypothesis Sb : party_start magic Responder skb gb = Ret (Ok (hb, fb)).
Hypothesis La : 64 <= len fa.
Hypothesis Lb : 64 <= len fb.
Hypothesis Ka : party_key ha (take 64 (fb ++ wb)) da = Ret (Ok (ha', wa)).
Hypothesis Kb : party_key hb (take 64 (fa ++ wa)) db = Ret (Ok (hb', wb)).
Hypothesis Na : 0 < len wa.
Hypothesis Nb : 0 < len wb.
Hypothesis Ca : completes ha' (drop 64 (fb ++ wb)) ica [].
Hypothesis Cb : completes hb' (drop 64 (fa ++ wa)) icb [].

Lemma Ta : 64 < len (fa ++ wa). Proof. rewrite len_app. lia. Qed.
Lemma Tb : 64 < len (fb ++ wb). Proof. rewrite len_app. lia. Qed.

Definition joint (n : nat) (st : pipes) : Prop :=
  exists ca oa cb ob,
    (trace fla da ha fa ca oa (side_a st) /\ stands ha fa wa (side_a st) ca oa /\ wanting (side_a st)) /\
    (trace flb db hb fb cb ob (side_b st) /\ stands hb fb wb (side_b st) cb ob /\ wanting (side_b st)) /\
    oa = cb ++ a_to_b st /\ ob = ca ++ b_to_a st /\ len (a_to_b st) <= K /\ len (b_to_a st) <= K /\
    N.of_nat n + weight (side_a st) + weight (side_b st) <= 8 + 2 * len ca + len oa + 2 * len cb + len ob /\
    (K < len fa -> K < len fb -> len ca = 0 /\ len cb = 0) /\
    (K + 64 < len fa -> K < len fb + len wb -> len ca = 0 /\ len cb <= 64) /\
    (K + 64 < len fb -> K < len fa + len wa -> len ca <= 64 /\ len cb = 0) /\
    (K + 64 < len fa + len wa -> K + 64 < len fb + len wb -> len ca <= 64 /\ len cb <= 64).

Definition start : pipes := Pipes (SendingKey fa ha) (SendingKey fb hb) [] [].

Lemma joint_run n st : pipe_run fla flb da db K n start st -> joint n st.
Proof.
  intros R. remember start as st0 eqn:E0. induction R as [st|n st st1 st2 R IH S]; subst st.
  - exists [], [], [], []. cbn [start side_a side_b a_to_b b_to_a weight]. change (len (@nil byte)) with 0.
    pose proof (fa_nonempty magic Initiator ska ga ha fa Sa). pose proof (fa_nonempty magic Responder skb gb hb fb Sb).
    repeat split; try lia; auto using trace_start; apply trace_start.
  - destruct (IH eq_refl) as (ca & oa & cb & ob & (A1 & A2 & A3) & (B1 & B2 & B3) & Qa & Qb & K1 & K2 & W & D1 & D2 & D3 & D4). clear IH.
    destruct S as [p p' q ab ba ba' out T|p q q' ab ba ab' out T]; cbn [side_a side_b a_to_b b_to_a] in *.
    + destruct (turn_replays _ _ _ _ _ _ _ _ A3 T) as (bs & Z1 & Z2 & Z3 & Z4 & Z5). subst ba.
      destruct (stands_facts _ _ _ _ _ _ B2) as ((rb & Pb) & Fb1 & Fb2 & Fb3 & Fb4 & _).
      assert (P : (ca ++ bs) ++ ba' ++ rb = fb ++ wb) by (rewrite <- Pb, Qb, <- !app_assoc; reflexivity).
      pose proof (stands_turn _ _ _ _ _ _ _ _ _ _ _ Hm Sa Tb Ka _ _ _ _ _ _ _ A2 Z4 Z3 P) as A2'.
      destruct (stands_facts _ _ _ _ _ _ A2') as (_ & Fa1 & Fa2 & Fa3 & Fa4 & _).
      exists (ca ++ bs), (oa ++ out), cb, ob. cbn [side_a side_b a_to_b b_to_a].
      assert (X : len oa = len cb + len ab) by (rewrite Qa; apply len_app).
      assert (Y : len ob = len ca + (len bs + len ba')) by (rewrite Qb, !len_app; lia).
      split; [split; [eapply trace_turn; eassumption|auto]|]. split; [auto|].
      split; [rewrite Qa, app_assoc; reflexivity|]. split; [rewrite Qb, app_assoc; reflexivity|].
      rewrite !len_app in *. repeat split; try lia.
      all: intros C1 C2; first [specialize (D1 C1 C2)|specialize (D2 C1 C2)|specialize (D3 C1 C2)|specialize (D4 C1 C2)]; lia.
    + destruct (turn_replays _ _ _ _ _ _ _ _ B3 T) as (bs & Z1 & Z2 & Z3 & Z4 & Z5). subst ab.
      destruct (stands_facts _ _ _ _ _ _ A2) as ((ra & Pa) & Fa1 & Fa2 & Fa3 & Fa4 & _).
      assert (P : (cb ++ bs) ++ ab' ++ ra = fa ++ wa) by (rewrite <- Pa, Qa, <- !app_assoc; reflexivity).
      pose proof (stands_turn _ _ _ _ _ _ _ _ _ _ _ Hm Sb Ta Kb _ _ _ _ _ _ _ B2 Z4 Z3 P) as B2'.
      destruct (stands_facts _ _ _ _ _ _ B2') as (_ & Fb1 & Fb2 & Fb3 & Fb4 & _).
      exists ca, oa, (cb ++ bs), (ob ++ out). cbn [side_a side_b a_to_b b_to_a].
      assert (X : len oa = len cb + (len bs + len ab')) by (rewrite Qa, !len_app; lia).
      assert (Y : len ob = len ca + len ba) by (rewrite Qb; apply len_app).
      split; [auto|]. split; [split; [eapply trace_turn; eassumption|auto]|].
      split; [rewrite Qa, app_assoc; reflexivity|]. split; [rewrite Qb, app_assoc; reflexivity|].
      rewrite !len_app in *. repeat split; try lia.
      all: intros C1 C2; first [specialize (D1 C1 C2)|specialize (D2 C1 C2)|specialize (D3 C1 C2)|specialize (D4 C1 C2)]; lia.
Qed.

Lemma run_bounded n st : pipe_run fla flb da db K n start st ->
  N.of_nat n <= 8 + 3 * (len fa + len wa + len fb + len wb).
Proof.
  intros R. destruct (joint_run n st R) as (ca & oa & cb & ob & (_ & A2 & _) & (_ & B2 & _) & Qa & Qb & _ & _ & W & _).
  destruct (stands_facts _ _ _ _ _ _ A2) as (_ & F1 & _). destruct (stands_facts _ _ _ _ _ _ B2) as (_ & F2 & _).
  apply (f_equal len) in Qa, Qb. rewrite len_app in Qa, Qb. lia.
Qed.

Lemma over_a n st x : pipe_run fla flb da db K n start st -> side_a st = Over x ->
  exists cb ob sr, stands hb fb wb (side_b st) cb ob /\ len cb + len (a_to_b st) = len fa + len wa /\
    len ob = len fb + len wb /\ b_to_a st = [] /\ ~ clogs K (len fa) (len wa) (len fb) (len wb) /\
    x = Ok (ica, outbound (sv_cipher (hs_state ha')), sr) /\ session_leftover sr = [].
Proof.
  intros R O. destruct (joint_run n st R) as (ca & oa & cb & ob & (A1 & A2 & A3) & (_ & B2 & _) & Qa & Qb & _ & _ & _ & D).
  rewrite O in *. destruct (stands_facts _ _ _ _ _ _ A2) as (_ & _ & _ & _ & F1 & _).
  destruct (stands_facts _ _ _ _ _ _ B2) as ((rb & Pb) & _).
  assert (P : ca ++ b_to_a st ++ rb = fb ++ wb) by (rewrite <- Pb, Qb, app_assoc; reflexivity).
  destruct (over_end _ _ _ _ _ _ _ _ _ _ _ _ Hm Sa Tb Ka Ca _ _ _ _ P A1 A3) as (Z & sr & Q).
  apply app_eq_nil in Z. destruct Z as [Z1 ->]. rewrite Z1, !app_nil_r in *. subst ob ca.
  pose proof Tb as T. rewrite len_app in *. specialize (F1 ltac:(lia)).
  exists cb, (fb ++ wb), sr. apply (f_equal len) in Qa. rewrite len_app in *. unfold clogs.
  repeat split; try tauto; try lia.
Qed.

Lemma over_b n st x : pipe_run fla flb da db K n start st -> side_b st = Over x ->
  exists ca oa sr, stands ha fa wa (side_a st) ca oa /\ len ca + len (b_to_a st) = len fb + len wb /\
    len oa = len fa + len wa /\ a_to_b st = [] /\ ~ clogs K (len fa) (len wa) (len fb) (len wb) /\
    x = Ok (icb, outbound (sv_cipher (hs_state hb')), sr) /\ session_leftover sr = [].
Proof.
  intros R O. destruct (joint_run n st R) as (ca & oa & cb & ob & (_ & A2 & _) & (B1 & B2 & B3) & Qa & Qb & _ & _ & _ & D).
  rewrite O in *. destruct (stands_facts _ _ _ _ _ _ B2) as (_ & _ & _ & _ & F1 & _).
  destruct (stands_facts _ _ _ _ _ _ A2) as ((ra & Pa) & _).
  assert (P : cb ++ a_to_b st ++ ra = fa ++ wa) by (rewrite <- Pa, Qa, app_assoc; reflexivity).
  destruct (over_end _ _ _ _ _ _ _ _ _ _ _ _ Hm Sb Ta Kb Cb _ _ _ _ P B1 B3) as (Z & sr & Q).
  apply app_eq_nil in Z. destruct Z as [Z1 ->]. rewrite Z1, !app_nil_r in *. subst oa cb.
  pose proof Ta as T. rewrite len_app in *. specialize (F1 ltac:(lia)).
  exists ca, (fa ++ wa), sr. apply (f_equal len) in Qb. rewrite len_app in *. unfold clogs.
  repeat split; try tauto; try lia.
Qed.

Lemma stopped_ends n st : pipe_run fla flb da db K n start st -> stopped fla flb da db K st ->
  ~ clogs K (len fa) (len wa) (len fb) (len wb) ->
  is_over (side_a st) = true /\ is_over (side_b st) = true.
Proof.
  intros R St NC. destruct (joint_run n st R) as (ca & oa & cb & ob & (A1 & A2 & A3) & (B1 & B2 & B3) & Qa & Qb & K1 & K2 & _ & _).
  destruct (stands_facts _ _ _ _ _ _ A2) as ((ra & Pa) & Fa1 & Fa2 & Fa3 & Fa4 & Fa5 & Fa6).
  destruct (stands_facts _ _ _ _ _ _ B2) as ((rb & Pb) & Fb1 & Fb2 & Fb3 & Fb4 & Fb5 & Fb6).
  assert (P1 : ca ++ b_to_a st ++ rb = fb ++ wb) by (rewrite <- Pb, Qb, app_assoc; reflexivity).
  assert (P2 : cb ++ a_to_b st ++ ra = fa ++ wa) by (rewrite <- Pa, Qa, app_assoc; reflexivity).
  assert (Xa : len oa = len cb + len (a_to_b st)) by (rewrite Qa; apply len_app).
  assert (Xb : len ob = len ca + len (b_to_a st)) by (rewrite Qb; apply len_app).
  assert (Ya : len oa + len ra = len fa + len wa) by (rewrite <- !len_app; now f_equal).
  assert (Yb : len ob + len rb = len fb + len wb) by (rewrite <- !len_app; now f_equal).
  assert (Ea : wants_input (side_a st) = true -> b_to_a st = [] -> 0 < len rb).
  { intros W Z. pose proof (not_starved _ _ _ _ _ _ _ _ _ _ _ _ Hm Sa Tb Ka Ca _ _ _ _ P1 A1 A3 W) as Q.
    apply nonempty_len. rewrite Z in Q. exact Q. }
  assert (Eb : wants_input (side_b st) = true -> a_to_b st = [] -> 0 < len ra).
  { intros W Z. pose proof (not_starved _ _ _ _ _ _ _ _ _ _ _ _ Hm Sb Ta Kb Cb _ _ _ _ P2 B1 B3 W) as Q.
    apply nonempty_len. rewrite Z in Q. exact Q. }
  destruct (can_turn _ _ _ _ _ _ _ _ _ _ _ _ Hm Sa Tb Ka Ca _ _ _ _ _ (K - len (a_to_b st)) P1 A1) as [Oa|[[Oa Ra]|[[Oa Ra]|(p' & inc' & out & T)]]].
  4:{ exfalso. destruct st as [pa pb ab ba]. eapply St, step_a, T. }
  all: destruct (can_turn _ _ _ _ _ _ _ _ _ _ _ _ Hm Sb Ta Kb Cb _ _ _ _ _ (K - len (b_to_a st)) P2 B1) as [Ob|[[Ob Rb]|[[Ob Rb]|(p' & inc' & out & T)]]];
    try (exfalso; destruct st as [pa pb ab ba]; eapply St, step_b, T).
  - auto.
  - exfalso. destruct (side_a st) eqn:Q; try discriminate Oa. destruct (over_a n st _ R Q) as (cb1 & ob1 & sr & _ & Z1 & Z2 & Z3 & _).
    rewrite Z3 in *. cbn [app] in P1. destruct (over_end _ _ _ _ _ _ _ _ _ _ _ _ Hm Sa Tb Ka Ca _ _ _ _ P1 A1 A3) as (-> & _).
    rewrite len_nil in *. specialize (Fb5 Ob). lia.
  - exfalso. destruct (side_a st) eqn:Q; try discriminate Oa. destruct (over_a n st _ R Q) as (cb1 & ob1 & sr & _ & Z1 & Z2 & Z3 & _).
    rewrite Z3 in *. cbn [app] in P1. destruct (over_end _ _ _ _ _ _ _ _ _ _ _ _ Hm Sa Tb Ka Ca _ _ _ _ P1 A1 A3) as (-> & _).
    cbn [stands] in A2. destruct A2 as [_ A2]. apply (f_equal len) in A2. rewrite len_app in A2. specialize (Eb Ob Rb). lia.
  - exfalso. destruct (side_b st) eqn:Q; try discriminate Ob. destruct (over_b n st _ R Q) as (ca1 & oa1 & sr & _ & Z1 & Z2 & Z3 & _).
    rewrite Z3 in *. cbn [app] in P2. destruct (over_end _ _ _ _ _ _ _ _ _ _ _ _ Hm Sb Ta Kb Cb _ _ _ _ P2 B1 B3) as (-> & _).
    rewrite len_nil in *. specialize (Fa5 Oa). lia.
  - exfalso. apply NC. unfold clogs. specialize (Fa5 Oa). specialize (Fb5 Ob). lia.
  - exfalso. apply NC. unfold clogs. rewrite Rb, len_nil in *. lia.
  - exfalso. destruct (side_b st) eqn:Q; try discriminate Ob. destruct (over_b n st _ R Q) as (ca1 & oa1 & sr & _ & Z1 & Z2 & Z3 & _).
    rewrite Z3 in *. cbn [app] in P2. destruct (over_end _ _ _ _ _ _ _ _ _ _ _ _ Hm Sb Ta Kb Cb _ _ _ _ P2 B1 B3) as (-> & _).
    cbn [stands] in B2. destruct B2 as [_ B2]. apply (f_equal len) in B2. rewrite len_app in B2. specialize (Ea Oa Ra). lia.
  - exfalso. apply NC. unfold clogs. rewrite Ra, len_nil in *. lia.
  - exfalso. specialize (Ea Oa Ra). specialize (Eb Ob Rb). specialize (Fa6 Oa). specialize (Fb6 Ob). rewrite Ra, Rb, len_nil in *. lia.
Qed.

End Joined.
End WithEnv.
