(** * HsStepsProofs: the handshake in single operations is the handshake of Io.v *)
From Coq Require Import List NArith Bool Lia Wf_nat.
From Coq.Strings Require Import Byte.
From Coq Require Import ZifyBool ZifyNat ZifyN.
From Verif Require Import Base BaseFacts Env FsChacha Cipher Histories Handshake SpecHandshake HsDriver HandshakeProofs HsRunProofs
  Transport Io SpecIo TransportProofs IoProofs IoRunProofs HsSteps.
Import ListNotations.
Local Open Scope N_scope.

Lemma retries_is {A} fl k (a b : A) :
  match fl, k with Sync, Interrupted => a | _, _ => b end = if retries fl k then a else b.
Proof. destruct fl, k; reflexivity. Qed.

(** ** Measures *)

Fixpoint script_size (s : script) : nat :=
  match s with
  | [] => 0
  | Chunk bs :: s => S (length bs) + script_size s
  | _ :: s => S (script_size s)
  end.
Definition session_size (sr : session) : nat :=
  match sr with
  | ChainReader c _ s => length c + script_size s
  | TokioReader l p s => length (drop p l) + script_size s
  end.

Lemma read_shrinks s : forall n r s', 0 < n -> read s n = (r, s') -> r <> Data [] ->
  (script_size s' < script_size s)%nat.
Proof.
  induction s as [|[bs|k|] s IH]; intros n r s' Hn H D; cbn [read] in H.
  - injection H as <- <-. now contradict D.
  - destruct (N.leb_spec (len bs) n).
    + injection H as <- <-. cbn [script_size]. lia.
    + injection H as <- <-. cbn [script_size].
      assert (len (drop n bs) < len bs) as Q by (rewrite len_drop; lia). unfold len in Q. lia.
  - injection H as <- <-. cbn [script_size]. lia.
  - specialize (IH _ _ _ Hn H D). cbn [script_size]. lia.
Qed.

Lemma read_fits s : forall n bs s', read s n = (Data bs, s') -> len bs <= n.
Proof.
  induction s as [|[b|k|] s IH]; intros n bs s' H; cbn [read] in H.
  - injection H as <- <-. rewrite len_nil. lia.
  - destruct (N.leb_spec (len b) n); injection H as <- <-; [assumption|]. rewrite len_take. lia.
  - discriminate.
  - eauto.
Qed.

Lemma session_read_shrinks sr n r sr' : 0 < n -> session_read sr n = (r, sr') -> r <> Data [] ->
  (session_size sr' < session_size sr)%nat.
Proof.
  intros Hn H D. destruct sr as [cur [|] s|l pos s]; cbn [session_read] in H.
  - destruct (read s n) as [r0 s0] eqn:Q. injection H as <- <-. pose proof (read_shrinks _ _ _ _ Hn Q D). cbn [session_size]. lia.
  - destruct cur as [|b cur].
    + destruct (read s n) as [r0 s0] eqn:Q. injection H as <- <-. pose proof (read_shrinks _ _ _ _ Hn Q D). cbn [session_size]. lia.
    + injection H as <- <-. cbn [session_size].
      assert (len (drop n (b :: cur)) < len (b :: cur)) as Q by (rewrite len_drop, len_cons; lia). unfold len in Q. lia.
  - destruct (N.ltb_spec pos (len l)) as [L|L].
    + injection H as <- <-. cbn [session_size].
      set (m := N.min (len (drop pos l)) n). assert (0 < m) by (subst m; rewrite len_drop; lia).
      assert (len (drop (pos + m) l) < len (drop pos l)) as Q by (rewrite !len_drop; lia). unfold len in Q. lia.
    + destruct (read s n) as [r0 s0] eqn:Q. injection H as <- <-. pose proof (read_shrinks _ _ _ _ Hn Q D). cbn [session_size]. lia.
Qed.

Lemma session_read_fits sr n bs sr' : session_read sr n = (Data bs, sr') -> len bs <= n.
Proof.
  intros H. destruct sr as [cur [|] s|l pos s]; cbn [session_read] in H.
  - destruct (read s n) as [r0 s0] eqn:Q. injection H as -> <-. eapply read_fits, Q.
  - destruct cur as [|b cur].
    + destruct (read s n) as [r0 s0] eqn:Q. injection H as -> <-. eapply read_fits, Q.
    + injection H as <- <-. rewrite len_take. lia.
  - destruct (pos <? len l).
    + injection H as <- <-. rewrite len_take. lia.
    + destruct (read s n) as [r0 s0] eqn:Q. injection H as -> <-. eapply read_fits, Q.
Qed.

Lemma set_inner_back sr : set_inner (set_inner sr []) (inner sr) = sr.
Proof. destruct sr; reflexivity. Qed.

Section WithEnv.
Context {E : Env}.
Variables (fl : flavor) (decoys : option (list bytes)).

(** ** From a place to the end of the handshake *)

Definition joined (x : result perror (cipher * cipher * session)) (s : script) : result perror (cipher * cipher * session) :=
  match x with Ok (i, o, sr) => Ok (i, o, set_inner sr s) | Err e => Err e end.

Definition ends (p : place) (s : script) (w : writer) (o : run (result perror (cipher * cipher * session) * writer)) : Prop :=
  match o with
  | Ret (x, w') => exists n s' x', hs_steps n fl decoys p s w = Ret (Over x', s', w') /\ x = joined x' s'
  | Panic => exists n, hs_steps n fl decoys p s w = Panic
  | NoFuel => True
  end.

Definition ends_run (q : run place) (s : script) (w : writer) (o : run (result perror (cipher * cipher * session) * writer)) : Prop :=
  match q with
  | Ret p => ends p s w o
  | Panic => o = Panic \/ o = NoFuel
  | NoFuel => o = NoFuel
  end.

Lemma ends_step p s w q s' w' o :
  hs_step fl decoys p s w = (let! p' := q in Ret (p', s', w')) -> ends_run q s' w' o -> ends p s w o.
Proof.
  intros H Q. destruct q as [p'| |]; cbn [bind ends_run] in *.
  - destruct o as [[x w1]| |]; cbn [ends] in *; [| |exact I].
    + destruct Q as (n & s1 & x1 & Q & J). exists (S n), s1, x1. cbn [hs_steps]. rewrite H. cbn [bind]. auto.
    + destruct Q as (n & Q). exists (S n). cbn [hs_steps]. rewrite H. exact Q.
  - destruct Q as [-> | ->]; [|exact I]. exists 1%nat. cbn [hs_steps]. rewrite H. reflexivity.
  - subst o. exact I.
Qed.

Lemma ends_failed e s w : ends_run (failed e) s w (Ret (Err e, w)).
Proof. exists 0%nat, s, (Err e). split; reflexivity. Qed.

(** ** Loops *)

Section Loop.
Context (X : Type) (rd : X -> N -> read_result * X) (rex : X -> N -> result io_kind bytes * X) (size : X -> nat).
Hypothesis rex_loop : forall x n, rex x n =
  if n =? 0 then (Ok [], x) else
  match rd x n with
  | (Data [], x') => (Err UnexpectedEof, x')
  | (Data bs, x') => prefix bs (rex x' (n - len bs))
  | (ReadErr k, x') => match fl, k with Sync, Interrupted => rex x' n | _, _ => (Err k, x') end
  end.
Hypothesis shrinks : forall x n r x', 0 < n -> rd x n = (r, x') -> r <> Data [] -> (size x' < size x)%nat.
Hypothesis rd_fits : forall x n bs x', rd x n = (Data bs, x') -> len bs <= n.
Context (mk : X -> bytes -> place) (sc : X -> script) (n : N) (done : X -> bytes -> run place).
Hypothesis step_is : forall x got w, len got < n ->
  hs_step fl decoys (mk x got) (sc x) w =
  let '(r, x') := rd x (n - len got) in
  let! p := reading fl n got r (mk x') (done x') in Ret (p, sc x', w).

Lemma read_loop w o : forall x got, len got < n ->
  match rex x (n - len got) with
  | (Ok bs, x') => ends_run (done x' (got ++ bs)) (sc x') w o
  | (Err k, _) => o = Ret (Err (from_io k), w)
  end -> ends (mk x got) (sc x) w o.
Proof.
  intros x. induction x as [x IH] using (induction_ltof1 _ size). unfold ltof in IH.
  intros got L H. rewrite rex_loop in H. destruct (N.eqb_spec (n - len got) 0); [lia|].
  pose proof (step_is x got w L) as St.
  destruct (rd x (n - len got)) as [r x'] eqn:Q.
  eapply ends_step; [exact St|].
  assert (r <> Data [] -> (size x' < size x)%nat) as Sh by (intros D; eapply shrinks; [|exact Q|exact D]; lia).
  destruct r as [[|b bs]|k]; cbn [reading].
  - subst o. apply ends_failed.
  - specialize (Sh ltac:(discriminate)). apply rd_fits in Q.
    destruct (N.leb_spec n (len (got ++ b :: bs))) as [G|G]; rewrite len_app in G.
    + replace (n - len got - len (b :: bs)) with 0 in H by lia. rewrite rex_loop in H. cbn [N.eqb prefix] in H.
      now rewrite app_nil_r in H.
    + apply IH; [assumption|rewrite len_app; lia|]. rewrite len_app.
      replace (n - len got - len (b :: bs)) with (n - (len got + len (b :: bs))) in H by lia.
      destruct (rex x' _) as [[y|k] x2]; cbn [prefix] in H; [|assumption]. now rewrite app_assoc in H.
  - specialize (Sh ltac:(discriminate)). rewrite retries_is in H. destruct (retries fl k).
    + apply IH; [assumption..|exact H].
    + subst o. apply ends_failed.
Qed.
End Loop.

Lemma script_loop (mk : bytes -> place) n (done : bytes -> run place) w o :
  (forall s got w, len got < n -> hs_step fl decoys (mk got) s w =
     let '(r, s') := read s (n - len got) in let! p := reading fl n got r mk done in Ret (p, s', w)) ->
  forall s, 0 < n ->
  match read_exact fl s n [] with
  | (Ok bs, s') => ends_run (done bs) s' w o
  | (Err k, _) => o = Ret (Err (from_io k), w)
  end -> ends (mk []) s w o.
Proof.
  intros St s Hn H.
  apply (read_loop script read (fun s n => read_exact fl s n []) script_size) with
    (mk := fun _ => mk) (sc := fun s => s) (n := n) (done := fun _ => done) (x := s); try assumption.
  - intros x m. rewrite read_exact_loop. destruct (m =? 0); [reflexivity|].
    destruct (read x m) as [[[|b bs]|k] x']; try reflexivity. now rewrite read_exact_acc.
  - intros. eapply read_shrinks; eauto.
  - intros. eapply read_fits; eauto.
  - rewrite len_nil, N.sub_0_r. exact H.
Qed.

Lemma session_loop (mk : session -> bytes -> place) n (done : session -> bytes -> run place) w o :
  (forall sr s got w, len got < n -> hs_step fl decoys (mk sr got) s w =
     let '(r, sr') := session_read (set_inner sr s) (n - len got) in
     let! p := reading fl n got r (mk (set_inner sr' [])) (done (set_inner sr' [])) in Ret (p, inner sr', w)) ->
  forall sr, 0 < n ->
  match session_read_exact fl sr n with
  | (Ok bs, sr') => ends_run (done (set_inner sr' []) bs) (inner sr') w o
  | (Err k, _) => o = Ret (Err (from_io k), w)
  end -> ends (mk (set_inner sr []) []) (inner sr) w o.
Proof.
  intros St sr Hn H.
  apply (read_loop session session_read (session_read_exact fl) session_size) with
    (mk := fun sr => mk (set_inner sr [])) (sc := inner) (n := n) (done := fun sr => done (set_inner sr [])) (x := sr);
    try assumption.
  - intros. apply session_read_exact_loop.
  - intros. eapply session_read_shrinks; eauto.
  - intros. eapply session_read_fits; eauto.
  - intros x got w0 L. rewrite St by assumption. now rewrite set_inner_back.
  - rewrite len_nil, N.sub_0_r. exact H.
Qed.

Lemma write_loop (mk : bytes -> place) (done : place) s o :
  (forall rest w, hs_step fl decoys (mk rest) s w =
     let '(x, w) := write_once fl w rest in
     Ret (match x with AllWritten => done | MoreToWrite rest => mk rest | WriteFailed k => Over (Err (from_io k)) end, s, w)) ->
  forall ws fs wr rest, rest <> [] ->
  match write_all fl (Writer ws fs wr) rest with
  | (Ok _, w') => ends done s w' o
  | (Err k, w') => o = Ret (Err (from_io k), w')
  end -> ends (mk rest) s (Writer ws fs wr) o.
Proof.
  intros St. induction ws as [|e ws IH]; intros fs wr rest Hr H.
  - unfold write_all in H. cbn [w_script] in H. destruct rest as [|b rest]; [congruence|]. cbn [write_script flushes written] in H.
    apply (ends_step _ _ _ (Ret done) s (Writer [] fs (wr ++ b :: rest))); [|exact H]. now rewrite St.
  - unfold write_all in H. cbn [w_script] in H. destruct rest as [|b rest]; [congruence|]. cbn [write_script flushes written] in H.
    set (bs := b :: rest) in *.
    assert (forall p w', hs_step fl decoys (mk bs) s (Writer (e :: ws) fs wr) = Ret (p, s, w') ->
              ends p s w' o -> ends (mk bs) s (Writer (e :: ws) fs wr) o) as Go.
    { intros p w' Q En. now apply (ends_step _ _ _ (Ret p) s w'). }
    assert (forall k w', hs_step fl decoys (mk bs) s (Writer (e :: ws) fs wr) = Ret (Over (Err (from_io k)), s, w') ->
              o = Ret (Err (from_io k), w') -> ends (mk bs) s (Writer (e :: ws) fs wr) o) as Fl.
    { intros k w' Q ->. eapply Go; [exact Q|]. apply (ends_failed (from_io k)). }
    rewrite St in Go, Fl. unfold write_once in Go, Fl. cbn [w_script flushes written] in Go, Fl.
    destruct e as [n|k|].
    + destruct (n =? 0) eqn:N0. { eapply Fl; [reflexivity|]. now rewrite app_nil_r in H. }
      destruct (len bs <=? n) eqn:L. { eapply Go; [reflexivity|]. exact H. }
      eapply Go; [reflexivity|]. apply IH.
      { intros Q. apply (f_equal len) in Q. rewrite len_drop, len_nil in Q. lia. }
      unfold write_all. cbn [w_script flushes written].
      destruct (write_script fl ws (drop n bs)) as [[r s0] out]. rewrite <- app_assoc. exact H.
    + rewrite retries_is in H. destruct (retries fl k).
      * eapply Go; [reflexivity|]. apply IH; [discriminate|]. exact H.
      * eapply Fl; [reflexivity|]. now rewrite app_nil_r in H.
    + eapply Go; [reflexivity|]. apply IH; [discriminate|]. exact H.
Qed.

(** ** The handshake *)

Lemma version_steps : forall fuel h sr a w,
  ends (ReadingLength (set_inner sr []) [] h) (inner sr) w
    (let! (x, _) := version_loop fuel fl h sr a in Ret (x, w)).
Proof.
  induction fuel as [|fuel IH]; intros h sr a w; [exact I|]. cbn [version_loop].
  apply (session_loop (fun sr got => ReadingLength sr got h) NUM_LENGTH_BYTES (fun sr => length_read sr h));
    [reflexivity|reflexivity|].
  destruct (session_read_exact fl sr NUM_LENGTH_BYTES) as [[lb|k] sr1]; [|reflexivity].
  unfold length_read. destruct (hs_decrypt_packet_len h lb) as [[n h1]| |]; cbn [bind ends_run]; auto.
  destruct (MAX_PACKET_SIZE_FOR_ALLOCATION <? n); [apply ends_failed|].
  assert (forall sr' pb, ends_run (packet_read (set_inner sr' []) h1 pb) (inner sr') w
            (let! (x, _) := (let! (x, _) := receive_version h1 pb in
                             match x with
                             | Ok (Complete c) => let '(i, o) := into_split c in Ret (Ok (i, o, sr'), a ++ [n])
                             | Ok (DecoyPacket h) => version_loop fuel fl h sr' (a ++ [n])
                             | Err e => Ret (Err (Internal e), a ++ [n])
                             end) in Ret (x, w))) as P.
  { intros sr' pb. unfold packet_read. destruct (receive_version h1 pb) as [[x b]| |]; cbn [bind ends_run]; auto.
    destruct x as [[c|h2]|e].
    - destruct (into_split c) as [i o]. cbn [bind ends_run ends]. exists 0%nat. do 2 eexists.
      split; [reflexivity|]. cbn [joined]. now rewrite set_inner_back.
    - apply IH.
    - apply ends_failed. }
  destruct (N.eqb_spec n 0) as [-> |Hn].
  - rewrite session_read_exact_loop. cbn [N.eqb]. apply P.
  - cbn [ends_run].
    apply (session_loop (fun sr got => ReadingPacket sr n got h1) n (fun sr => packet_read sr h1)); [reflexivity|lia|].
    destruct (session_read_exact fl sr1 n) as [[pb|k] sr2]; [apply P|reflexivity].
Qed.

Lemma garbage_steps : forall fuel h buf s reads w,
  ends_run (scan_garbage fl h buf) s w
    (let! (x, s, reads) := garbage_loop fuel h buf s reads in
     match x with Err e => Ret (Err e, w) | Ok (h, consumed, garbage_buffer) =>
     let! leftover := slice garbage_buffer consumed (len garbage_buffer) in
     let sr := session_reader fl leftover s in
     let! (x, _) := version_loop (S (length (session_content sr))) fl h sr [] in Ret (x, w) end).
Proof.
  induction fuel as [|fuel IH]; intros h buf s reads w; cbn [garbage_loop bind].
  { destruct (scan_garbage fl h buf); cbn [ends_run ends]; auto. }
  unfold scan_garbage at 1. destruct (receive_garbage h buf) as [[[h1 n|h1]|e]| |]; cbn [bind ends_run]; auto.
  - destruct (slice buf n (len buf)) as [leftover| |]; cbn [bind ends_run]; auto.
    pose proof (version_steps (S (length (session_content (session_reader fl leftover s)))) h1
                  (session_reader fl leftover s) [] w) as V.
    replace (set_inner (session_reader fl leftover s) []) with (session_reader fl leftover []) in V by (destruct fl; reflexivity).
    replace (inner (session_reader fl leftover s)) with s in V by (destruct fl; reflexivity). exact V.
  - assert (forall p s1, hs_step fl decoys (ReadingGarbage buf h1) s w = (let! p := p in Ret (p, s1, w)) ->
              ends_run p s1 w (let! (x, s, reads) := match read s 256 with
      | (Data [], s') => Ret (Err eof, s', reads + 1)
      | (Data bs, s') => garbage_loop fuel h1 (buf ++ bs) s' (reads + 1)
      | (ReadErr k, s') => Ret (Err (from_io k), s', reads + 1)
      end in
     match x with Err e => Ret (Err e, w) | Ok (h, consumed, garbage_buffer) =>
     let! leftover := slice garbage_buffer consumed (len garbage_buffer) in
     let sr := session_reader fl leftover s in
     let! (x, _) := version_loop (S (length (session_content sr))) fl h sr [] in Ret (x, w) end) -> ends _ _ _ _) as Go
      by (intros p s1 H1 H2; eapply ends_step; [exact H1|exact H2]).
    cbn [hs_step] in Go. destruct (read s 256) as [[[|b bs]|k] s1]; eapply Go; try reflexivity.
    + apply ends_failed.
    + apply IH.
    + apply ends_failed.
  - apply ends_failed.
Qed.

Lemma flush_loop p (done : place) s w o :
  hs_step fl decoys p s w =
    (let '(x, w) := flush w in Ret (match x with Ok _ => done | Err k => Over (Err (from_io k)) end, s, w)) ->
  match flush w with
  | (Ok _, w') => ends done s w' o
  | (Err k, w') => o = Ret (Err (from_io k), w')
  end -> ends p s w o.
Proof.
  intros St H. destruct (flush w) as [[u|k] w1].
  - eapply (ends_step _ _ _ (Ret done)); [exact St|exact H].
  - subst o. eapply (ends_step _ _ _ (Ret _)); [exact St|]. apply (ends_failed (from_io k)).
Qed.

Definition outcome (o : hs_outcome) : result perror (cipher * cipher * session) * writer := (ho_result o, ho_writer o).

Lemma key_buffer_nonempty {EL : EnvLaws E} magic r rnd h g h1 kb :
  hs_new magic r rnd = Ret (Ok h) -> send_key h g (zeros (send_key_len g)) = Ret (Ok h1, kb) -> kb <> [].
Proof.
  unfold hs_new. destruct (_ && _)%bool; [discriminate|]. destruct (sk_valid rnd); [|discriminate].
  intros H. injection H as <-. intros H.
  set (h := Handshake magic r _) in H.
  destruct (send_key_contract h g (zeros (send_key_len g)) (ellswift_len rnd)) as (C1 & _ & C & L).
  destruct (N.le_gt_cases (len (garbage_bytes g)) 4095) as [G|G].
  - rewrite C in H by (rewrite ?len_zeros; lia). injection H as _ <-. intros Q. apply (f_equal len) in Q.
    rewrite len_app in Q. cbn [hs_state in_point elligator_swift h] in Q. rewrite ellswift_len, len_nil in Q. lia.
  - rewrite C1 in H by assumption. discriminate.
Qed.

Lemma version_buffer_nonempty {EL : EnvLaws E} h1 their h2 h3 vb :
  len (hs_magic h1) = 4 -> len their = 64 -> receive_key h1 their = Ret (Ok h2) ->
  send_version h2 (zeros (send_version_len decoys)) decoys = Ret (Ok h3, vb) -> vb <> [].
Proof.
  intros Hm Ht R S. destruct (receive_key_v1 h1 their Ht Hm) as [V K].
  assert (take 4 their <> hs_magic h1) as N. { intros Q. apply V in Q. congruence. }
  destruct (K N) as (m & Q & KF). rewrite R in Q. injection Q as ->.
  assert (len (terminator m (hs_role h1)) = 16) as TL by
    (cbn zeta in KF; destruct (in_order (hs_role h1) _ their); eapply terminator_len, KF).
  rewrite send_version_eq in S by
    (cbn [hs_state session_keys hs_role]; rewrite ?TL, ?send_version_len_eq, ?len_zeros; lia || reflexivity).
  apply bind_ret_inv in S. destruct S as ([ps oc] & _ & S). injection S as _ <-.
  cbn [hs_state session_keys hs_role]. intros Q. apply (f_equal len) in Q. rewrite len_app, TL, len_nil in Q. lia.
Qed.

Theorem handshake_steps {EL : EnvLaws E} magic r rnd g s w :
  len magic = 4 ->
  ends_run (hs_begin magic r rnd g) s w
    (let! o := io_handshake fl magic r rnd g decoys s w in Ret (outcome o)).
Proof.
  intros Hm. unfold hs_begin, io_handshake. destruct (hs_new magic r rnd) as [[h|e]| |] eqn:Hn; cbn [bind ends_run]; auto; [|apply ends_failed].
  unfold begin, io_handshake_with. destruct (send_key h g (zeros (send_key_len g))) as [[[h1|e] kb]| |] eqn:SK;
    cbn [bind ends_run]; auto; [|apply ends_failed].
  pose proof (key_buffer_nonempty _ _ _ _ _ _ _ Hn SK) as Kn.
  destruct w as [ws fs wr].
  apply (write_loop (fun rest => SendingKey rest h1) (FlushingKey h1)); [reflexivity|assumption|].
  unfold write_flush. destruct (write_all fl (Writer ws fs wr) kb) as [[u|k] w1]; [|reflexivity].
  apply (flush_loop _ (ReadingKey [] h1)); [reflexivity|].
  destruct (flush w1) as [[u1|k] w2]; [|reflexivity].
  apply (script_loop (fun got => ReadingKey got h1) NUM_ELLIGATOR_SWIFT_BYTES (key_read decoys h1)); [reflexivity|reflexivity|].
  destruct (read_exact fl s NUM_ELLIGATOR_SWIFT_BYTES []) as [[their|k] s1] eqn:Hr; [|reflexivity].
  unfold key_read. destruct (receive_key h1 their) as [[h2|e]| |] eqn:RK; cbn [bind ends_run]; auto; [|apply ends_failed].
  destruct (send_version h2 (zeros (send_version_len decoys)) decoys) as [[[h3|e] vb]| |] eqn:SV; cbn [bind ends_run]; auto; [|apply ends_failed].
  cbn [ends_run]. assert (vb <> []) as Vn.
  { apply read_exact_content in Hr. destruct Hr as [_ Hr]. eapply version_buffer_nonempty; [|exact Hr|exact RK|exact SV].
    rewrite (send_key_magic _ _ _ _ _ SK), (hs_new_magic _ _ _ _ Hn). exact Hm. }
  destruct w2 as [ws2 fs2 wr2].
  apply (write_loop (fun rest => SendingVersion rest h3) (FlushingVersion h3)); [reflexivity|assumption|].
  destruct (write_all fl (Writer ws2 fs2 wr2) vb) as [[u2|k] w3]; [|reflexivity].
  apply (flush_loop _ (ReadingTerminator [] h3)); [reflexivity|].
  destruct (flush w3) as [[u3|k] w4]; [|reflexivity].
  apply (script_loop (fun got => ReadingTerminator got h3) NUM_GARBAGE_TERMINTOR_BYTES (scan_garbage fl h3)); [reflexivity|reflexivity|].
  destruct (read_exact fl s1 NUM_GARBAGE_TERMINTOR_BYTES []) as [[gb|k] s2]; [|reflexivity].
  pose proof (garbage_steps garbage_fuel h3 gb s2 0 w4) as Q.
  destruct (garbage_loop garbage_fuel h3 gb s2 0) as [[[[[[h4 n] buf]|e] s3] reads]| |]; cbn [bind] in *; [|exact Q..].
  destruct (slice buf n (len buf)) as [leftover| |]; cbn [bind] in *; [|exact Q..].
  destruct (version_loop _ fl h4 _ []) as [[x a]| |]; cbn [bind outcome ho_result ho_writer] in *; exact Q.
Qed.
End WithEnv.
