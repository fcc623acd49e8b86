(** * Property C93: writers that hold back what they took *)
From Coq Require Import List Arith NArith Bool Lia.
From Coq.Strings Require Import Byte.
From Verif Require Import Base BaseFacts Env FsChacha Cipher Histories CipherProofs Handshake Transport TransportProofs Io SpecIo
  Sessions SessionProofs Toy PropsCipher PropsHandshake PropsIo HsSteps HsStepsProofs PipesProofs Outgoing SpecOutgoing.
Import ListNotations.
Local Open Scope N_scope.

(** ** The writers *)

Lemma raw_takes w bs o w' : raw_write w bs = (o, w') ->
  match o with
  | Some (Ok n) => n <= len bs /\ written w' = written w ++ take n bs
  | _ => written w' = written w
  end.
Proof.
  unfold raw_write. destruct (w_script w) as [|[n|k|] s]; intros H; injection H as <- <-; cbn [written].
  - split; [lia|]. now rewrite take_all by lia.
  - split; [lia|]. f_equal. destruct (N.le_gt_cases n (len bs)); [now rewrite N.min_l by assumption|]. now rewrite N.min_r, !take_all by lia.
  - reflexivity.
  - reflexivity.
Qed.

Lemma raw_flushes w o w' : raw_flush w = (o, w') -> written w' = written w /\ w_script w' = w_script w.
Proof. unfold raw_flush. destruct (flushes w) as [|[|k|] f]; intros H; injection H as <- <-; split; reflexivity. Qed.

Lemma drain_takes fl : forall fuel buffer w x buffer' w', drain fuel fl buffer w = (x, buffer', w') ->
  (exists more, written w' = written w ++ more) /\ written w' ++ buffer' = written w ++ buffer /\
  ((S (length (w_script w)) < fuel)%nat -> x = Some (Ok tt) -> buffer' = []).
Proof.
  induction fuel as [|fuel IH]; intros buffer w x buffer' w' H; cbn [drain] in H.
  - injection H as <- <- <-. split; [exists []; now rewrite app_nil_r|]. split; [reflexivity|]. intros F. lia.
  - destruct buffer as [|b buffer]; [injection H as <- <- <-; split; [exists []; now rewrite app_nil_r|]; split; [reflexivity|reflexivity]|].
    set (bb := b :: buffer) in *.
    assert (LEN : forall o w1, raw_write w bb = (o, w1) -> w_script w = [] \/ (S (length (w_script w1)) = length (w_script w))%nat).
    { unfold raw_write. intros o w1 Q. destruct (w_script w) as [|[n|k|] s]; injection Q as <- <-; [left; reflexivity|right; reflexivity..]. }
    destruct (raw_write w bb) as [o w1] eqn:R. specialize (LEN o w1 eq_refl). pose proof (raw_takes _ _ _ _ R) as T. destruct o as [[n|k]|].
    + destruct T as (T1 & T2). destruct (N.eqb_spec n 0) as [->|N0].
      * injection H as <- <- <-. rewrite T2, take_0. rewrite app_nil_r. split; [exists []; now rewrite app_nil_r|]. split; [reflexivity|discriminate].
      * destruct (IH _ _ _ _ _ H) as ((more & I1) & I2 & I3). split; [exists (take n bb ++ more); rewrite I1, T2, app_assoc; reflexivity|]. split.
        -- rewrite I2, T2, <- app_assoc, take_drop. reflexivity.
        -- intros F. destruct LEN as [LEN|LEN]; [|apply I3; lia].
           unfold raw_write in R. rewrite LEN in R. injection R as <- <-. subst bb. rewrite drop_all in H by lia. intros Q.
           destruct fuel; cbn [drain] in H; injection H as <- <- <-; reflexivity.
    + destruct (retries fl k).
      * destruct (IH _ _ _ _ _ H) as ((more & I1) & I2 & I3). rewrite T in I1, I2. split; [exists more; exact I1|]. split; [exact I2|].
        intros F. destruct LEN as [LEN|LEN]; [|apply I3; lia]. unfold raw_write in R. rewrite LEN in R. discriminate R.
      * injection H as <- <- <-. rewrite T. split; [exists []; now rewrite app_nil_r|]. split; [reflexivity|discriminate].
    + injection H as <- <- <-. rewrite T. split; [exists []; now rewrite app_nil_r|]. split; [reflexivity|discriminate].
Qed.

(** ** C93 *)
(** [BufWriter]s of any capacity, and writers that hold back nothing. *)
Theorem C93_bufwriter : forall fl,
  holding (buf_write fl) (buf_flush fl) (fun b => written (bw_inner b)) bw_buffer /\
  holding raw_write raw_flush written (fun _ => []).
Proof.
  intros fl. split; split.
  - intros b bs o b' H. unfold buf_write in H.
    destruct (if bw_capacity b <? len (bw_buffer b) + len bs then drain (drain_fuel (bw_inner b)) fl (bw_buffer b) (bw_inner b)
      else (Some (Ok tt), bw_buffer b, bw_inner b)) as [[x buffer] w] eqn:D.
    assert (T : (exists more, written w = written (bw_inner b) ++ more) /\ written w ++ buffer = written (bw_inner b) ++ bw_buffer b /\
      (bw_capacity b < len (bw_buffer b) + len bs -> x = Some (Ok tt) -> buffer = [])).
    { destruct (N.ltb_spec (bw_capacity b) (len (bw_buffer b) + len bs)).
      - destruct (drain_takes _ _ _ _ _ _ _ D) as (T1 & T2 & T3). split; [exact T1|]. split; [exact T2|]. intros _. apply T3. unfold drain_fuel. lia.
      - injection D as <- <- <-. split; [exists []; now rewrite app_nil_r|]. split; [reflexivity|]. lia. }
    destruct T as ((more & T1) & T2 & T3). destruct x as [[[]|k]|].
    + destruct (N.leb_spec (bw_capacity b) (len bs)) as [G|G].
      * assert (B : buffer = []).
        { destruct (N.lt_ge_cases (bw_capacity b) (len (bw_buffer b) + len bs)) as [L|L]; [exact (T3 L eq_refl)|].
          assert (Z : bw_buffer b = []) by (apply len_0_nil; lia).
          destruct (N.ltb_spec (bw_capacity b) (len (bw_buffer b) + len bs)); [lia|]. injection D as <- _. exact Z. }
        subst buffer. rewrite app_nil_r in T2. destruct (raw_write w bs) as [r w1] eqn:R. pose proof (raw_takes _ _ _ _ R) as T. injection H as <- <-. cbn [bw_inner bw_buffer].
        destruct r as [[n|k]|].
        -- destruct T as (S1 & S2). rewrite S2, T1. split; [exists (more ++ take n bs); now rewrite app_assoc|]. split; [exact S1|].
           rewrite app_nil_r. rewrite <- T1, T2, app_assoc. reflexivity.
        -- rewrite T, app_nil_r, T2. split; [exists more; congruence|reflexivity].
        -- rewrite T, app_nil_r, T2. split; [exists more; congruence|reflexivity].
      * injection H as <- <-. cbn [bw_inner bw_buffer]. split; [exists more; exact T1|]. split; [lia|]. rewrite take_all by lia.
        rewrite app_assoc, T2, app_assoc. reflexivity.
    + injection H as <- <-. cbn [bw_inner bw_buffer]. split; [exists more; exact T1|exact T2].
    + injection H as <- <-. cbn [bw_inner bw_buffer]. split; [exists more; exact T1|exact T2].
  - intros b o b' H. unfold buf_flush in H. destruct (drain (drain_fuel (bw_inner b)) fl (bw_buffer b) (bw_inner b)) as [[x buffer] w] eqn:D.
    destruct (drain_takes _ _ _ _ _ _ _ D) as (T1 & T2 & T3). destruct x as [[[]|k]|].
    + destruct (raw_flush w) as [r w1] eqn:R. destruct (raw_flushes _ _ _ R) as (F1 & _). injection H as <- <-. cbn [bw_inner bw_buffer]. rewrite F1.
      split; [exact T1|]. split; [exact T2|]. intros _. apply T3; [unfold drain_fuel; lia|reflexivity].
    + injection H as <- <-. cbn [bw_inner bw_buffer]. split; [exact T1|]. split; [exact T2|discriminate].
    + injection H as <- <-. cbn [bw_inner bw_buffer]. split; [exact T1|]. split; [exact T2|discriminate].
  - intros w bs o w' H. pose proof (raw_takes _ _ _ _ H) as T. destruct o as [[n|k]|].
    + destruct T as (T1 & T2). split; [exists (take n bs); exact T2|]. split; [exact T1|]. rewrite T2, app_nil_r. reflexivity.
    + rewrite T. split; [exists []; now rewrite app_nil_r|reflexivity].
    + rewrite T. split; [exists []; now rewrite app_nil_r|reflexivity].
  - intros w o w' H. destruct (raw_flushes _ _ _ H) as (T & _). rewrite T. split; [exists []; now rewrite app_nil_r|]. split; reflexivity.
Qed.
Print Assumptions C93_bufwriter.

Lemma plain_write_once fl w rest : 0 < len rest -> any_write_once writer raw_write fl w rest = write_once fl w rest.
Proof.
  intros L. unfold any_write_once, raw_write, write_once. destruct (w_script w) as [|[n|k|] s]; [| |reflexivity..].
  - destruct (N.eqb_spec (len rest) 0); [lia|]. now rewrite (proj2 (N.leb_le _ _) (N.le_refl (len rest))).
  - destruct (N.eqb_spec n 0) as [->|N0].
    + rewrite N.min_0_l. cbn [N.eqb]. now rewrite take_0, app_nil_r.
    + destruct (N.eqb_spec (N.min n (len rest)) 0); [lia|]. destruct (N.leb_spec (len rest) n) as [G|G].
      * rewrite N.min_r by exact G. rewrite (proj2 (N.leb_le _ _) (N.le_refl (len rest))). now rewrite take_all by lia.
      * rewrite N.min_l by lia. rewrite (proj2 (N.leb_gt _ _)) by lia. reflexivity.
Qed.

Section Any.
Context {E : Env}.
Variables (St : Type) (wr : St -> bytes -> option (result io_kind N) * St) (fsh : St -> option (result io_kind unit) * St).
Variables (sent held : St -> bytes).
Hypothesis HOLD : holding wr fsh sent held.

(** One call, and the same call of a scripted writer; none where nothing happened. *)
Lemma once_scripted fl st rest x st' : any_write_once St wr fl st rest = (x, st') ->
  (exists more, sent st' = sent st ++ more) /\
  exists ws out, sent st' ++ held st' = sent st ++ held st ++ out /\
    (forall t ft w0, match ws with
      | [] => x = MoreToWrite rest /\ out = []
      | e :: _ => ws = [e] /\ write_once fl (Writer (e :: t) ft w0) rest = (x, Writer t ft (w0 ++ out))
      end) /\
    match x with AllWritten => rest = out | MoreToWrite rest' => rest = out ++ rest' | WriteFailed _ => out = [] end.
Proof.
  unfold any_write_once. destruct (wr st rest) as [o st1] eqn:W. destruct (proj1 HOLD _ _ _ _ W) as (M & T). destruct o as [[n|k]|].
  - destruct T as (T1 & T2). intros H. injection H as <- <-. split; [exact M|]. exists [Accept n], (if n =? 0 then [] else take n rest).
    destruct (N.eqb_spec n 0) as [->|N0].
    + rewrite take_0 in T2. split; [exact T2|]. split; [|reflexivity]. intros t ft w0. split; [reflexivity|]. unfold write_once. cbn [w_script flushes written]. now rewrite N.eqb_refl, app_nil_r.
    + split; [exact T2|]. destruct (N.leb_spec (len rest) n) as [G|G].
      * rewrite take_all by lia. split; [|reflexivity]. intros t ft w0. split; [reflexivity|]. unfold write_once. cbn [w_script flushes written].
        now rewrite (proj2 (N.eqb_neq _ _) N0), (proj2 (N.leb_le _ _) G).
      * split; [|symmetry; apply take_drop]. intros t ft w0. split; [reflexivity|]. unfold write_once. cbn [w_script flushes written].
        now rewrite (proj2 (N.eqb_neq _ _) N0), (proj2 (N.leb_gt _ _) G).
  - intros H. injection H as <- <-. split; [exact M|]. exists [WFail k], []. rewrite app_nil_r. split; [exact T|]. split.
    + intros t ft w0. split; [reflexivity|]. unfold write_once. cbn [w_script flushes written]. now rewrite app_nil_r.
    + destruct (retries fl k); reflexivity.
  - intros H. injection H as <- <-. split; [exact M|]. exists [], []. rewrite app_nil_r. split; [exact T|]. split; [|reflexivity]. intros. split; reflexivity.
Qed.

Definition quiet_place (p : place) : Prop :=
  match p with SendingKey _ _ | FlushingKey _ | SendingVersion _ _ | FlushingVersion _ => False | _ => True end.

(** Elsewhere the writer does not matter. *)
Lemma other_places fl d p s w : quiet_place p ->
  hs_step fl d p s w = let! (p, s, _) := hs_step fl d p s (Writer [] [] []) in Ret (p, s, w).
Proof.
  destruct p; cbn [quiet_place]; intros Q; try contradiction Q; cbn [hs_step bind].
  - destruct (read _ _) as [r s1]. destruct (reading _ _ _ _ _ _); reflexivity.
  - destruct (read _ _) as [r s1]. destruct (reading _ _ _ _ _ _); reflexivity.
  - destruct (read _ _) as [r s1]. destruct r as [[|b bs]|k]; [reflexivity| |reflexivity]. destruct (scan_garbage _ _ _); reflexivity.
  - destruct (session_read _ _) as [r s1]. destruct (reading _ _ _ _ _ _); reflexivity.
  - destruct (session_read _ _) as [r s1]. destruct (reading _ _ _ _ _ _); reflexivity.
  - reflexivity.
Qed.

(** What any writer saw of the handshake, a scripted one sees. *)
Definition scripted (fl : flavor) (d : option (list bytes)) (p : place) (s : script) (st : St) (o : run (place * script * St)) : Prop :=
  match o with
  | Ret (p', s', st') =>
    (exists more, sent st' = sent st ++ more) /\
    exists k ws fs out, sent st' ++ held st' = sent st ++ held st ++ out /\
      forall t ft w0, hs_steps k fl d p s (Writer (ws ++ t) (fs ++ ft) w0) = Ret (p', s', Writer t ft (w0 ++ out))
  | Panic => exists k ws fs, forall t ft w0, hs_steps k fl d p s (Writer (ws ++ t) (fs ++ ft) w0) = Panic
  | NoFuel => exists k ws fs, forall t ft w0, hs_steps k fl d p s (Writer (ws ++ t) (fs ++ ft) w0) = NoFuel
  end.

Lemma scripted_stay fl d p s st st' : (exists more, sent st' = sent st ++ more) -> sent st' ++ held st' = sent st ++ held st ->
  scripted fl d p s st (Ret (p, s, st')).
Proof.
  intros M T. split; [exact M|]. exists 0%nat, [], [], []. rewrite app_nil_r. split; [exact T|]. intros. cbn [hs_steps app]. now rewrite app_nil_r.
Qed.

Lemma step_scripted fl d p s st : scripted fl d p s st (any_wstep St wr fsh fl d p s st).
Proof.
  assert (SEND : forall (mk : bytes -> place) (next : place) rest,
    (forall w, hs_step fl d (mk rest) s w = let '(x, w) := write_once fl w rest in
      Ret (match x with AllWritten => next | MoreToWrite rest => mk rest | WriteFailed k => Over (Err (from_io k)) end, s, w)) ->
    scripted fl d (mk rest) s st (let '(x, st) := any_write_once St wr fl st rest in
      Ret (match x with AllWritten => next | MoreToWrite rest => mk rest | WriteFailed k => Over (Err (from_io k)) end, s, st))).
  { intros mk next rest STEP. destruct (any_write_once St wr fl st rest) as [x st'] eqn:W. destruct (once_scripted _ _ _ _ _ W) as (M & ws & out & T & X & _).
    destruct ws as [|e ws].
    - destruct (X [] [] []) as (-> & ->). rewrite app_nil_r in T. exact (scripted_stay fl d _ s st st' M T).
    - split; [exact M|]. exists 1%nat, [e], [], out. split; [exact T|]. intros t ft w0. destruct (X t ft w0) as (_ & X1). cbn [hs_steps app]. rewrite STEP, X1. reflexivity. }
  assert (FLUSH : forall p next, (forall w, hs_step fl d p s w = let '(x, w) := flush w in
      Ret (match x with Ok _ => next | Err k => Over (Err (from_io k)) end, s, w)) ->
    scripted fl d p s st (let '(x, st) := fsh st in
      Ret (match x with None => p | Some (Ok _) => next | Some (Err k) => Over (Err (from_io k)) end, s, st))).
  { clear p. intros p next STEP. destruct (fsh st) as [x st'] eqn:F. destruct (proj2 HOLD _ _ _ F) as (M & T & _). destruct x as [[[]|k]|].
    - split; [exact M|]. exists 1%nat, [], [FlushOk], []. rewrite app_nil_r. split; [exact T|]. intros. cbn [hs_steps app]. rewrite STEP. cbn. now rewrite app_nil_r.
    - split; [exact M|]. exists 1%nat, [], [FlushFail k], []. rewrite app_nil_r. split; [exact T|]. intros. cbn [hs_steps app]. rewrite STEP. cbn. now rewrite app_nil_r.
    - exact (scripted_stay fl d p s st st' M T). }
  assert (ELSE : quiet_place p -> scripted fl d p s st (let! (p, s, _) := hs_step fl d p s (Writer [] [] []) in Ret (p, s, st))).
  { intros Q. pose proof (fun w => other_places fl d p s w Q) as O. destruct (hs_step fl d p s (Writer [] [] [])) as [[[p1 s1] w1]| |]; cbn [bind] in O |- *.
    - split; [exists []; now rewrite app_nil_r|]. exists 1%nat, [], [], []. rewrite app_nil_r. split; [reflexivity|]. intros. cbn [hs_steps app]. rewrite O. cbn [bind]. now rewrite app_nil_r.
    - exists 1%nat, [], []. intros. cbn [hs_steps app]. now rewrite O.
    - exists 1%nat, [], []. intros. cbn [hs_steps app]. now rewrite O. }
  destruct p; cbn [any_wstep].
  - apply (SEND (fun rest => SendingKey rest h) (FlushingKey h)). reflexivity.
  - apply FLUSH. reflexivity.
  - now apply ELSE.
  - apply (SEND (fun rest => SendingVersion rest h) (FlushingVersion h)). reflexivity.
  - apply FLUSH. reflexivity.
  - now apply ELSE.
  - now apply ELSE.
  - now apply ELSE.
  - now apply ELSE.
  - now apply ELSE.
Qed.

Lemma steps_scripted fl d : forall n p s st, scripted fl d p s st (any_wsteps St wr fsh n fl d p s st).
Proof.
  induction n as [|n IH]; intros p s st; cbn [any_wsteps].
  - apply scripted_stay; [exists []; now rewrite app_nil_r|reflexivity].
  - pose proof (step_scripted fl d p s st) as H1. destruct (any_wstep St wr fsh fl d p s st) as [[[p1 s1] st1]| |]; cbn [bind]; [|exact H1..].
    destruct H1 as ((m1 & M1) & k1 & ws1 & fs1 & out1 & T1 & R1). pose proof (IH p1 s1 st1) as H2. destruct (any_wsteps St wr fsh n fl d p1 s1 st1) as [[[p2 s2] st2]| |].
    + destruct H2 as ((m2 & M2) & k2 & ws2 & fs2 & out2 & T2 & R2). split; [exists (m1 ++ m2); now rewrite M2, M1, app_assoc|].
      exists (k1 + k2)%nat, (ws1 ++ ws2), (fs1 ++ fs2), (out1 ++ out2). split; [rewrite T2, app_assoc, T1, <- !app_assoc; reflexivity|].
      intros. rewrite <- !app_assoc, hs_steps_app, R1. cbn [bind]. rewrite R2, <- app_assoc. reflexivity.
    + destruct H2 as (k2 & ws2 & fs2 & R2). exists (k1 + k2)%nat, (ws1 ++ ws2), (fs1 ++ fs2). intros. rewrite <- !app_assoc, hs_steps_app, R1. cbn [bind]. apply R2.
    + destruct H2 as (k2 & ws2 & fs2 & R2). exists (k1 + k2)%nat, (ws1 ++ ws2), (fs1 ++ fs2). intros. rewrite <- !app_assoc, hs_steps_app, R1. cbn [bind]. apply R2.
Qed.

Lemma listens_quiet p : listens p -> quiet_place p.
Proof. destruct p; cbn; tauto. Qed.

Lemma step_listens fl d p s st p' s' st' : any_wstep St wr fsh fl d p s st = Ret (p', s', st') -> (listens p -> held st = []) ->
  listens p' -> held st' = [].
Proof.
  intros H L L'. destruct p; cbn [any_wstep] in H.
  - destruct (any_write_once _ _ _ _ _) as [x st1]. injection H as <- _ _. destruct x; contradiction L'.
  - destruct (fsh st) as [x st1] eqn:F. destruct (proj2 HOLD _ _ _ F) as (_ & _ & D). injection H as P _ <-. destruct x as [[[]|k]|]; [now apply D| |]; rewrite <- P in L'; contradiction L'.
  - destruct (hs_step _ _ _ _ _) as [[[p1 s1] w1]| |]; try discriminate H. injection H as _ _ <-. apply L. exact I.
  - destruct (any_write_once _ _ _ _ _) as [x st1]. injection H as <- _ _. destruct x; contradiction L'.
  - destruct (fsh st) as [x st1] eqn:F. destruct (proj2 HOLD _ _ _ F) as (_ & _ & D). injection H as P _ <-. destruct x as [[[]|k]|]; [now apply D| |]; rewrite <- P in L'; contradiction L'.
  - destruct (hs_step _ _ _ _ _) as [[[p1 s1] w1]| |]; try discriminate H. injection H as _ _ <-. apply L. exact I.
  - destruct (hs_step _ _ _ _ _) as [[[p1 s1] w1]| |]; try discriminate H. injection H as _ _ <-. apply L. exact I.
  - destruct (hs_step _ _ _ _ _) as [[[p1 s1] w1]| |]; try discriminate H. injection H as _ _ <-. apply L. exact I.
  - destruct (hs_step _ _ _ _ _) as [[[p1 s1] w1]| |]; try discriminate H. injection H as _ _ <-. apply L. exact I.
  - cbn [hs_step bind] in H. injection H as <- _ <-. exact (L L').
Qed.

Lemma steps_listens fl d : forall n p s st p' s' st', any_wsteps St wr fsh n fl d p s st = Ret (p', s', st') -> (listens p -> held st = []) ->
  listens p' -> held st' = [].
Proof.
  induction n as [|n IH]; intros p s st p' s' st' H L; cbn [any_wsteps] in H; [injection H as <- _ <-; exact L|].
  destruct (any_wstep St wr fsh fl d p s st) as [[[p1 s1] st1]| |] eqn:W; try discriminate H. cbn [bind] in H.
  exact (IH _ _ _ _ _ _ H (step_listens _ _ _ _ _ _ _ _ W L)).
Qed.

Lemma begin_silent magic r rnd g p : hs_begin magic r rnd g = Ret p -> ~ listens p.
Proof.
  unfold hs_begin. destruct (hs_new magic r rnd) as [[h|e]| |]; cbn [bind]; intros H; try discriminate H.
  - unfold begin in H. destruct (send_key _ _ _) as [[[h1|e] kb]| |]; cbn [bind] in H; try discriminate H; injection H as <-; intros L; exact L.
  - injection H as <-. intros L; exact L.
Qed.

(** ** Writing *)

Lemma out_scripted fl : forall n rest st q st', out_steps St wr fsh n fl (Putting rest) st = (q, st') ->
  (exists more, sent st' = sent st ++ more) /\
  exists out left, rest = out ++ left /\ sent st' ++ held st' = sent st ++ held st ++ out /\
    match q with
    | Putting now => now = left
    | Pushing => left = []
    | Finished (Ok _) => left = [] /\ held st' = []
    | Finished (Err _) => True
    end.
Proof.
  assert (DONE : forall n x st, out_steps St wr fsh n fl (Finished x) st = (Finished x, st)) by (induction n as [|n IH]; intros; cbn [out_steps out_step]; auto).
  assert (PUSH : forall n st q st', out_steps St wr fsh n fl Pushing st = (q, st') ->
    (exists more, sent st' = sent st ++ more) /\ sent st' ++ held st' = sent st ++ held st /\
    match q with Putting _ => False | Finished (Ok _) => held st' = [] | _ => True end).
  { induction n as [|n IH]; intros st q st' H; cbn [out_steps out_step] in H.
    - injection H as <- <-. split; [exists []; now rewrite app_nil_r|]. split; [reflexivity|exact I].
    - destruct (fsh st) as [x st1] eqn:F. destruct (proj2 HOLD _ _ _ F) as ((m & M) & T & D). destruct x as [[[]|k]|].
      + rewrite DONE in H. injection H as <- <-. split; [exists m; exact M|]. split; [exact T|]. now apply D.
      + rewrite DONE in H. injection H as <- <-. split; [exists m; exact M|]. split; [exact T|exact I].
      + destruct (IH _ _ _ H) as ((m2 & M2) & T2 & D2). split; [exists (m ++ m2); now rewrite M2, M, app_assoc|]. split; [now rewrite T2|exact D2]. }
  induction n as [|n IH]; intros rest st q st' H; cbn [out_steps out_step] in H.
  - injection H as <- <-. split; [exists []; now rewrite app_nil_r|]. exists [], rest. rewrite app_nil_r. repeat split; reflexivity.
  - destruct (any_write_once St wr fl st rest) as [x st1] eqn:W. destruct (once_scripted _ _ _ _ _ W) as ((m & M) & ws & out & T & _ & X). destruct x as [|rest1|k].
    + destruct (PUSH _ _ _ _ H) as ((m2 & M2) & T2 & D2). split; [exists (m ++ m2); now rewrite M2, M, app_assoc|]. exists out, []. rewrite app_nil_r. split; [exact X|].
      split; [now rewrite T2|]. destruct q as [now| |[[]|e]]; [contradiction D2|reflexivity|split; [reflexivity|exact D2]|exact I].
    + destruct (IH _ _ _ _ H) as ((m2 & M2) & out2 & left & X2 & T2 & D2). split; [exists (m ++ m2); now rewrite M2, M, app_assoc|]. exists (out ++ out2), left.
      split; [rewrite X, X2, app_assoc; reflexivity|]. split; [rewrite T2, app_assoc, T, <- !app_assoc; reflexivity|exact D2].
    + rewrite DONE in H. injection H as <- <-. split; [exists m; exact M|]. exists out, rest. rewrite X in *. split; [reflexivity|]. split; [exact T|exact I].
Qed.

End Any.

(** Over a writer that holds back nothing the calls are those of HsSteps.v. *)
Theorem C93_plain : forall fl w rest, 0 < len rest ->
  any_write_once writer raw_write fl w rest = write_once fl w rest.
Proof. exact plain_write_once. Qed.
Print Assumptions C93_plain.

(** The handshake over any writer: it does what it does over a scripted one, which took the same bytes; where it reads, or is done, all
    of them are sent. *)
Theorem C93_handshake : forall (E : Env) (St : Type) wr fsh (sent held : St -> bytes) magic r rnd g d fl n p s st,
  holding wr fsh sent held -> hs_begin magic r rnd g = Ret p ->
  match any_wsteps St wr fsh n fl d p s st with
  | Ret (p', s', st') =>
    (exists more, sent st' = sent st ++ more) /\
    exists k ws fs out, hs_steps k fl d p s (Writer ws fs []) = Ret (p', s', Writer [] [] out) /\
      sent st' ++ held st' = sent st ++ held st ++ out /\
      (listens p' -> held st' = [] /\ sent st' = sent st ++ held st ++ out)
  | Panic => exists k ws fs, hs_steps k fl d p s (Writer ws fs []) = Panic
  | NoFuel => exists k ws fs, hs_steps k fl d p s (Writer ws fs []) = NoFuel
  end.
Proof.
  intros E St wr fsh sent held magic r rnd g d fl n p s st HOLD B. pose proof (steps_scripted St wr fsh sent held HOLD fl d n p s st) as H.
  pose proof (steps_listens St wr fsh sent held HOLD fl d n p s st) as L. destruct (any_wsteps St wr fsh n fl d p s st) as [[[p' s'] st']| |].
  - destruct H as (M & k & ws & fs & out & T & R). split; [exact M|]. exists k, ws, fs, out. specialize (R [] [] []). rewrite !app_nil_r in R. split; [exact R|]. split; [exact T|].
    intros L'. assert (D : held st' = []) by (apply (L p' s' st' eq_refl); [intros L0; destruct (begin_silent magic r rnd g p B L0)|exact L']).
    split; [exact D|]. now rewrite D, app_nil_r in T.
  - destruct H as (k & ws & fs & R). exists k, ws, fs. specialize (R [] [] []). now rewrite !app_nil_r in R.
  - destruct H as (k & ws & fs & R). exists k, ws, fs. specialize (R [] [] []). now rewrite !app_nil_r in R.
Qed.
Print Assumptions C93_handshake.

(** [write] over any writer: at every point a prefix of one packet was taken, and it succeeds only with all of it, and all before it,
    sent. *)
Theorem C93_write : forall (E : Env) (EL : EnvLaws E) (St : Type) wr fsh (sent held : St -> bytes) fl c pl q0 c' n q st st',
  holding wr fsh sent held -> out_begin fl c pl = Ret (q0, c') -> out_steps St wr fsh n fl q0 st = (q, st') ->
  exists t contents pkt out left,
    payload_view pl = Ret (t, contents) /\ encrypt_to_vec c contents t None = Ret (pkt, c') /\ pkt = out ++ left /\
    (exists more, sent st' = sent st ++ more) /\ sent st' ++ held st' = sent st ++ held st ++ out /\
    (forall x, q = Finished (Ok x) -> held st' = [] /\ sent st' = sent st ++ held st ++ pkt).
Proof.
  intros E EL St wr fsh sent held fl c pl q0 c' n q st st' HOLD B R.
  assert (PKT : exists t contents pkt, payload_view pl = Ret (t, contents) /\ encrypt_to_vec c contents t None = Ret (pkt, c') /\ q0 = Putting pkt).
  { unfold out_begin in B. unfold payload_view. destruct (payload_contents pl) as [contents| |]; try discriminate B. cbn [bind] in B.
    destruct (payload_type pl) as [t| |]; try discriminate B. cbn [bind] in B |- *. exists t, contents. destruct fl.
    - destruct (encrypt_to_vec c contents t None) as [[pkt c1]| |]; try discriminate B. injection B as <- <-. exists pkt. repeat split.
    - unfold encryption_buffer_len in B. change NUM_PACKET_OVERHEAD_BYTES with 20 in B. rewrite encrypt_exact in B.
      destruct (encrypt_to_vec c contents t None) as [[pkt c1]| |]; try discriminate B. injection B as <- <-. exists pkt. repeat split. }
  destruct PKT as (t & contents & pkt & V & C & ->). destruct (out_scripted St wr fsh sent held HOLD fl _ _ _ _ _ R) as (M & out & left & X & T & D).
  exists t, contents, pkt, out, left. repeat split; try assumption.
  - subst q. apply D.
  - subst q. destruct D as (D1 & D2). rewrite D1, app_nil_r in X. now rewrite D2, app_nil_r, <- X in T.
Qed.
Print Assumptions C93_write.

(** A [write] that was refused when it flushed left its packet with the writer: the next one that succeeds sends both. *)
Theorem C93_sent_after_all : forall (E : Env) (EL : EnvLaws E) (St : Type) wr fsh (sent held : St -> bytes) fl c pl1 q1 c1 n1 n2 st st1 e st2 pl2 q2 c2 n3 st3 x,
  holding wr fsh sent held ->
  out_begin fl c pl1 = Ret (q1, c1) -> out_steps St wr fsh n1 fl q1 st = (Pushing, st1) ->
  out_steps St wr fsh n2 fl Pushing st1 = (Finished (Err e), st2) ->
  out_begin fl c1 pl2 = Ret (q2, c2) -> out_steps St wr fsh n3 fl q2 st2 = (Finished (Ok x), st3) ->
  exists t1 contents1 pkt1 t2 contents2 pkt2,
    payload_view pl1 = Ret (t1, contents1) /\ encrypt_to_vec c contents1 t1 None = Ret (pkt1, c1) /\
    payload_view pl2 = Ret (t2, contents2) /\ encrypt_to_vec c1 contents2 t2 None = Ret (pkt2, c2) /\
    sent st3 = sent st ++ held st ++ pkt1 ++ pkt2.
Proof.
  intros E EL St wr fsh sent held fl c pl1 q1 c1 n1 n2 st st1 e st2 pl2 q2 c2 n3 st3 x HOLD B1 R1 R2 B2 R3.
  destruct (C93_write E EL St wr fsh sent held fl c pl1 q1 c1 0 q1 st st HOLD B1 eq_refl) as (t1 & contents1 & pkt1 & _ & _ & V1 & C1 & _).
  destruct (C93_write E EL St wr fsh sent held fl c1 pl2 q2 c2 n3 _ st2 st3 HOLD B2 R3) as (t2 & contents2 & pkt2 & out2 & left2 & V2 & C2 & _ & _ & _ & D2).
  exists t1, contents1, pkt1, t2, contents2, pkt2. repeat split; try assumption.
  assert (Q : q1 = Putting pkt1).
  { unfold out_begin in B1. unfold payload_view in V1. destruct (payload_contents pl1) as [ct| |]; try discriminate B1. cbn [bind] in B1.
    destruct (payload_type pl1) as [t| |]; try discriminate B1. cbn [bind] in B1, V1. injection V1 as -> ->. destruct fl.
    - rewrite C1 in B1. now injection B1 as <-.
    - unfold encryption_buffer_len in B1. change NUM_PACKET_OVERHEAD_BYTES with 20 in B1. rewrite encrypt_exact, C1 in B1. now injection B1 as <-. }
  subst q1. destruct (out_scripted St wr fsh sent held HOLD fl _ _ _ _ _ R1) as (_ & out & left & X & T & D). cbn in D. subst left. rewrite app_nil_r in X. subst out.
  assert (PUSH : forall n st q st', out_steps St wr fsh n fl Pushing st = (q, st') -> sent st' ++ held st' = sent st ++ held st).
  { clear - HOLD. assert (DONE : forall n x st, out_steps St wr fsh n fl (Finished x) st = (Finished x, st)) by (induction n as [|n IH]; intros; cbn [out_steps out_step]; auto).
    induction n as [|n IH]; intros st q st' H; cbn [out_steps out_step] in H; [now injection H as <- <-|].
    destruct (fsh st) as [y st1] eqn:F. destruct (proj2 HOLD _ _ _ F) as (_ & T & _). destruct y as [[[]|k]|]; [rewrite DONE in H; injection H as _ <-; exact T..|].
    rewrite (IH _ _ _ H). exact T. }
  destruct (D2 x eq_refl) as (_ & D3). rewrite D3, app_assoc, (PUSH _ _ _ _ R2), T, <- !app_assoc. reflexivity.
Qed.
Print Assumptions C93_sent_after_all.

(** An error from [write], with nothing sent, does not mean that the packet will not be sent. *)
Theorem C93_error_means_unsent_refuted :
  ~ forall (E : Env) (EL : EnvLaws E) (St : Type) wr fsh (sent held : St -> bytes) fl c pl1 q1 c1 n1 st e st1 pl2 q2 c2 n2 st2 x t contents pkt,
      holding wr fsh sent held -> held st = [] ->
      out_begin fl c pl1 = Ret (q1, c1) -> out_steps St wr fsh n1 fl q1 st = (Finished (Err e), st1) -> sent st1 = sent st ->
      out_begin fl c1 pl2 = Ret (q2, c2) -> out_steps St wr fsh n2 fl q2 st1 = (Finished (Ok x), st2) ->
      payload_view pl1 = Ret (t, contents) -> encrypt_to_vec c contents t None = Ret (pkt, c1) ->
      ~ exists more, sent st2 = sent st ++ pkt ++ more.
Proof.
  intros H. pose (st := buf_writer_new 8192 (Writer [WFail (OtherKind 11)] [] [])). pose (pl := genuine [x01; x02; x03]).
  destruct (@out_begin (toy true) Sync toy_in pl) as [[q1 c1]| |] eqn:B1; try (vm_compute in B1; discriminate B1).
  destruct (@out_begin (toy true) Sync c1 pl) as [[q2 c2]| |] eqn:B2; try (vm_compute in B1; injection B1 as _ <-; vm_compute in B2; discriminate B2).
  destruct (@encrypt_to_vec (toy true) toy_in [x01; x02; x03] Genuine None) as [[pkt c1']| |] eqn:P; try (vm_compute in P; discriminate P).
  destruct (out_steps buf_writer (buf_write Sync) (buf_flush Sync) 3 Sync q1 st) as [y1 st1] eqn:R1.
  destruct (out_steps buf_writer (buf_write Sync) (buf_flush Sync) 3 Sync q2 st1) as [y2 st2] eqn:R2.
  vm_compute in B1. injection B1 as <- <-. vm_compute in P. injection P as <- <-. vm_compute in B2. injection B2 as <- <-.
  vm_compute in R1. injection R1 as <- <-. vm_compute in R2. injection R2 as <- <-.
  eapply (H (toy true) (toy_laws true) buf_writer (buf_write Sync) (buf_flush Sync) (fun b => written (bw_inner b)) bw_buffer Sync toy_in pl _ _ 3%nat st _ _ pl _ _ 3%nat);
    [apply C93_bufwriter|reflexivity|vm_compute; reflexivity|vm_compute; reflexivity|reflexivity|vm_compute; reflexivity|vm_compute; reflexivity|reflexivity|vm_compute; reflexivity|].
  eexists. vm_compute. reflexivity.
Qed.
Print Assumptions C93_error_means_unsent_refuted.

(** A handshake over a [BufWriter]: nothing leaves before the flush, all has left when the key is awaited and at the end. *)
Example C93_example :
  let b := snd sample_wires in
  let begun := @hs_begin (toy true) mainnet Initiator ska (Some (repeat x2a 300)) in
  let after n := let! p := begun in @any_wsteps (toy true) _ (buf_write Sync) (buf_flush Sync) n Sync None p [Chunk b] (buf_writer_new 8192 fresh) in
  match after 1%nat, after 2%nat, after 30%nat, io_handshake (E := toy true) Sync mainnet Initiator ska (Some (repeat x2a 300)) None [Chunk b] fresh with
  | Ret (FlushingKey _, _, b1), Ret (ReadingKey _ _, _, b2), Ret (Over (Ok _), _, b3), Ret o =>
    written (bw_inner b1) = [] /\ len (bw_buffer b1) = 364 /\ len (written (bw_inner b2)) = 364 /\ bw_buffer b2 = [] /\
    written (bw_inner b3) = written (ho_writer o) /\ bw_buffer b3 = []
  | _, _, _, _ => False
  end.
Proof. vm_compute. repeat split. Qed.
Print Assumptions C93_example.
