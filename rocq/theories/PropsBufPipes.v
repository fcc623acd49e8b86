(** * Property C114: [BufWriter]s neither cause nor cure a standstill of the handshake *)
From Coq Require Import List NArith PeanoNat Bool Lia.
From Coq.Strings Require Import Byte.
From Verif Require Import Base BaseFacts Env FsChacha Cipher Histories CipherProofs Handshake SpecHandshake HsDriver HandshakeProofs HsRunProofs Transport Io
  SpecIo Sessions SessionProofs Toy PropsHandshake PropsIo HsSteps HsStepsProofs SpecPipes PipesProofs PropsPipes
  Outgoing SpecOutgoing PropsOutgoing SpecBufPair PropsBufPair SpecBufPipes.
Import ListNotations.
Local Open Scope N_scope.

(** ** One endpoint *)

Section Side.
Context {E : Env}.
Variables (fl : flavor) (d : option (list bytes)) (size : N).

(** The same endpoint without a [BufWriter]: what is held back is still to be written. *)
Definition without (p : place) (held : bytes) : place :=
  match p with
  | SendingKey rest h => SendingKey (held ++ rest) h
  | FlushingKey h => match held with [] => p | _ => SendingKey held h end
  | SendingVersion rest h => SendingVersion (held ++ rest) h
  | FlushingVersion h => match held with [] => p | _ => SendingVersion held h end
  | _ => p
  end.
Definition empty_handed (p : place) (held : bytes) : Prop :=
  match p with SendingKey _ _ | FlushingKey _ | SendingVersion _ _ | FlushingVersion _ => True | _ => held = [] end.
(** What the endpoint has not handed to its writer of its flights, the second being of [n] bytes. *)
Definition untaken (n : N) (p : place) : N :=
  match p with
  | SendingKey rest _ => len rest + n
  | FlushingKey _ | ReadingKey _ _ => n
  | SendingVersion rest _ => len rest
  | _ => 0
  end.

Lemma without_over p held : is_over (without p held) = is_over p.
Proof. destruct p; cbn [without is_over]; try reflexivity; destruct held; reflexivity. Qed.

(** Some turns without a [BufWriter], the transport taking [out] in all. *)
Inductive turns (p : place) (inc : bytes) (room : N) : nat -> place -> bytes -> bytes -> Prop :=
| turns_none : turns p inc room 0 p inc []
| turns_one p' inc' out : turn fl d p inc room p' inc' out -> turns p inc room 1 p' inc' out
| turns_two p1 out p2 : turn fl d p inc room p1 inc out -> (forall room, turn fl d p1 inc room p2 inc []) -> turns p inc room 2 p2 inc out.

Definition scripted (held : bytes) (ms : list N) : buf_writer := BufWriter size held (Writer (map Accept ms ++ [WPending]) [] []).
Lemma scripted_fit held ms : Forall (fun m => 1 <= m) ms -> well_behaved (bw_inner (scripted held ms)).
Proof.
  intros F. split; [|constructor]. cbn [bw_inner scripted w_script]. apply Forall_app. split; [|repeat constructor].
  apply Forall_map. eapply Forall_impl; [|exact F]. cbn. intros; lia.
Qed.

(** Writing [out] of what is left. *)
Definition writes_at (mk : bytes -> place) (next : place) : Prop :=
  (forall rest, wants_output (mk rest) = true) /\
  (forall rest w, hs_step fl d (mk rest) [] w = let '(x, w) := write_once fl w rest in
     Ret (match x with AllWritten => next | MoreToWrite rest => mk rest | WriteFailed k => Over (Err (from_io k)) end, [], w)).
Lemma writes_key h : writes_at (fun rest => SendingKey rest h) (FlushingKey h).
Proof. split; reflexivity. Qed.
Lemma writes_version h : writes_at (fun rest => SendingVersion rest h) (FlushingVersion h).
Proof. split; reflexivity. Qed.
Lemma write_turn mk next full out rest' inc room : writes_at mk next ->
  full = out ++ rest' -> out <> [] -> len out <= room ->
  turn fl d (mk full) inc room (match rest' with [] => next | _ => mk rest' end) inc out.
Proof.
  intros (WO & STEP) -> NE L. apply nonempty_len in NE.
  assert (S1 : hs_step fl d (mk (out ++ rest')) [] (Writer [Accept (len out)] [] []) =
    Ret (match rest' with [] => next | _ => mk rest' end, [], Writer [] [] out)).
  { rewrite STEP. unfold write_once. cbn [w_script flushes written]. destruct (N.eqb_spec (len out) 0); [lia|].
    rewrite take_app_exact, drop_app_exact, len_app by reflexivity.
    destruct rest' as [|b rest'].
    - rewrite app_nil_r, len_nil. destruct (N.leb_spec (len out + 0) (len out)); [reflexivity|lia].
    - rewrite len_cons. destruct (N.leb_spec (len out + (len rest' + 1)) (len out)); [lia|reflexivity]. }
  refine (turn_write fl d (mk (out ++ rest')) inc room (len out) _ _ _ (WO _) _ S1). lia.
Qed.

(** Places behind a read. *)
Lemma after_reading p s w p' s' w' : hs_step fl d p s w = Ret (p', s', w') ->
  match p with
  | SendingKey _ _ | FlushingKey _ | SendingVersion _ _ | FlushingVersion _ => True
  | ReadingKey _ _ => match p' with SendingKey _ _ | FlushingKey _ | FlushingVersion _ => False | _ => True end
  | _ => late p'
  end.
Proof.
  intros H. destruct p as [rest h|h|got h|rest h|h|got h|buf h|sr got h|sr n got h|x]; try exact I; cbn [hs_step] in H.
  - destruct (read s _) as [r s1]. apply bind_ret_inv in H. destruct H as (q & H & Q). injection Q as <- _ _.
    unfold reading in H. destruct r as [bs|k].
    + destruct bs as [|b bs]; [unfold failed in H; injection H as <-; exact I|]. cbn zeta in H. destruct (_ <=? _); [|injection H as <-; exact I].
      unfold key_read in H. apply bind_ret_inv in H. destruct H as ([h1|e] & _ & H); [|unfold failed in H; injection H as <-; exact I].
      apply bind_ret_inv in H. destruct H as ([[h2|e] vb] & _ & H); [|unfold failed in H]; injection H as <-; exact I.
    + destruct (retries fl k); [|unfold failed in H]; injection H as <-; exact I.
  - destruct (read s _) as [r s1]. apply bind_ret_inv in H. destruct H as (q & H & Q). injection Q as <- _ _.
    eapply reading_late; [| |exact H]; [intros; exact I|intros; eapply scan_garbage_late; eassumption].
  - destruct (read s _) as [r s1]. apply bind_ret_inv in H. destruct H as (q & H & Q). injection Q as <- _ _.
    destruct r as [[|b bs]|k]; [unfold failed in H; injection H as <-; exact I|eapply scan_garbage_late; eassumption|unfold failed in H; injection H as <-; exact I].
  - destruct (session_read _ _) as [r s1]. cbn zeta in H. apply bind_ret_inv in H. destruct H as (q & H & Q). injection Q as <- _ _.
    eapply reading_late; [| |exact H]; [intros; exact I|intros; eapply length_read_late; eassumption].
  - destruct (session_read _ _) as [r s1]. cbn zeta in H. apply bind_ret_inv in H. destruct H as (q & H & Q). injection Q as <- _ _.
    eapply reading_late; [| |exact H]; [intros; exact I|intros; eapply packet_read_late; eassumption].
  - injection H as <- _ _. exact I.
Qed.

Definition counted_turn (n : N) (k : nat) (p p' : place) (held' : bytes) : Prop :=
  (has_rest p' \/ without p' held' = p') /\
  ((forall rest h, p' = SendingVersion rest h -> len rest <= n) ->
  ((1 <= k)%nat /\ untaken n p' <= untaken n p) \/ untaken n p' + 1 <= untaken n p).

Lemma buf_turn_turns p held inc room p' held' inc' out n : has_rest p -> empty_handed p held ->
  buf_turn fl d size p held inc room p' held' inc' out ->
  exists k, turns (without p held) inc room k (without p' held') inc' out /\ empty_handed p' held' /\ counted_turn n k p p' held'.
Proof.
  intros HR EH T.
  destruct (C93_bufwriter fl) as ((HW & HF) & _). destruct (proj2 (C113_writers fl)) as (OW & OF).
  assert (AFTER : forall s w s' w', late p \/ (exists got h, p = ReadingKey got h) -> hs_step fl d p s w = Ret (p', s', w') -> held = [] ->
    without p held = p /\ without p' held = p' /\ empty_handed p' held /\ counted_turn n 1 p p' held).
  { intros s w s' w' LP H ->. pose proof (after_reading _ _ _ _ _ _ H) as X.
    assert (W0 : forall p, without p [] = p) by (intros []; reflexivity).
    split; [apply W0|]. split; [apply W0|]. split; [destruct p'; exact I || reflexivity|]. split; [right; apply W0|]. intros HN. left. split; [lia|].
    destruct LP as [LP|(got & h & ->)]; [destruct p; try contradiction; destruct p'; try contradiction; cbn [untaken]; lia|].
    destruct p'; try contradiction; cbn [untaken]; try lia. eapply HN; reflexivity. }
  destruct T as [m p' s' w' WI Hm H|ms p' s' b' WI NO FM H RO CH].
  - assert (LP : late p \/ (exists got h, p = ReadingKey got h)) by (destruct p; try discriminate WI; [right; eauto|left; exact I..]).
    assert (HE : held = []) by (destruct p; try discriminate WI; exact EH).
    destruct (AFTER _ _ _ _ LP H HE) as (-> & -> & X & Y).
    exists 1%nat. split; [|auto]. apply turns_one. exact (turn_read fl d p inc room m p' s' w' WI Hm H).
  - fold (scripted held ms) in *. pose proof (scripted_fit held ms FM) as FIT.
    assert (WRITE : forall mk next rest, writes_at mk next -> rest <> [] -> p = mk rest ->
      (forall rest held, without (mk rest) held = mk (held ++ rest)) -> (forall held, without next held = match held with [] => next | _ => mk held end) ->
      (forall rest held, empty_handed (mk rest) held) -> (forall held, empty_handed next held) ->
      (forall rest, untaken n (mk rest) = len rest + untaken n next) -> has_rest next -> (forall rest, rest <> [] -> has_rest (mk rest)) ->
      (let '(x, st) := any_write_once buf_writer (buf_write fl) fl (scripted held ms) rest in
       (match x with AllWritten => next | MoreToWrite rest => mk rest | WriteFailed k => Over (Err (from_io k)) end, @nil rev, st)) = (p', s', b') ->
      match buf_write fl (scripted held ms) rest with (None, _) => true | _ => false end = false \/ written (bw_inner b') <> [] ->
      exists k, turns (without p held) inc room k (without p' (bw_buffer b')) inc (written (bw_inner b')) /\ empty_handed p' (bw_buffer b') /\ counted_turn n k p p' (bw_buffer b')).
    { intros mk next rest WA NE -> W1 W2 E1 E2 U R1 R2 H1 CH1. unfold any_write_once in H1. destruct (buf_write fl (scripted held ms) rest) as [o b1] eqn:B.
      destruct (OW _ _ _ _ FIT NE B) as (_ & O). destruct (HW _ _ _ _ B) as (_ & Z). cbn [written bw_inner scripted bw_buffer app] in Z.
      destruct o as [[j|e]|]; [|contradiction|].
      - destruct (N.eqb_spec j 0); [lia|]. destruct Z as (Lj & Z).
        assert (PQ : p' = if len rest <=? j then next else mk (drop j rest)) by (injection H1 as <- _ _; destruct (len rest <=? j); reflexivity).
        injection H1 as _ _ <-. subst p'.
        assert (Q : held ++ rest = written (bw_inner b1) ++ bw_buffer b1 ++ drop j rest) by (rewrite app_assoc, Z, <- app_assoc, take_drop; reflexivity).
        assert (P' : without (if len rest <=? j then next else mk (drop j rest)) (bw_buffer b1) =
          match bw_buffer b1 ++ drop j rest with [] => next | _ => mk (bw_buffer b1 ++ drop j rest) end).
        { destruct (N.leb_spec (len rest) j) as [L|L].
          - rewrite (drop_all j rest) by exact L. rewrite app_nil_r. apply W2.
          - rewrite W1. assert (X : 0 < len (bw_buffer b1 ++ drop j rest)) by (rewrite len_app, len_drop; lia).
            destruct (bw_buffer b1 ++ drop j rest); [exfalso; revert X; vm_compute; discriminate|reflexivity]. }
        assert (CT : forall k, counted_turn n k (mk rest) (if len rest <=? j then next else mk (drop j rest)) (bw_buffer b1)).
        { intros k. split; [left; destruct (N.leb_spec (len rest) j); [exact R1|apply R2, nonempty_len; rewrite len_drop; lia]|]. intros _. right. apply nonempty_len in NE. rewrite U. destruct (N.leb_spec (len rest) j); [lia|]. rewrite U, len_drop. lia. }
        assert (EH' : empty_handed (if len rest <=? j then next else mk (drop j rest)) (bw_buffer b1)) by (destruct (_ <=? _); auto).
        rewrite P', W1. destruct (written (bw_inner b1)) as [|y ys] eqn:WQ.
        + cbn [app] in Q. exists 0%nat. rewrite <- Q. split; [|auto].
          assert (X : 0 < len (held ++ rest)) by (apply nonempty_len in NE; rewrite len_app; lia).
          destruct (held ++ rest); [exfalso; revert X; vm_compute; discriminate|]. apply turns_none.
        + exists 1%nat. split; [|auto]. apply turns_one. eapply write_turn; [exact WA|exact Q|discriminate|exact RO].
      - injection H1 as <- _ <-. destruct CH1 as [CH1|CH1]; [discriminate|].
        exists 1%nat. split; [|split; [apply E1|split; [left; apply R2, NE|intros _; left; split; lia]]]. rewrite !W1.
        assert (Q : held ++ rest = written (bw_inner b1) ++ bw_buffer b1 ++ rest) by (rewrite app_assoc, Z; reflexivity).
        apply turns_one. assert (X : 0 < len (bw_buffer b1 ++ rest)) by (apply nonempty_len in NE; rewrite len_app; lia).
        pose proof (write_turn _ _ _ _ _ inc room WA Q CH1 RO) as T. destruct (bw_buffer b1 ++ rest); [exfalso; revert X; vm_compute; discriminate|exact T]. }
    assert (FLUSH : forall mk now next, writes_at mk now -> p = now ->
      (forall held, without now held = match held with [] => now | _ => mk held end) -> (forall held, without next held = next) ->
      (forall held, empty_handed now held) -> empty_handed next [] ->
      (forall inc room, turn fl d now inc room next inc []) -> untaken n next <= untaken n now -> has_rest now -> has_rest next ->
      (let '(x, st) := buf_flush fl (scripted held ms) in
       (match x with None => now | Some (Ok _) => next | Some (Err k) => Over (Err (from_io k)) end, @nil rev, st)) = (p', s', b') ->
      match buf_flush fl (scripted held ms) with (None, _) => true | _ => false end = false \/ written (bw_inner b') <> [] ->
      exists k, turns (without p held) inc room k (without p' (bw_buffer b')) inc (written (bw_inner b')) /\ empty_handed p' (bw_buffer b') /\ counted_turn n k p p' (bw_buffer b')).
    { intros mk now next WA -> W1 W2 E1 E2 T U R1 R2 H1 CH1. destruct (buf_flush fl (scripted held ms)) as [o b1] eqn:B.
      destruct (OF _ _ _ FIT B) as (_ & O). destruct (HF _ _ _ B) as (_ & Z & ZE). cbn [written bw_inner scripted bw_buffer app] in Z.
      destruct o as [[[]|e]|]; [|contradiction|].
      - injection H1 as <- _ <-. specialize (ZE eq_refl). rewrite ZE, app_nil_r in Z. rewrite ZE, W2, W1, Z.
        destruct held as [|y ys].
        + exists 1%nat. split; [apply turns_one, T|]. split; [exact E2|]. split; [auto|]. intros _. left. split; lia.
        + exists 2%nat. split; [|split; [exact E2|split; [auto|intros _; left; split; lia]]].
          refine (turns_two _ _ _ now _ next _ (T inc)). refine (write_turn mk now (y :: ys) (y :: ys) [] inc room WA _ _ _); [now rewrite app_nil_r|discriminate|rewrite <- Z; exact RO].
      - injection H1 as <- _ <-. destruct CH1 as [CH1|CH1]; [discriminate|].
        exists 1%nat. split; [|split; [apply E1|split; [auto|intros _; left; split; lia]]]. rewrite !W1. apply turns_one.
        pose proof (write_turn _ _ _ _ _ inc room WA (eq_sym Z) CH1 RO) as X.
        destruct held; [|exact X]. apply app_eq_nil in Z. destruct Z. contradiction. }
    destruct p as [rest h|h|got h|rest h|h|got h|buf h|sr got h|sr k got h|x]; try discriminate WI; try discriminate NO; cbn [any_wstep] in H.
    + apply (WRITE (fun rest => SendingKey rest h) (FlushingKey h) rest); auto; try reflexivity; try (intros; exact I); [apply writes_key|]. 
      destruct (any_write_once buf_writer (buf_write fl) fl (scripted held ms) rest). injection H as <- <- <-. reflexivity.
    + apply (FLUSH (fun rest => SendingKey rest h) (FlushingKey h) (ReadingKey [] h)); auto; try reflexivity; try (intros; exact I); [apply writes_key| |].
      * intros. eapply turn_local; reflexivity.
      * destruct (buf_flush fl (scripted held ms)). injection H as <- <- <-. reflexivity.
    + apply (WRITE (fun rest => SendingVersion rest h) (FlushingVersion h) rest); auto; try reflexivity; try (intros; exact I); [apply writes_version|intros; cbn [untaken]; lia|].
      destruct (any_write_once buf_writer (buf_write fl) fl (scripted held ms) rest). injection H as <- <- <-. reflexivity.
    + apply (FLUSH (fun rest => SendingVersion rest h) (FlushingVersion h) (ReadingTerminator [] h)); auto; try reflexivity; try (intros; exact I); [apply writes_version| |].
      * intros. eapply turn_local; reflexivity.
      * destruct (buf_flush fl (scripted held ms)). injection H as <- <- <-. reflexivity.
    + apply bind_ret_inv in H. destruct H as ([[p1 s1] w1] & H & Q). injection Q as <- <- <-. cbn [scripted bw_buffer bw_inner written] in *.
      destruct (AFTER _ _ _ _ (or_introl I) H EH) as (-> & -> & X & Y). exists 1%nat. split; [|auto].
      apply turns_one. eapply turn_local; [reflexivity|exact WI|reflexivity|exact H].
    + apply bind_ret_inv in H. destruct H as ([[p1 s1] w1] & H & Q). injection Q as <- <- <-. cbn [scripted bw_buffer bw_inner written] in *.
      destruct (AFTER _ _ _ _ (or_introl I) H EH) as (-> & -> & X & Y). exists 1%nat. split; [|auto].
      apply turns_one. eapply turn_local; [reflexivity|exact WI|reflexivity|exact H].
Qed.

Definition single : writer := Writer [Accept 1; WPending] [] [].
Lemma drain_single held : drain (drain_fuel single) fl held single =
  match held with
  | [] => (Some (Ok tt), [], single)
  | [x] => (Some (Ok tt), [], Writer [WPending] [] [x])
  | x :: l => (None, l, Writer [] [] [x])
  end.
Proof.
  destruct held as [|x [|y l]]; [reflexivity..|]. change (drain_fuel single) with 4%nat. cbn [drain raw_write single w_script flushes written].
  replace (N.min 1 (len (x :: y :: l))) with 1 by (rewrite !len_cons; lia). reflexivity.
Qed.
Lemma write_single held rest : rest <> [] -> exists o b', buf_write fl (scripted held [1]) rest = (o, b') /\
  len (written (bw_inner b')) <= 1 /\ (o = None -> written (bw_inner b') <> []).
Proof.
  intros NE. unfold buf_write. change (scripted held [1]) with (BufWriter size held single). cbn [bw_capacity bw_buffer bw_inner].
  rewrite drain_single. destruct (_ <? _).
  - destruct held as [|x [|y l]]; cbn [fst snd].
    + destruct (_ <=? _).
      * destruct rest as [|z zs]; [contradiction|]. cbn [raw_write single w_script flushes written]. do 2 eexists. split; [reflexivity|]. cbn [bw_inner written]. split; [vm_compute; discriminate|discriminate].
      * do 2 eexists. split; [reflexivity|]. cbn [bw_inner written single]. split; [vm_compute; discriminate|discriminate].
    + destruct (_ <=? _).
      * cbn [raw_write w_script flushes written]. do 2 eexists. split; [reflexivity|]. cbn [bw_inner written]. split; [vm_compute; discriminate|discriminate].
      * do 2 eexists. split; [reflexivity|]. cbn [bw_inner written]. split; [vm_compute; discriminate|discriminate].
    + do 2 eexists. split; [reflexivity|]. cbn [bw_inner written]. split; [vm_compute; discriminate|discriminate].
  - destruct (_ <=? _).
    + destruct rest as [|z zs]; [contradiction|]. cbn [raw_write single w_script flushes written]. do 2 eexists. split; [reflexivity|]. cbn [bw_inner written]. split; [vm_compute; discriminate|discriminate].
    + do 2 eexists. split; [reflexivity|]. cbn [bw_inner written single]. split; [vm_compute; discriminate|discriminate].
Qed.
Lemma flush_single held : exists o b', buf_flush fl (scripted held [1]) = (o, b') /\
  len (written (bw_inner b')) <= match held with [] => 0 | _ => 1 end /\ (o = None -> written (bw_inner b') <> []).
Proof.
  unfold buf_flush. change (scripted held [1]) with (BufWriter size held single). cbn [bw_capacity bw_buffer bw_inner].
  rewrite drain_single. destruct held as [|x [|y l]].
  - cbn [raw_flush single flushes]. do 2 eexists. split; [reflexivity|]. cbn [bw_inner written single]. split; [vm_compute; discriminate|discriminate].
  - cbn [raw_flush flushes]. do 2 eexists. split; [reflexivity|]. cbn [bw_inner written]. split; [vm_compute; discriminate|discriminate].
  - do 2 eexists. split; [reflexivity|]. cbn [bw_inner written]. split; [vm_compute; discriminate|discriminate].
Qed.

(** Where the endpoint without a [BufWriter] can go on, so can the one with it. *)
Lemma turn_buf_turn p held inc room p1 inc1 out1 : has_rest p -> empty_handed p held ->
  turn fl d (without p held) inc room p1 inc1 out1 -> exists p' held' inc' out, buf_turn fl d size p held inc room p' held' inc' out.
Proof.
  intros HR EH T.
  assert (ONE : Forall (fun m => 1 <= m) [1]) by (repeat constructor; lia).
  assert (WRITE : forall rest, has_rest p -> wants_output (without p held) = true -> (exists h, p = SendingKey rest h) \/ (exists h, p = SendingVersion rest h) -> 1 <= room ->
    exists p' held' inc' out, buf_turn fl d size p held inc room p' held' inc' out).
  { intros rest _ _ Q L.
    assert (NE : rest <> []) by (destruct Q as [[h ->]|[h ->]]; exact HR).
    destruct (write_single held rest NE) as (o & b' & B & B1 & B2).
    assert (exists x, any_write_once buf_writer (buf_write fl) fl (scripted held [1]) rest = (x, b')) as (x & W)
      by (unfold any_write_once; rewrite B; destruct o as [[j|e]|]; eauto).
    destruct Q as [[h ->]|[h ->]]; do 4 eexists; (eapply (buf_other fl d size _ held inc room [1]); [reflexivity|reflexivity|exact ONE| | |]).
    all: try (cbn [any_wstep]; unfold scripted in W; rewrite W; reflexivity). all: try lia.
    all: cbn [held_up]; unfold scripted in B; rewrite B; destruct o; auto. }
  assert (FLUSH : (exists h, p = FlushingKey h) \/ (exists h, p = FlushingVersion h) -> match held with [] => 0 | _ => 1 end <= room ->
    exists p' held' inc' out, buf_turn fl d size p held inc room p' held' inc' out).
  { intros Q L. destruct (flush_single held) as (o & b' & B & B1 & B2). unfold scripted in B.
    destruct Q as [[h ->]|[h ->]]; do 4 eexists; (eapply (buf_other fl d size _ held inc room [1]); [reflexivity|reflexivity|exact ONE| | |]).
    all: try (cbn [any_wstep]; rewrite B; reflexivity). all: try lia.
    all: cbn [held_up]; rewrite B; destruct o; auto. }
  assert (READ : forall m p' s' w', wants_input p = true -> 1 <= m <= len inc -> hs_step fl d p [Chunk (take m inc)] (Writer [] [] []) = Ret (p', s', w') ->
    exists p' held' inc' out, buf_turn fl d size p held inc room p' held' inc' out)
    by (intros; do 4 eexists; eapply buf_read; eassumption).
  assert (LOCAL : forall p' s' w', match p with ReadingLength _ _ _ | ReadingPacket _ _ _ _ => True | _ => False end -> wants_input p = false -> is_over p = false ->
    hs_step fl d p [] (Writer [] [] []) = Ret (p', s', w') -> exists p' held' inc' out, buf_turn fl d size p held inc room p' held' inc' out).
  { intros p' s' w' LP WI NO H. do 4 eexists. eapply (buf_other fl d size _ held inc room [1]); [exact WI|exact NO|exact ONE| | |].
    - destruct p; try contradiction; cbn [any_wstep]; rewrite H; reflexivity.
    - cbn. lia.
    - left. destruct p; try contradiction; reflexivity. }
  destruct T as [m p' s' w' WO Hm H|m p' s' w' WI Hm H|p' s' w' WO WI NO H].
  - destruct p as [rest h|h|got h|rest h|h|got h|buf h|sr got h|sr n got h|x]; try discriminate WO.
    + apply (WRITE rest); auto; [left; eauto|lia].
    + apply FLUSH; [left; eauto|]. destruct held; lia.
    + apply (WRITE rest); auto; [right; eauto|lia].
    + apply FLUSH; [right; eauto|]. destruct held; lia.
  - destruct p as [rest h|h|got h|rest h|h|got h|buf h|sr got h|sr n got h|x]; try discriminate WI; try (eapply READ; eassumption); cbn [without] in WI; destruct held; discriminate WI.
  - destruct p as [rest h|h|got h|rest h|h|got h|buf h|sr got h|sr n got h|x]; try discriminate WO; try discriminate WI; try discriminate NO.
    + apply FLUSH; [left; eauto|]. destruct held; [lia|discriminate WO].
    + apply FLUSH; [right; eauto|]. destruct held; [lia|discriminate WO].
    + eapply LOCAL; [exact I|exact WI|reflexivity|exact H].
    + eapply LOCAL; [exact I|exact WI|reflexivity|exact H].
Qed.
End Side.

(** ** Two endpoints *)

Lemma turns_a {E : Env} fla flb da db K j x0 p q ab ba k p' ba' out :
  pipe_run fla flb da db K j x0 (Pipes p q ab ba) -> turns fla da p ba (K - len ab) k p' ba' out ->
  pipe_run fla flb da db K (k + j) x0 (Pipes p' q (ab ++ out) ba').
Proof.
  intros R T. destruct T as [|p' inc' out T|p1 out p2 T1 T2].
  - now rewrite app_nil_r.
  - eapply run_step; [exact R|]. now apply step_a.
  - eapply run_step; [eapply run_step; [exact R|apply step_a, T1]|]. rewrite <- (app_nil_r (ab ++ out)) at 2. apply step_a, T2.
Qed.
Lemma turns_b {E : Env} fla flb da db K j x0 p q ab ba k q' ab' out :
  pipe_run fla flb da db K j x0 (Pipes p q ab ba) -> turns flb db q ab (K - len ba) k q' ab' out ->
  pipe_run fla flb da db K (k + j) x0 (Pipes p q' ab' (ba ++ out)).
Proof.
  intros R T. destruct T as [|p' inc' out T|p1 out p2 T1 T2].
  - now rewrite app_nil_r.
  - eapply run_step; [exact R|]. now apply step_b.
  - eapply run_step; [eapply run_step; [exact R|apply step_b, T1]|]. rewrite <- (app_nil_r (ba ++ out)) at 2. apply step_b, T2.
Qed.

(** What [stands] says about the endpoint with a [BufWriter]. *)
Lemma stands_rest {E : Env} h fa wa p held c o : stands h fa wa (without p held) c o ->
  (forall rest h1, p = SendingVersion rest h1 -> len rest <= len wa) /\ (without p held = p -> has_rest p).
Proof.
  intros S. split.
  - intros rest h1 ->. cbn [without stands] in S. destruct S as (_ & L & _ & S). apply (f_equal len) in S. rewrite !len_app in S. lia.
  - intros Q. rewrite Q in S. destruct p; cbn [has_rest stands] in *; try exact I; apply S.
Qed.

(** Two honest endpoints with [BufWriter]s of any sizes over pipes of any capacity: the sizes with which they wait for each
    other for ever are those without [BufWriter]s, [clogs]; otherwise both complete. *)
Theorem C114_pipes : forall (E : Env) (EL : EnvLaws E) magic ska skb ga gb da db,
  EcdhAgrees E -> len magic = 4 ->
  sk_valid ska = true -> sk_valid skb = true ->
  (debug_assertions = true -> ska <> zeros 32 /\ skb <> zeros 32) ->
  len (garbage_bytes ga) <= 4095 -> len (garbage_bytes gb) <= 4095 ->
  Forall (fun d => len d + 17 <= 4000014) (decoy_list da) ->
  Forall (fun d => len d + 17 <= 4000014) (decoy_list db) ->
  (overflow_checks = true -> len (decoy_list da) + 1 < 2 ^ 32 /\ len (decoy_list db) + 1 < 2 ^ 32) ->
  take 4 (ellswift_of ska) <> magic -> take 4 (ellswift_of skb) <> magic ->
  exists m pa pb,
    keys_from (bip_prk magic (bip_secret (ellswift_of ska) (ellswift_of skb) ska PartyA)) m /\
    hs_begin magic Initiator ska ga = Ret pa /\ hs_begin magic Responder skb gb = Ret pb /\
    (first_at (initiator_garbage_terminator m)
       (garbage_bytes ga ++ initiator_garbage_terminator m) (len (garbage_bytes ga)) ->
     first_at (responder_garbage_terminator m)
       (garbage_bytes gb ++ responder_garbage_terminator m) (len (garbage_bytes gb)) ->
     forall fla flb sizea sizeb capacity n x,
       buf_run fla flb da db sizea sizeb capacity n (BufPipes pa [] pb [] [] []) x ->
       N.of_nat n <= 8 + 4 * (flight1 ga + flight2 da + flight1 gb + flight2 db) /\
       (clogs capacity (flight1 ga) (flight2 da) (flight1 gb) (flight2 db) ->
        is_over (buf_a x) = false /\ is_over (buf_b x) = false) /\
       (~ clogs capacity (flight1 ga) (flight2 da) (flight1 gb) (flight2 db) ->
        buf_stopped fla flb da db sizea sizeb capacity x ->
        exists ia oca sra ib ocb srb,
          x = BufPipes (Over (Ok (ia, oca, sra))) [] (Over (Ok (ib, ocb, srb))) [] [] [] /\
          ia = ocb /\ ib = oca /\ session_leftover sra = [] /\ session_leftover srb = [])).
Proof.
  intros E EL magic ska skb ga gb da db EA Hm Va Vb Hz Hga Hgb Hda Hdb Ho Ma Mb.
  destruct (endpoints magic ska skb ga gb da db EA Hm Va Vb Hz Hga Hgb Hda Hdb) as
    (ha & fa & hb & fb & ha' & wa & hb' & wb & m & oca & ocb & Sa & Sb & [La Lb] & Ka & Kb & KF & Oa & Ob & _ & _ & Fin);
    try assumption.
  destruct (flight1_len magic Initiator ska ga ha fa Va (fun H => proj1 (Hz H)) Hga Sa) as (Ha & Xa & Ta).
  destruct (flight1_len magic Responder skb gb hb fb Vb (fun H => proj2 (Hz H)) Hgb Sb) as (Hb & Xb & Tb).
  assert (Ya : len wa = flight2 da).
  { rewrite Ha, Tb in Ka. eapply flight2_len; [exact Hm|apply ellswift_len|exact Mb|intros Q; apply Ho, Q|exact Ka]. }
  assert (Yb : len wb = flight2 db).
  { rewrite Hb, Ta in Kb. eapply flight2_len; [exact Hm|apply ellswift_len|exact Ma|intros Q; apply Ho, Q|exact Kb]. }
  assert (Pos : forall d, 0 < flight2 d) by (intros; unfold flight2; lia).
  exists m, (SendingKey fa ha), (SendingKey fb hb). split; [exact KF|].
  split; [now apply begins|]. split; [now apply begins|].
  intros F1 F2 fla flb sizea sizeb K n x R.
  destruct (Fin F1 F2 [] []) as [Ca Cb]. rewrite !app_nil_r in Ca, Cb.
  rewrite <- (drop_app_le 64 fb wb) in Ca by assumption. rewrite <- (drop_app_le 64 fa wa) in Cb by assumption.
  rewrite <- (take_app_le 64 fb wb) in Ka by assumption. rewrite <- (take_app_le 64 fa wa) in Kb by assumption.
  rewrite <- Xa, <- Xb, <- Ya, <- Yb.
  assert (Na : 0 < len wa) by (rewrite Ya; apply Pos). assert (Nb : 0 < len wb) by (rewrite Yb; apply Pos).
  pose proof (joint_run fla flb magic ska skb ga gb da db K ha hb fa fb ha' hb' wa wb Hm Sa Sb La Lb Ka Kb Na Nb) as JR.
  assert (SIM : exists k, pipe_run fla flb da db K k (start ha hb fa fb) (Pipes (without (buf_a x) (held_a x)) (without (buf_b x) (held_b x)) (pipe_ab x) (pipe_ba x)) /\
    (has_rest (buf_a x) /\ empty_handed (buf_a x) (held_a x)) /\ (has_rest (buf_b x) /\ empty_handed (buf_b x) (held_b x)) /\
    N.of_nat n + untaken (len wa) (buf_a x) + untaken (len wb) (buf_b x) <= N.of_nat k + (len fa + len wa + len fb + len wb)).
  { remember (BufPipes (SendingKey fa ha) [] (SendingKey fb hb) [] [] []) as x0 eqn:E0.
    induction R as [x|n x y z R IH S]; subst x.
    - exists 0%nat. cbn [buf_a buf_b held_a held_b pipe_ab pipe_ba without has_rest empty_handed untaken]. split; [apply run_start|].
      split; [split; [|exact I]; apply nonempty_len; lia|]. split; [split; [|exact I]; apply nonempty_len; lia|]. lia.
    - destruct (IH eq_refl) as (k & RK & (A1 & A2) & (B1 & B2) & CNT). clear IH.
      destruct S as [p h q g ab ba p' h' ba' out T|p h q g ab ba q' g' ab' out T]; cbn [buf_a buf_b held_a held_b pipe_ab pipe_ba] in *.
      + destruct (buf_turn_turns fla da sizea p h ba _ p' h' ba' out (len wa) A1 A2 T) as (i & TS & EH & HR & CT).
        pose proof (turns_a _ _ _ _ _ _ _ _ _ _ _ _ _ _ _ RK TS) as RK'. exists (i + k)%nat. split; [exact RK'|].
        destruct (JR _ _ RK') as (ca & oa & cb & ob & (_ & S1 & _) & _). destruct (stands_rest _ _ _ _ _ _ _ S1) as (Z1 & Z2).
        split; [split; [destruct HR; auto|exact EH]|]. split; [auto|]. specialize (CT Z1). lia.
      + destruct (buf_turn_turns flb db sizeb q g ab _ q' g' ab' out (len wb) B1 B2 T) as (i & TS & EH & HR & CT).
        pose proof (turns_b _ _ _ _ _ _ _ _ _ _ _ _ _ _ _ RK TS) as RK'. exists (i + k)%nat. split; [exact RK'|].
        destruct (JR _ _ RK') as (ca & oa & cb & ob & _ & (_ & S1 & _) & _). destruct (stands_rest _ _ _ _ _ _ _ S1) as (Z1 & Z2).
        split; [auto|]. split; [split; [destruct HR; auto|exact EH]|]. specialize (CT Z1). lia. }
  clear R JR. destruct SIM as (k & RK & (A1 & A2) & (B1 & B2) & CNT).
  pose proof (run_bounded fla flb magic ska skb ga gb da db K ha hb fa fb ha' hb' wa wb Hm Sa Sb La Lb Ka Kb Na Nb k _ RK) as BD.
  split; [lia|].
  pose proof (fun x => over_a fla flb magic ska skb ga gb da db K ha hb fa fb ha' hb' wa wb ocb Hm Sa Sb La Lb Ka Kb Na Nb Ca k _ x RK) as VA.
  pose proof (fun x => over_b fla flb magic ska skb ga gb da db K ha hb fa fb ha' hb' wa wb oca Hm Sa Sb La Lb Ka Kb Na Nb Cb k _ x RK) as VB.
  cbn [side_a side_b a_to_b b_to_a] in VA, VB.
  split.
  - intros C. split.
    + rewrite <- (without_over (buf_a x) (held_a x)). destruct (without (buf_a x) (held_a x)); try reflexivity.
      destruct (VA _ eq_refl) as (? & ? & ? & _ & _ & _ & _ & NC & _). contradiction.
    + rewrite <- (without_over (buf_b x) (held_b x)). destruct (without (buf_b x) (held_b x)); try reflexivity.
      destruct (VB _ eq_refl) as (? & ? & ? & _ & _ & _ & _ & NC & _). contradiction.
  - intros NC ST. destruct x as [p h q g ab ba]. cbn [buf_a buf_b held_a held_b pipe_ab pipe_ba] in *.
    destruct (stopped_ends fla flb magic ska skb ga gb da db K ha hb fa fb ha' hb' wa wb ocb oca Hm Sa Sb La Lb Ka Kb Na Nb Ca Cb k _ RK) as [Za Zb].
    { intros y S. inversion S as [? p1 ? ? ? ba1 out1 T|? ? q1 ? ? ab1 out1 T]; subst.
      - destruct (turn_buf_turn fla da sizea p h ba _ _ _ _ A1 A2 T) as (? & ? & ? & ? & BT). eapply ST, buf_step_a, BT.
      - destruct (turn_buf_turn flb db sizeb q g ab _ _ _ _ B1 B2 T) as (? & ? & ? & ? & BT). eapply ST, buf_step_b, BT. }
    { exact NC. }
    cbn [side_a side_b] in Za, Zb. rewrite without_over in Za, Zb.
    destruct p as [| | | | | | | | |xa]; try discriminate Za. destruct q as [| | | | | | | | |xb]; try discriminate Zb. cbn [without empty_handed] in *. subst h g.
    destruct (VA _ eq_refl) as (? & ? & sra & _ & _ & _ & Z1 & _ & Z2 & Q1). destruct (VB _ eq_refl) as (? & ? & srb & _ & _ & _ & Z3 & _ & Z4 & Q2).
    rewrite Z1, Z2, Z3, Z4.
    exists ocb, oca, sra, oca, ocb, srb. rewrite Oa, Ob. repeat match goal with |- _ /\ _ => split end; auto.
Qed.
Print Assumptions C114_pipes.

(** A schedule: whose turn it is, how many bytes a [read] gets or how many the pipe takes. *)
Definition play_turn {E : Env} (fl : flavor) (size : N) (p : place) (held inc : bytes) (room n : N) : option (place * bytes * bytes * bytes) :=
  if is_over p then None else
  let m := N.min n (len inc) in
  if wants_input p then
    if m =? 0 then None else
    match hs_step fl None p [Chunk (take m inc)] (Writer [] [] []) with
    | Ret (p', s', _) => Some (p', held, unread s' ++ drop m inc, [])
    | _ => None
    end
  else
    let b := BufWriter size held (Writer (map Accept (if n =? 0 then [] else [n]) ++ [WPending]) [] []) in
    match any_wstep buf_writer (buf_write fl) (buf_flush fl) fl None p [] b with
    | Ret (p', _, b') =>
      let out := written (bw_inner b') in
      if (len out <=? room) && (negb (held_up buf_writer (buf_write fl) (buf_flush fl) p b) || negb (len out =? 0))
      then Some (p', bw_buffer b', inc, out) else None
    | _ => None
    end.
Lemma play_turn_sound {E : Env} fl size p held inc room n p' held' inc' out :
  play_turn fl size p held inc room n = Some (p', held', inc', out) -> buf_turn fl None size p held inc room p' held' inc' out.
Proof.
  intros H. unfold play_turn in H. destruct (is_over p) eqn:NO; [discriminate|]. cbn zeta in H. destruct (wants_input p) eqn:WI.
  - destruct (N.eqb_spec (N.min n (len inc)) 0); [discriminate|].
    destruct (hs_step _ _ _ _ _) as [[[p1 s1] w1]| |] eqn:S; try discriminate. injection H as <- <- <- <-.
    eapply buf_read; [exact WI|lia|exact S].
  - destruct (any_wstep _ _ _ _ _ _ _ _) as [[[p1 s1] b1]| |] eqn:S; try discriminate.
    destruct (_ && _) eqn:C; [|discriminate]. injection H as <- <- <- <-. apply andb_prop in C. destruct C as (C1 & C2).
    eapply buf_other; [exact WI|exact NO| |exact S|lia|].
    + destruct (N.eqb_spec n 0); repeat constructor. lia.
    + apply orb_prop in C2. destruct C2 as [C2|C2]; [left; now apply negb_true_iff in C2|right; intros Q; rewrite Q in C2; discriminate C2].
Qed.
Fixpoint play_buf {E : Env} (sizea sizeb K : N) (moves : list (bool * N)) (x : buf_pipes) : option buf_pipes :=
  match moves, x with
  | [], _ => Some x
  | (true, n) :: moves, BufPipes p h q g ab ba =>
    match play_turn Sync sizea p h ba (K - len ab) n with Some (p, h, ba, out) => play_buf sizea sizeb K moves (BufPipes p h q g (ab ++ out) ba) | None => None end
  | (false, n) :: moves, BufPipes p h q g ab ba =>
    match play_turn Tokio sizeb q g ab (K - len ba) n with Some (q, g, ab, out) => play_buf sizea sizeb K moves (BufPipes p h q g ab (ba ++ out)) | None => None end
  end.
Lemma play_buf_runs {E : Env} sizea sizeb K x0 : forall moves n x y, buf_run Sync Tokio None None sizea sizeb K n x0 x ->
  play_buf sizea sizeb K moves x = Some y -> exists n, buf_run Sync Tokio None None sizea sizeb K n x0 y.
Proof.
  induction moves as [|[[|] m] moves IH]; intros n [p h q g ab ba] y R H; cbn [play_buf] in H.
  - injection H as <-. eauto.
  - destruct (play_turn _ _ _ _ _ _ _) as [[[[p' h'] ba'] out]|] eqn:P; [|discriminate]. refine (IH _ _ _ _ H).
    eapply buf_more; [exact R|]. apply buf_step_a. exact (play_turn_sound _ _ _ _ _ _ _ _ _ _ _ P).
  - destruct (play_turn _ _ _ _ _ _ _) as [[[[p' h'] ba'] out]|] eqn:P; [|discriminate]. refine (IH _ _ _ _ H).
    eapply buf_more; [exact R|]. apply buf_step_b. exact (play_turn_sound _ _ _ _ _ _ _ _ _ _ _ P).
Qed.

(** An endpoint that has to empty its [BufWriter] into a pipe without room. *)
Lemma flush_stuck {E : Env} fl d size h held inc p' held' inc' out : held <> [] -> ~ buf_turn fl d size (FlushingKey h) held inc 0 p' held' inc' out.
Proof.
  intros NE T. remember (FlushingKey h) as p eqn:Q. destruct T as [m p' s' w' WI|ms p' s' b' _ _ FM H RO CH]; subst p; [discriminate WI|].
  assert (W : written (bw_inner b') = []) by (destruct (written (bw_inner b')); [reflexivity|rewrite len_cons in RO; lia]).
  destruct CH as [CH|CH]; [|contradiction]. cbn [any_wstep held_up] in H, CH. fold (scripted size held ms) in *.
  destruct (buf_flush fl (scripted size held ms)) as [o b1] eqn:B. destruct o as [o|]; [|discriminate].
  injection H as _ _ <-. destruct (C93_bufwriter fl) as ((_ & HF) & _). destruct (HF _ _ _ B) as (_ & Z & ZE). cbn [written bw_inner scripted bw_buffer app] in Z.
  destruct (proj2 (proj2 (C113_writers fl)) _ _ _ (scripted_fit size held ms FM) B) as (_ & O). destruct o as [[]|e]; [|contradiction].
  rewrite W, (ZE eq_refl) in Z. cbn in Z. congruence.
Qed.

Definition pipes_of_toys {E : Env} : run buf_pipes :=
  let! p := hs_begin mainnet Initiator ska None in
  let! q := hs_begin mainnet Responder skb None in
  Ret (BufPipes p [] q [] [] []).

(** It is not true that a [BufWriter] with room for all that an endpoint writes lets the two complete over any pipes. *)
Theorem C114_helps_refuted :
  ~ (forall x0 sizea sizeb capacity n x, @pipes_of_toys (toy true) = Ret x0 ->
     flight1 None + flight2 None <= sizea -> flight1 None + flight2 None <= sizeb -> 0 < capacity ->
     @buf_run (toy true) Sync Tokio None None sizea sizeb capacity n x0 x -> @buf_stopped (toy true) Sync Tokio None None sizea sizeb capacity x ->
     is_over (buf_a x) = true /\ is_over (buf_b x) = true).
Proof.
  intros H. destruct (@pipes_of_toys (toy true)) as [x0| |] eqn:P; [|vm_compute in P; discriminate P..].
  destruct (@play_buf (toy true) 8192 8192 10 [(true, 0); (true, 10); (false, 0); (false, 10)] x0) as [x|] eqn:Q.
  2:{ vm_compute in P. injection P as <-. vm_compute in Q. discriminate Q. }
  destruct (play_buf_runs (E := toy true) 8192 8192 10 x0 _ 0 x0 x (buf_start _ _ _ _ _ _ _ _) Q) as (n & R).
  assert (F : exists ha hb ab ba a b, x = BufPipes (FlushingKey ha) (a :: ab) (FlushingKey hb) (b :: ba) (pipe_ab x) (pipe_ba x) /\ 10 - len (pipe_ab x) = 0 /\ 10 - len (pipe_ba x) = 0).
  { clear H R. vm_compute in P. injection P as <-. vm_compute in Q. injection Q as <-. do 6 eexists. split; [reflexivity|]. split; reflexivity. }
  destruct F as (ha & hb & ab & ba & a & b & F & Z1 & Z2).
  assert (X : is_over (buf_a x) = true /\ is_over (buf_b x) = true).
  { apply (H x0 8192 8192 10 n x eq_refl); [vm_compute; discriminate|vm_compute; discriminate|reflexivity|exact R|].
    intros y S. inversion S as [p h q g ab1 ba1 p' h' ba' out T|p h q g ab1 ba1 q' g' ab' out T]; subst; injection F as -> -> -> ->; cbn [pipe_ab pipe_ba] in *.
    - rewrite Z1 in T. eapply flush_stuck, T. discriminate.
    - rewrite Z2 in T. eapply flush_stuck, T. discriminate. }
  rewrite F in X. destruct X as (X & _). discriminate X.
Qed.
Print Assumptions C114_helps_refuted.

(** Over pipes of 64 bytes the same endpoints complete, with [BufWriter]s of 8192 and of 10 bytes. *)
Definition buf_moves : list (bool * N) :=
  [(true, 0); (true, 64); (false, 30); (false, 34); (false, 64); (true, 64); (true, 0); (false, 64); (true, 36); (false, 36); (false, 0);
   (true, 64); (true, 64); (true, 64); (false, 64); (false, 64); (false, 64)].
Example C114_example :
  match @pipes_of_toys (toy true) with
  | Ret x0 =>
    exists x n, @buf_run (toy true) Sync Tokio None None 8192 10 64 n x0 x /\
      match x with
      | BufPipes (Over (Ok (ia, oa, _))) [] (Over (Ok (ib, ob, _))) [] [] [] => ia = ob /\ ib = oa
      | _ => False
      end
  | _ => False
  end.
Proof.
  destruct (@pipes_of_toys (toy true)) as [x0| |] eqn:P; [|vm_compute in P; discriminate P..].
  destruct (@play_buf (toy true) 8192 10 64 buf_moves x0) as [x|] eqn:Q.
  2:{ vm_compute in P. injection P as <-. vm_compute in Q. discriminate Q. }
  destruct (play_buf_runs (E := toy true) 8192 10 64 x0 _ 0 x0 x (buf_start _ _ _ _ _ _ _ _) Q) as (n & R).
  exists x, n. split; [exact R|]. clear R. vm_compute in P. injection P as <-. vm_compute in Q. injection Q as <-. split; reflexivity.
Qed.
Print Assumptions C114_example.
