(** * TransportProofs: reading from scripts and session readers *)
From Coq Require Import List NArith Bool Lia ZArith.
From Coq.Strings Require Import Byte.
From Coq Require Import ZifyBool ZifyNat ZifyN.
From Verif Require Import Base BaseFacts Transport Io SpecIo Futures Sessions.
Import ListNotations.
Local Open Scope N_scope.

(** ** The model's [read_exact] is the loop around [read] *)

(** std's and tokio's [read_exact]: what one turn of the loop does. *)
Theorem read_exact_loop fl s n acc :
  read_exact fl s n acc =
  if n =? 0 then (Ok acc, s) else
  match read s n with
  | (Data [], s') => (Err UnexpectedEof, s')
  | (Data bs, s') => read_exact fl s' (n - len bs) (acc ++ bs)
  | (ReadErr k, s') =>
    match fl, k with
    | Sync, Interrupted => read_exact fl s' n acc
    | _, _ => (Err k, s')
    end
  end.
Proof.
  induction s as [|[bs|k|] s IH]; cbn [read_exact read]; destruct (n =? 0) eqn:N0; try reflexivity.
  - destruct bs as [|b bs].
    + rewrite (proj2 (N.leb_le _ _)) by (rewrite len_nil; lia). reflexivity.
    + destruct (len (b :: bs) <=? n) eqn:L; [reflexivity|].
      destruct (take n (b :: bs)) as [|x l] eqn:T.
      { apply (f_equal len) in T. rewrite len_take, len_nil in T. lia. }
      rewrite <- T. rewrite len_take, N.min_l by lia.
      rewrite N.sub_diag. cbn [read_exact]. reflexivity.
  - rewrite IH. reflexivity.
Qed.

Definition prefix (acc : bytes) {S} (x : result io_kind bytes * S) : result io_kind bytes * S :=
  match x with (Ok bs, s) => (Ok (acc ++ bs), s) | (Err k, s) => (Err k, s) end.

Lemma read_exact_acc fl s : forall n acc, read_exact fl s n acc = prefix acc (read_exact fl s n []).
Proof.
  induction s as [|[bs|k|] s IH]; intros n acc; cbn [read_exact]; destruct (n =? 0);
    cbn [prefix]; rewrite ?app_nil_r; try reflexivity.
  - destruct bs as [|b bs]; [reflexivity|].
    destruct (len (b :: bs) <=? n); [|reflexivity].
    rewrite (IH _ (acc ++ _)), (IH _ ([] ++ _)). cbn [app].
    destruct (read_exact _ _ _ _) as [[?|?] ?]; cbn [prefix]; rewrite ?app_assoc; reflexivity.
  - destruct fl, k; try reflexivity. apply IH.
  - apply IH.
Qed.

Theorem session_read_exact_loop fl sr n :
  session_read_exact fl sr n =
  if n =? 0 then (Ok [], sr) else
  match session_read sr n with
  | (Data [], s') => (Err UnexpectedEof, s')
  | (Data bs, s') => prefix bs (session_read_exact fl s' (n - len bs))
  | (ReadErr k, s') =>
    match fl, k with
    | Sync, Interrupted => session_read_exact fl s' n
    | _, _ => (Err k, s')
    end
  end.
Proof.
  destruct sr as [cur [|] s|l pos s]; cbn [session_read session_read_exact].
  - rewrite read_exact_loop. destruct (n =? 0) eqn:N0; [reflexivity|].
    destruct (read s n) as [[[|b bs]|k] s']; cbn [session_read_exact].
    + reflexivity.
    + rewrite read_exact_acc. now destruct (read_exact _ _ _ _) as [[?|?] ?].
    + destruct fl, k; reflexivity.
  - destruct (n =? 0) eqn:N0.
    { replace n with 0 by lia. rewrite (proj2 (N.leb_le 0 _)) by lia. now rewrite take_0, drop_0. }
    destruct cur as [|b cur].
    + rewrite len_nil, (proj2 (N.leb_gt _ _)), N.sub_0_r by lia.
      rewrite read_exact_loop, N0.
      destruct (read s n) as [[[|b bs]|k] s']; cbn [session_read_exact].
      * reflexivity.
      * rewrite read_exact_acc. now destruct (read_exact _ _ _ _) as [[?|?] ?].
      * destruct fl, k; reflexivity.
    + set (cur' := b :: cur) in *.
      assert (0 < len cur') as Lc by (unfold cur'; rewrite len_cons; lia).
      destruct (take n cur') as [|x tl] eqn:T.
      { apply (f_equal len) in T. rewrite len_take, len_nil in T. lia. }
      rewrite <- T. clear x tl T. rewrite len_take.
      destruct (n <=? len cur') eqn:L.
      * rewrite N.min_l, N.sub_diag by lia. cbn [session_read_exact].
        rewrite (proj2 (N.leb_le 0 _)) by lia. cbn [prefix].
        rewrite take_0, drop_0, app_nil_r. reflexivity.
      * rewrite N.min_r by lia. rewrite take_all, drop_all by lia. cbn [session_read_exact].
        rewrite len_nil, (proj2 (N.leb_gt _ _)), N.sub_0_r by lia.
        rewrite (read_exact_acc _ _ _ cur').
        now destruct (read_exact _ _ _ _) as [[?|?] ?].
  - destruct (n =? 0) eqn:N0.
    { replace n with 0 by lia. rewrite (proj2 (N.leb_le 0 _)) by lia.
      rewrite take_0, N.add_0_r. reflexivity. }
    destruct (pos <? len l) eqn:P.
    + set (rem := drop pos l) in *.
      assert (len rem = len l - pos) as Lr by (unfold rem; now rewrite len_drop).
      destruct (take (N.min (len rem) n) rem) as [|x tl] eqn:T.
      { apply (f_equal len) in T. rewrite len_take, len_nil in T. lia. }
      rewrite <- T. clear x tl T. rewrite len_take. cbn [session_read_exact].
      destruct (n <=? len rem) eqn:L.
      * rewrite (N.min_r (len rem) n), N.min_l, N.sub_diag by lia.
        rewrite (proj2 (N.leb_le 0 _)) by lia. cbn [prefix].
        rewrite take_0, app_nil_r, N.add_0_r. reflexivity.
      * rewrite (N.min_l (len rem) n), N.min_l by lia.
        assert (drop (pos + len rem) l = []) as Hd by (apply drop_all; lia). rewrite Hd.
        rewrite len_nil, (proj2 (N.leb_gt _ _)), N.sub_0_r by lia.
        rewrite take_all by lia. rewrite (read_exact_acc _ _ _ rem).
        replace (N.max (pos + len rem) (len l)) with (N.max pos (len l)) by lia.
        now destruct (read_exact _ _ _ _) as [[?|?] ?].
    + assert (drop pos l = []) as Hd by (apply drop_all; lia). rewrite Hd, len_nil.
      rewrite (proj2 (N.leb_gt _ _)), N.sub_0_r by lia.
      rewrite N.max_l by lia. rewrite read_exact_loop, N0.
      destruct (read s n) as [[[|b bs]|k] s']; cbn [session_read_exact].
      * reflexivity.
      * rewrite Hd, len_nil. 
        destruct (n - len (b :: bs) <=? 0) eqn:L.
        -- assert (n - len (b :: bs) = 0) as -> by lia. rewrite read_exact_loop. cbn [N.eqb prefix].
           rewrite take_0, app_nil_r, N.add_0_r. reflexivity.
        -- rewrite N.sub_0_r, N.max_l by lia. rewrite read_exact_acc.
           now destruct (read_exact _ _ _ _) as [[?|?] ?].
      * destruct fl, k; try reflexivity; rewrite Hd, len_nil, (proj2 (N.leb_gt n _)), N.sub_0_r, N.max_l by lia;
          reflexivity.
Qed.

(** ** Reading depends on the stream only *)

Lemma calm_cons fl ev s : calm fl (ev :: s) -> calm fl s.
Proof. intros H Hf. specialize (H Hf). now inversion H. Qed.

Theorem read_exact_stream fl : forall s n acc c e,
  flatten fl s = (c, e) ->
  (n <= len c -> exists s', read_exact fl s n acc = (Ok (acc ++ take n c), s') /\
     flatten fl s' = (drop n c, e) /\ (calm fl s -> calm fl s') /\
     content s = take n c ++ content s') /\
  (len c < n -> exists s', read_exact fl s n acc = (Err (end_kind e), s')).
Proof.
  induction s as [|[bs|k|] s IH]; intros n acc c e F; cbn [flatten] in F.
  - injection F as <- <-. rewrite len_nil. split; intros L.
    + exists []. replace n with 0 by lia. cbn [read_exact N.eqb]. rewrite take_nil, drop_nil, app_nil_r. auto.
    + exists []. cbn [read_exact]. rewrite (proj2 (N.eqb_neq _ _)) by lia. reflexivity.
  - destruct bs as [|b bs].
    { injection F as <- <-. rewrite len_nil. split; intros L.
      - exists (Chunk [] :: s). replace n with 0 by lia. cbn [read_exact N.eqb].
        rewrite take_nil, drop_nil, app_nil_r. auto.
      - exists s. cbn [read_exact]. rewrite (proj2 (N.eqb_neq _ _)) by lia. reflexivity. }
    set (bs' := b :: bs) in *.
    assert (0 < len bs') as Lb by (unfold bs'; rewrite len_cons; lia).
    destruct (flatten fl s) as [c' e'] eqn:Fs.
    assert (bs' ++ c' = c /\ e' = e) as [<- <-] by (inversion F; split; reflexivity). clear F.
    rewrite len_app.
    assert (forall n, read_exact fl (Chunk bs' :: s) n acc =
      if n =? 0 then (Ok acc, Chunk bs' :: s) else
      if len bs' <=? n then read_exact fl s (n - len bs') (acc ++ bs')
      else (Ok (acc ++ take n bs'), Chunk (drop n bs') :: s)) as R by reflexivity.
    rewrite R. clear R. destruct (IH (n - len bs') (acc ++ bs') c' e' eq_refl) as [I1 I2].
    split; intros L.
    + destruct (n =? 0) eqn:N0.
      { replace n with 0 by lia. exists (Chunk bs' :: s). rewrite take_0, drop_0, app_nil_r.
        split; [reflexivity|]. split; [|auto]. unfold bs'. cbn [flatten]. now rewrite Fs. }
      destruct (len bs' <=? n) eqn:Lc.
      * destruct I1 as (s' & -> & Fs' & C & K); [lia|]. exists s'.
        rewrite take_app_ge, drop_app_ge by lia. rewrite <- app_assoc.
        split; [reflexivity|]. split; [assumption|]. split; [intros H; apply C; eapply calm_cons; eauto|].
        cbn [content]. rewrite K. now rewrite app_assoc.
      * exists (Chunk (drop n bs') :: s). rewrite take_app_le, drop_app_le by lia.
        split; [reflexivity|]. split; [|split].
        -- destruct (drop n bs') as [|x tl] eqn:D.
           { apply (f_equal len) in D. rewrite len_drop, len_nil in D. lia. }
           cbn [flatten]. now rewrite Fs.
        -- intros H Hf. constructor; [discriminate|]. apply calm_cons in H. auto.
        -- cbn [content]. rewrite app_assoc, take_drop. reflexivity.
    + rewrite (proj2 (N.eqb_neq _ _)) by lia. rewrite (proj2 (N.leb_le _ _)) by lia.
      apply I2. lia.
  - destruct (match fl, k with Sync, Interrupted => true | _, _ => false end) eqn:B.
    + destruct fl; [|discriminate]. destruct k; try discriminate.
      destruct (IH n acc c e F) as [I1 I2]. split; intros L.
      * cbn [read_exact]. destruct (n =? 0) eqn:N0.
        -- exists (Fail Interrupted :: s). replace n with 0 by lia.
           rewrite take_0, drop_0, app_nil_r. auto.
        -- destruct (I1 L) as (s' & R & Fs' & C & K). exists s'. repeat split; auto.
           intros H; apply C; eapply calm_cons; eauto.
      * cbn [read_exact]. rewrite (proj2 (N.eqb_neq _ _)) by lia. auto.
    + assert (([], Broken k) = (c, e)) as F' by (destruct fl, k; try discriminate; exact F).
      injection F' as <- <-. rewrite len_nil. split; intros L.
      * exists (Fail k :: s). replace n with 0 by lia. cbn [read_exact N.eqb].
        rewrite take_nil, drop_nil, app_nil_r. split; [reflexivity|]. split; [exact F|]. auto.
      * exists s. cbn [read_exact]. rewrite (proj2 (N.eqb_neq _ _)) by lia.
        destruct fl, k; try discriminate; reflexivity.
  - destruct (IH n acc c e F) as [I1 I2]. split; intros L.
    + cbn [read_exact]. destruct (n =? 0) eqn:N0.
      * exists (Pending :: s). replace n with 0 by lia. rewrite take_0, drop_0, app_nil_r. auto.
      * destruct (I1 L) as (s' & R & Fs' & C & K). exists s'. repeat split; auto.
        intros H; apply C; eapply calm_cons; eauto.
    + cbn [read_exact]. rewrite (proj2 (N.eqb_neq _ _)) by lia. auto.
Qed.

Theorem read_stream fl : forall s n c e,
  0 < n -> flatten fl s = (c, e) -> calm fl s ->
  (c = [] -> exists s',
     read s n = (match e with Closed => Data [] | Broken k => ReadErr k end, s')) /\
  (c <> [] -> exists bs s' c', read s n = (Data bs, s') /\ 0 < len bs <= n /\ c = bs ++ c' /\
     flatten fl s' = (c', e) /\ calm fl s' /\ content s = bs ++ content s').
Proof.
  intros s n c e Hn. revert c e. induction s as [|[bs|k|] s IH]; intros c e F C; cbn [flatten] in F.
  - injection F as <- <-. split; [|congruence]. intros _. exists []. reflexivity.
  - destruct bs as [|b bs].
    { injection F as <- <-. split; [|congruence]. intros _. exists s. cbn [read].
      rewrite (proj2 (N.leb_le _ _)); [reflexivity|]. rewrite len_nil. lia. }
    set (bs' := b :: bs) in *.
    assert (0 < len bs') as Lb by (unfold bs'; rewrite len_cons; lia).
    destruct (flatten fl s) as [c' e'] eqn:Fs.
    assert (bs' ++ c' = c /\ e' = e) as [<- <-] by (inversion F; split; reflexivity). clear F.
    split; [intros K; apply (f_equal len) in K; rewrite len_app, len_nil in K; lia|]. intros _.
    change (read (Chunk bs' :: s) n) with
      (if len bs' <=? n then (Data bs', s) else (Data (take n bs'), Chunk (drop n bs') :: s)).
    destruct (len bs' <=? n) eqn:L.
    + exists bs', s, c'. repeat split; auto; try lia. eapply calm_cons; eauto.
    + exists (take n bs'), (Chunk (drop n bs') :: s), (drop n bs' ++ c').
      rewrite len_take, app_assoc, take_drop. repeat split; auto; try lia.
      * destruct (drop n bs') as [|x tl] eqn:D.
        { apply (f_equal len) in D. rewrite len_drop, len_nil in D. lia. }
        cbn [flatten]. now rewrite Fs.
      * intros Hf. constructor; [discriminate|]. apply calm_cons in C. auto.
      * cbn [content]. rewrite app_assoc, take_drop. reflexivity.
  - assert (match fl, k with Sync, Interrupted => false | _, _ => true end = true) as B.
    { destruct fl; [|reflexivity]. specialize (C eq_refl). inversion C. destruct k; congruence. }
    assert (([], Broken k) = (c, e)) as F' by (destruct fl, k; try discriminate; exact F).
    injection F' as <- <-. split; [|congruence]. intros _. exists s. reflexivity.
  - cbn [read content]. apply IH; [assumption|]. eapply calm_cons; eauto.
Qed.

(** ** Session readers *)

Definition session_calm (fl : flavor) (sr : session) : Prop := calm fl (session_inner sr).

Theorem session_read_exact_stream fl sr n c e :
  session_stream fl sr = (c, e) ->
  (n <= len c -> exists sr', session_read_exact fl sr n = (Ok (take n c), sr') /\
     session_stream fl sr' = (drop n c, e) /\ (session_calm fl sr -> session_calm fl sr') /\
     session_content sr = take n c ++ session_content sr') /\
  (len c < n -> exists sr', session_read_exact fl sr n = (Err (end_kind e), sr')).
Proof.
  unfold session_stream. destruct (flatten fl (session_inner sr)) as [c0 e0] eqn:F.
  intros H; injection H as <- <-. rewrite len_app.
  destruct sr as [cur [|] s|l pos s]; cbn [session_inner session_leftover session_read_exact] in *.
  - destruct (read_exact_stream fl s n [] c0 e0 F) as [I1 I2]. cbn [app]. rewrite len_nil. split; intros L.
    + destruct I1 as (s' & -> & F' & C & K); [lia|]. eexists. split; [reflexivity|].
      cbn [session_inner session_leftover app session_content]. rewrite F'. auto.
    + destruct I2 as (s' & ->); [lia|]. eauto.
  - destruct (read_exact_stream fl s (n - len cur) cur c0 e0 F) as [I1 I2]. split; intros L.
    + destruct (n <=? len cur) eqn:Lc.
      * rewrite take_app_le, drop_app_le by lia. eexists. split; [reflexivity|].
        cbn [session_inner session_leftover session_content]. rewrite F. split; [reflexivity|]. split; [auto|].
        now rewrite app_assoc, take_drop.
      * destruct I1 as (s' & -> & F' & C & K); [lia|]. rewrite take_app_ge, drop_app_ge by lia.
        eexists. split; [reflexivity|]. cbn [session_inner session_leftover app session_content]. rewrite F'.
        split; [reflexivity|]. split; [exact C|]. rewrite K. now rewrite <- app_assoc.
    + rewrite (proj2 (N.leb_gt _ _)) by lia. destruct I2 as (s' & ->); [lia|]. eauto.
  - set (rem := drop pos l) in *. assert (len rem = len l - pos) as Lr by (unfold rem; now rewrite len_drop).
    destruct (read_exact_stream fl s (n - len rem) rem c0 e0 F) as [I1 I2]. split; intros L.
    + destruct (n <=? len rem) eqn:Lc.
      * rewrite take_app_le, drop_app_le by lia. eexists. split; [reflexivity|].
        cbn [session_inner session_leftover session_content]. rewrite F, <- drop_drop. fold rem.
        split; [reflexivity|]. split; [auto|]. now rewrite app_assoc, take_drop.
      * destruct I1 as (s' & -> & F' & C & K); [lia|]. rewrite take_app_ge, drop_app_ge by lia.
        eexists. split; [reflexivity|]. cbn [session_inner session_leftover app session_content]. rewrite F'.
        rewrite (drop_all (N.max pos (len l))) by lia. split; [reflexivity|]. split; [exact C|].
        rewrite K. now rewrite <- app_assoc.
    + rewrite (proj2 (N.leb_gt _ _)) by lia. destruct I2 as (s' & ->); [lia|]. eauto.
Qed.

Theorem session_read_stream fl sr n c e :
  0 < n -> session_stream fl sr = (c, e) -> session_calm fl sr ->
  (c = [] -> exists sr',
     session_read sr n = (match e with Closed => Data [] | Broken k => ReadErr k end, sr')) /\
  (c <> [] -> exists bs sr' c', session_read sr n = (Data bs, sr') /\ 0 < len bs <= n /\ c = bs ++ c' /\
     session_stream fl sr' = (c', e) /\ session_calm fl sr').
Proof.
  intros Hn. unfold session_stream, session_calm.
  destruct (flatten fl (session_inner sr)) as [c0 e0] eqn:F.
  intros H; injection H as <- <-. intros C.
  destruct (read_stream fl (session_inner sr) n c0 e0 Hn F C) as [I1 I2].
  destruct sr as [cur [|] s|l pos s]; cbn [session_inner session_leftover session_read app] in *.
  - split; intros Q.
    + destruct (I1 Q) as (s' & ->). eauto.
    + destruct (I2 Q) as (bs & s' & c' & -> & L & Hc & F' & C' & _).
      exists bs, (ChainReader cur true s'), c'. cbn [session_inner session_leftover app]. rewrite F'. auto.
  - destruct cur as [|b cur]; cbn [app].
    + split; intros Q.
      * destruct (I1 Q) as (s' & ->). eauto.
      * destruct (I2 Q) as (bs & s' & c' & -> & L & Hc & F' & C' & _).
        exists bs, (ChainReader [] true s'), c'. cbn [session_inner session_leftover app]. rewrite F'. auto.
    + split; [discriminate|]. intros _.
      exists (take n (b :: cur)), (ChainReader (drop n (b :: cur)) false s), (drop n (b :: cur) ++ c0).
      cbn [session_inner session_leftover]. rewrite F, len_take, len_cons, app_assoc, take_drop.
      repeat split; auto; lia.
  - destruct (pos <? len l) eqn:P.
    + set (rem := drop pos l) in *. assert (len rem = len l - pos) as Lr by (unfold rem; now rewrite len_drop).
      split; [intros Q; apply (f_equal len) in Q; rewrite len_app, len_nil in Q; lia|]. intros _.
      set (m := N.min (len rem) n).
      exists (take m rem), (TokioReader l (pos + m) s), (drop m rem ++ c0).
      cbn [session_inner session_leftover]. rewrite F, len_take, app_assoc, take_drop.
      rewrite <- drop_drop. fold rem. repeat split; auto; lia.
    + rewrite (drop_all pos l) by lia. cbn [app]. split; intros Q.
      * destruct (I1 Q) as (s' & ->). eauto.
      * destruct (I2 Q) as (bs & s' & c' & -> & L & Hc & F' & C' & _).
        exists bs, (TokioReader l pos s'), c'. cbn [session_inner session_leftover]. rewrite F'.
        rewrite (drop_all pos l) by lia. cbn [app]. auto.
Qed.

(** ** Writers *)

(** Nothing is written but a prefix of the packet; on success all of it. *)
Theorem write_script_prefix fl : forall s bs r s' out,
  write_script fl s bs = (r, s', out) ->
  (exists n, out = take n bs) /\ (r = Ok tt -> out = bs).
Proof.
  induction s as [|[n|k|] s IH]; intros bs r s' out; destruct bs as [|b bs]; cbn [write_script].
  - intros H; injection H as <- <- <-. split; [exists 0; reflexivity|reflexivity].
  - intros H; injection H as <- <- <-. split; [|reflexivity]. exists (len (b :: bs)).
    now rewrite take_all by lia.
  - intros H; injection H as <- <- <-. split; [exists 0; reflexivity|reflexivity].
  - set (bs' := b :: bs). destruct (n =? 0) eqn:N0.
    { intros H; injection H as <- <- <-. split; [exists 0; now rewrite take_0|discriminate]. }
    destruct (len bs' <=? n) eqn:L.
    + intros H; injection H as <- <- <-. split; [|reflexivity]. exists (len bs'). now rewrite take_all by lia.
    + destruct (write_script fl s (drop n bs')) as [[r1 s1] o1] eqn:W.
      intros H; injection H as <- <- <-. apply IH in W. destruct W as [[m ->] W2]. split.
      * exists (n + m). now rewrite take_add by lia.
      * intros R. rewrite W2 by assumption. now rewrite take_drop.
  - intros H; injection H as <- <- <-. split; [exists 0; reflexivity|reflexivity].
  - destruct (match fl, k with Sync, Interrupted => true | _, _ => false end) eqn:B.
    + destruct fl; [|discriminate]. destruct k; try discriminate. apply IH.
    + intros H. assert ((Err k, s, []) = (r, s', out)) as H' by (destruct fl, k; try discriminate; exact H).
      injection H' as <- <- <-. split; [exists 0; now rewrite take_0|discriminate].
  - intros H; injection H as <- <- <-. split; [exists 0; reflexivity|reflexivity].
  - apply IH.
Qed.

Lemma flush_written w x w' : flush w = (x, w') -> written w' = written w.
Proof. unfold flush. destruct (flush_script (flushes w)) as [r f]. intros Q; injection Q as <- <-. reflexivity. Qed.

Lemma flush_keeps_script w x w' : flush w = (x, w') -> w_script w' = w_script w.
Proof. unfold flush. destruct (flush_script (flushes w)) as [r f]. intros Q; injection Q as <- <-. reflexivity. Qed.

Lemma flush_script_len : forall f x f', flush_script f = (x, f') -> (length f' <= length f)%nat.
Proof.
  induction f as [|ev f IH]; intros x f' H; cbn [flush_script] in H; [injection H as _ <-; reflexivity|].
  destruct ev as [|k|]; cbn [length]; [injection H as _ <-; lia|injection H as _ <-; lia|]. apply IH in H. lia.
Qed.

Theorem write_flush_prefix fl w bs r w' :
  write_flush fl w bs = (r, w') ->
  (exists n, written w' = written w ++ take n bs) /\ (r = Ok tt -> written w' = written w ++ bs).
Proof.
  unfold write_flush, write_all.
  destruct (write_script fl (w_script w) bs) as [[[[]|k] s1] o1] eqn:W.
  - apply write_script_prefix in W. destruct W as [_ W]. rewrite (W eq_refl).
    intros H. assert (written w' = written w ++ bs) as -> by now apply flush_written in H.
    split; [|auto]. exists (len bs). now rewrite take_all by lia.
  - apply write_script_prefix in W. destruct W as [[n ->] _]. intros H; injection H as <- <-.
    split; [exists n; reflexivity|discriminate].
Qed.

Lemma write_script_healthy fl : forall s bs,
  Forall (fun ev => match ev with Accept n => n <> 0 | WFail _ => False | WPending => True end) s ->
  exists s', write_script fl s bs = (Ok tt, s', bs) /\
    Forall (fun ev => match ev with Accept n => n <> 0 | WFail _ => False | WPending => True end) s'.
Proof.
  induction s as [|[n|k|] s IH]; intros bs H; destruct bs as [|b bs]; cbn [write_script]; eauto.
  - inversion H as [|? ? H1 H2]; subst. rewrite (proj2 (N.eqb_neq _ _)) by assumption.
    destruct (len (b :: bs) <=? n) eqn:L; [eauto|].
    destruct (IH (drop n (b :: bs)) H2) as (s' & -> & Hs). exists s'. rewrite take_drop. auto.
  - inversion H; subst; contradiction.
  - inversion H; subst. apply IH. assumption.
Qed.

Theorem write_flush_healthy fl w bs :
  healthy w -> exists w', write_flush fl w bs = (Ok tt, w') /\ healthy w' /\ written w' = written w ++ bs.
Proof.
  intros [H1 H2]. unfold write_flush, write_all.
  destruct (write_script_healthy fl (w_script w) bs H1) as (s' & -> & Hs).
  unfold flush. cbn [flushes]. assert (exists f, flush_script (flushes w) = (Ok tt, f) /\
    Forall (fun f => match f with FlushFail _ => False | FlushOk | FlushPending => True end) f) as (f & -> & Hf).
  { clear -H2. induction H2 as [|[|k|] f H1 H2 IH]; cbn [flush_script]; eauto. contradiction. }
  eexists. split; [reflexivity|]. split; [|reflexivity]. split; assumption.
Qed.
