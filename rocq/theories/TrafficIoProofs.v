(** * TrafficIoProofs: the blocking driver under every schedule *)
From Coq Require Import List NArith Bool Lia ZifyBool ZifyN.
From Coq.Strings Require Import Byte.
From Verif Require Import Base BaseFacts Env FsChacha Cipher CipherFacts Histories CipherProofs Handshake
  Transport Io Futures SpecIo Sessions TransportProofs SessionProofs EndpointProofs
  Traffic TrafficIo TrafficFutures SpecTraffic TrafficProofs.
Import ListNotations.
Local Open Scope N_scope.

Section Io.
Context {E : Env} {EL : EnvLaws E} {G : Type} {R : Rng G} {RL : RngLaws G R}.

Implicit Types s : @shared G.

Definition app_inside (a : app_pc) : bool :=
  match a with AppPad _ | AppWritePad _ _ | AppWrite _ => true | _ => false end.
Definition thread_inside (t : thread_pc) : bool :=
  match t with ThDecoy | ThWrite _ => true | _ => false end.

(** ** Who is in the critical section *)

Definition locked s : Prop :=
  lock s = (if app_inside (app_at s) then ByApp else if thread_inside (thread_at s) then ByDecoy else Free) /\
  (app_inside (app_at s) && thread_inside (thread_at s) = false).

Lemma locked_move s m s' : locked s -> do_move s m = Some s' -> locked s'.
Proof.
  intros [L X] H. destruct s as [w sh lk po sd a t rc rt]. unfold locked in *. cbn [lock app_at thread_at] in *.
  destruct m as [pl| | |]; cbn [do_move app_at] in H.
  - destruct a; inversion H; subst; cbn in *; auto.
  - destruct a; inversion H; subst; cbn in *; auto.
  - unfold app_step in H. cbn [app_at lock poisoned st_shaper st_writer thread_at] in H. destruct a; try discriminate.
    + destruct lk; try discriminate. cbn [app_inside] in L.
      destruct (thread_inside t) eqn:T; [discriminate|].
      destruct po; inversion H; subst; cbn; rewrite ?T; auto.
    + cbn [app_inside andb] in L, X. injection H as <-.
      destruct (shaper_pad sh pl) as [[[[d|] sh'] rec']| |]; cbn; rewrite ?X; auto.
    + cbn [app_inside andb] in L, X. injection H as <-.
      destruct (sync_write w d) as [[[[]|e] w']| |]; cbn; rewrite ?X; auto.
    + cbn [app_inside andb] in L, X. injection H as <-.
      destruct (sync_write w pl) as [[x w']| |]; cbn; rewrite ?X; auto.
    + destruct t; inversion H; subst; cbn; auto.
  - unfold thread_step in H. cbn [app_at lock poisoned st_shaper st_writer thread_at shutdown] in H.
    destruct t; try discriminate; injection H as <-; cbn [thread_inside] in *.
    + destruct sd; cbn; auto.
    + cbn; auto.
    + destruct lk; [destruct po|..]; cbn.
      * destruct (app_inside a); auto.
      * destruct (app_inside a); [discriminate|]. auto.
      * destruct (app_inside a); auto.
      * destruct (app_inside a); [discriminate|]. auto.
    + rewrite andb_true_r in X. rewrite X in L.
      destruct (shaper_decoy sh) as [[[d|] sh'] rec']; cbn; rewrite X; auto.
    + rewrite andb_true_r in X. rewrite X in L.
      destruct (sync_write w d) as [[x w']| |]; cbn; rewrite X; auto.
Qed.

(** ** Every schedule is a sequence of blocks *)

Definition holds_blocks (cfg : config) (p0 : pwriter) (recs0 : list N) s (bs : list block) : Prop :=
  let base := recs0 ++ flat_map block_sizes bs in
  match app_at s, thread_at s with
  | AppWritePad d pl, _ =>
      padding_strategy cfg = Random /\ shaper_decoy_payload d /\
      serves Sync p0 bs (returned s) (st_writer s) /\ records s = base ++ [size_of pl; size_of d]
  | AppWrite pl, _ =>
      (padding_strategy cfg = Disabled /\ serves Sync p0 bs (returned s) (st_writer s) /\
       records s = base ++ [size_of pl]) \/
      (exists d p1, padding_strategy cfg = Random /\ shaper_decoy_payload d /\
       serves Sync p0 bs (returned s) p1 /\ sync_write p1 d = Ret (Ok tt, st_writer s) /\
       records s = base ++ [size_of pl; size_of d])
  | _, ThWrite d =>
      decoy_strategy cfg = Random /\ shaper_decoy_payload d /\
      serves Sync p0 bs (returned s) (st_writer s) /\ records s = base ++ [size_of d]
  | _, _ => serves Sync p0 bs (returned s) (st_writer s) /\ records s = base
  end.

(** Packets written for a payload that is not written yet. *)
Definition begun (a : app_pc) : nat := match a with AppWritePad _ _ | AppWrite _ => 1 | _ => 0 end.

Lemma packets_snoc bs b : packets (bs ++ [b]) = (packets bs + length (block_payloads b))%nat.
Proof. unfold packets. rewrite flat_map_app, app_length. cbn [flat_map]. now rewrite app_nil_r. Qed.

Definition inv (cfg : config) (p0 : pwriter) (recs0 : list N) (n : nat) (cs : list payload) s : Prop :=
  locked s /\ sh_config (st_shaper s) = cfg /\
  (poisoned s = false ->
   app_at s <> AppPanicked /\ thread_at s <> ThPanicked /\
   cs = map fst (returned s) ++ in_flight (app_at s) /\
   exists bs, Forall (block_ok cfg) bs /\ (packets bs + begun (app_at s) <= n)%nat /\ holds_blocks cfg p0 recs0 s bs).

Lemma calls_app a b : calls (a ++ b) = calls a ++ calls b.
Proof. apply flat_map_app. Qed.

Lemma poisoned_back s m s' : do_move s m = Some s' -> poisoned s' = false -> poisoned s = false.
Proof.
  intros H P. destruct s as [w sh lk po sd a t rc rt]. cbn [poisoned].
  destruct m as [pl| | |]; cbn [do_move app_at] in H.
  - destruct a; inversion H; subst; exact P.
  - destruct a; inversion H; subst; exact P.
  - unfold app_step in H. cbn [app_at lock poisoned st_shaper st_writer thread_at] in H. destruct a; try discriminate.
    + destruct lk, po; inversion H; subst; exact P.
    + injection H as <-. destruct (shaper_pad sh pl) as [[[[d|] sh'] rec']| |]; cbn in P; congruence.
    + injection H as <-. destruct (sync_write w d) as [[[[]|e] w']| |]; cbn in P; congruence.
    + injection H as <-. destruct (sync_write w pl) as [[x w']| |]; cbn in P; congruence.
    + destruct t; inversion H; subst; exact P.
  - unfold thread_step in H. cbn [app_at lock poisoned st_shaper st_writer thread_at shutdown] in H.
    destruct t; try discriminate; injection H as <-.
    + destruct sd; exact P.
    + exact P.
    + destruct lk; [destruct po|..]; exact P.
    + destruct (shaper_decoy sh) as [[[d|] sh'] rec']; exact P.
    + destruct (sync_write w d) as [[x w']| |]; cbn in P; congruence.
Qed.

Lemma sizes_snoc bs b : flat_map block_sizes (bs ++ [b]) = flat_map block_sizes bs ++ block_sizes b.
Proof. rewrite flat_map_app. cbn. now rewrite app_nil_r. Qed.

Lemma blocks_snoc cfg bs b : Forall (block_ok cfg) bs -> block_ok cfg b -> Forall (block_ok cfg) (bs ++ [b]).
Proof. intros F B. apply Forall_app. split; [assumption|]. now repeat constructor. Qed.

Lemma inv_move cfg p0 recs0 n cs s m s' :
  inv cfg p0 recs0 n cs s -> do_move s m = Some s' -> inv cfg p0 recs0 (S n) (cs ++ calls [m]) s'.
Proof.
  intros (L & C & I) H. split; [eapply locked_move; eassumption|].
  pose proof (poisoned_back _ _ _ H) as PB.
  destruct s as [w sh lk po sd a t rc rt]. unfold locked, holds_blocks in *.
  cbn [lock app_at thread_at st_shaper st_writer poisoned returned records] in *.
  destruct m as [pl| | |]; cbn [do_move app_at] in H; unfold calls; cbn [flat_map app]; rewrite ?app_nil_r.
  - destruct a; inversion H; subst; cbn; (split; [reflexivity|]); intros P; destruct (I P) as (N1 & N2 & Cs & bs & F & Pk & B);
      cbn in Cs, B; rewrite app_nil_r in Cs; subst; repeat split; try assumption; try discriminate; exists bs; (split; [assumption|]); (split; [cbn [begun] in *; lia|]); auto.
  - destruct a; inversion H; subst; cbn; (split; [reflexivity|]); intros P; destruct (I P) as (N1 & N2 & Cs & bs & F & Pk & B);
      cbn in Cs, B; subst; repeat split; try assumption; try discriminate; try (exists bs; (split; [assumption|]); (split; [cbn [begun] in *; lia|]); auto).
  - unfold app_step in H. cbn [app_at lock poisoned st_shaper st_writer thread_at] in H. destruct a; try discriminate.
    + destruct lk; try discriminate. destruct L as [L X]. cbn [app_inside] in L.
      destruct (thread_inside t) eqn:T; [discriminate|].
      destruct po; inversion H; subst; cbn; (split; [reflexivity|]); [discriminate|].
      intros P; destruct (I P) as (N1 & N2 & Cs & bs & F & Pk & B).
      repeat split; try assumption; try discriminate. exists bs. (split; [assumption|]). (split; [cbn [begun] in *; lia|]). auto.
    + injection H as <-. destruct L as [L X]. cbn [app_inside andb] in X.
      destruct (shaper_pad sh pl) as [[[d' sh'] rec']| |] eqn:SP; [|cbn; split; [assumption|discriminate]..].
      destruct (shaper_pad_spec _ _ _ _ _ SP) as [C' Sp].
      destruct d' as [d|]; cbn; (split; [congruence|]); intros P; destruct (I P) as (N1 & N2 & Cs & bs & F & Pk & B);
        cbn in B; repeat split; try assumption; try discriminate; exists bs; (split; [assumption|]); (split; [cbn [begun] in *; lia|]);
        rewrite C in Sp; assert (serves Sync p0 bs rt w /\ rc = recs0 ++ flat_map block_sizes bs) as [B1 ->]
          by (destruct t; try assumption; discriminate).
      * destruct Sp as (P1 & P2 & ->). auto.
      * left. destruct Sp as (P1 & P2 & ->). auto.
    + injection H as <-.
      destruct (sync_write w d) as [[[[]|e] w']| |] eqn:W; [| |cbn; split; [assumption|discriminate]..];
        cbn; (split; [assumption|]); intros P; destruct (I P) as (N1 & N2 & Cs & bs & F & Pk & B);
        cbn in B; destruct B as (B1 & B2 & B3 & ->).
      * repeat split; try assumption; try discriminate. exists bs. split; [assumption|].
        split; [cbn [begun] in *; lia|]. right. exists d, w. auto.
      * destruct L as [L X]. cbn [app_inside andb] in X.
        repeat split; try assumption; try discriminate.
        { rewrite map_app, app_nil_r. assumption. }
        exists (bs ++ [Padded d pl]).
        split; [apply blocks_snoc; [assumption|split; assumption]|].
        rewrite sizes_snoc, packets_snoc. cbn [block_sizes block_payloads length].
        split; [cbn [begun] in *; lia|].
        assert (serves Sync p0 (bs ++ [Padded d pl]) (rt ++ [(pl, Err e)]) w') as S
          by (eapply serves_padding_failed; [eassumption|exact W]).
        destruct t; try discriminate; rewrite <- app_assoc; auto.
    + injection H as <-. destruct L as [L X]. cbn [app_inside andb] in X.
      destruct (sync_write w pl) as [[x w']| |] eqn:W; [|cbn; split; [assumption|discriminate]..].
      cbn; split; [assumption|]. intros P; destruct (I P) as (N1 & N2 & Cs & bs & F & Pk & B).
      repeat split; try assumption; try discriminate.
      { rewrite map_app, app_nil_r. assumption. }
      cbn in B. destruct B as [(B1 & B2 & ->)|(d & p1 & B1 & B2 & B3 & B4 & ->)].
      * exists (bs ++ [Bare pl]). split; [apply blocks_snoc; assumption|].
        rewrite sizes_snoc, packets_snoc. cbn [block_sizes block_payloads length].
        split; [cbn [begun] in *; lia|].
        assert (serves Sync p0 (bs ++ [Bare pl]) (rt ++ [(pl, x)]) w') as S
          by (eapply serves_bare; [eassumption|exact W]).
        destruct t; try discriminate; rewrite <- app_assoc; auto.
      * exists (bs ++ [Padded d pl]). split; [apply blocks_snoc; [assumption|split; assumption]|].
        rewrite sizes_snoc, packets_snoc. cbn [block_sizes block_payloads length].
        split; [cbn [begun] in *; lia|].
        assert (serves Sync p0 (bs ++ [Padded d pl]) (rt ++ [(pl, x)]) w') as S
          by (eapply serves_padded; [eassumption|exact B4|exact W]).
        destruct t; try discriminate; rewrite <- app_assoc; auto.
    + destruct t; inversion H; subst; cbn; (split; [reflexivity|]); intros P; destruct (I P) as (N1 & N2 & Cs & bs & F & Pk & B);
        repeat split; try assumption; try discriminate; exists bs; (split; [assumption|]); (split; [cbn [begun] in *; lia|]); auto.
  - unfold thread_step in H. cbn [app_at lock poisoned st_shaper st_writer thread_at shutdown] in H.
    destruct t; try discriminate; injection H as <-; cbn [thread_inside] in L.
    + destruct sd; cbn; (split; [assumption|]); intros P; destruct (I P) as (N1 & N2 & Cs & bs & F & Pk & B);
        repeat split; try assumption; try discriminate; exists bs; (split; [assumption|]); (split; [cbn [begun] in *; lia|]); destruct a; auto.
    + cbn; (split; [assumption|]); intros P; destruct (I P) as (N1 & N2 & Cs & bs & F & Pk & B);
        repeat split; try assumption; try discriminate; exists bs; (split; [assumption|]); (split; [cbn [begun] in *; lia|]); destruct a; auto.
    + destruct lk; [destruct po|..]; cbn; (split; [assumption|]); try discriminate; intros P; destruct (I P) as (N1 & N2 & Cs & bs & F & Pk & B);
        repeat split; try assumption; try discriminate; exists bs; (split; [assumption|]); (split; [cbn [begun] in *; lia|]); destruct a; auto.
    + destruct L as [L X]. rewrite andb_true_r in X.
      destruct (shaper_decoy sh) as [[d' sh'] rec'] eqn:SD.
      destruct (shaper_decoy_spec _ _ _ _ SD) as (C' & Sp & _).
      destruct d' as [d|]; cbn; (split; [congruence|]); intros P; destruct (I P) as (N1 & N2 & Cs & bs & F & Pk & B);
        repeat split; try assumption; try discriminate; exists bs; (split; [assumption|]); (split; [cbn [begun] in *; lia|]);
        assert (serves Sync p0 bs rt w /\ rc = recs0 ++ flat_map block_sizes bs) as [B1 ->]
          by (destruct a; try assumption; discriminate); try rewrite C in Sp.
      * destruct Sp as (P1 & P2 & ->). destruct a; try discriminate; auto.
      * subst rec'. rewrite app_nil_r. destruct a; try discriminate; auto.
    + destruct L as [L X]. rewrite andb_true_r in X.
      destruct (sync_write w d) as [[x w']| |] eqn:W; [|cbn; split; [assumption|discriminate]..].
      cbn; (split; [assumption|]); intros P; destruct (I P) as (N1 & N2 & Cs & bs & F & Pk & B);
        repeat split; try assumption; try discriminate.
      assert (decoy_strategy cfg = Random /\ shaper_decoy_payload d /\ serves Sync p0 bs rt w /\
              rc = recs0 ++ flat_map block_sizes bs ++ [size_of d]) as (B1 & B2 & B3 & ->)
          by (rewrite app_assoc; destruct a; try assumption; discriminate).
      exists (bs ++ [Cover d]). split; [apply blocks_snoc; [assumption|split; assumption]|].
      rewrite sizes_snoc, packets_snoc. cbn [block_sizes block_payloads length].
      split; [destruct a; cbn [begun app_inside] in *; try discriminate; lia|].
      assert (serves Sync p0 (bs ++ [Cover d]) rt w') as S
          by (eapply serves_cover; [eassumption|exact W]).
      destruct a; try discriminate; auto.
Qed.

Lemma inv_play cfg p0 recs0 : forall ms n cs s s',
  inv cfg p0 recs0 n cs s -> play s ms = Some s' -> inv cfg p0 recs0 (n + length ms) (cs ++ calls ms) s'.
Proof.
  induction ms as [|m ms IH]; intros n cs s s' I H; cbn [play] in H.
  - injection H as <-. unfold calls. cbn. now rewrite app_nil_r, PeanoNat.Nat.add_0_r.
  - destruct (do_move s m) as [s1|] eqn:M; [|discriminate].
    cbn [length]. rewrite <- PeanoNat.Nat.add_succ_comm.
    change (m :: ms) with ([m] ++ ms). rewrite calls_app, app_assoc. eapply IH; [|eassumption].
    eapply inv_move; eassumption.
Qed.

Lemma inv_new p sh recs : inv (sh_config sh) p recs 0 [] (shared_new p sh recs).
Proof.
  split; [split; reflexivity|]. split; [reflexivity|]. intros _. cbn. repeat split; try discriminate.
  exists []. split; [constructor|]. split; [auto|]. cbn. rewrite app_nil_r. split; [constructor|reflexivity].
Qed.

(** When nobody holds the mutex, everything written so far is a sequence of whole blocks. *)
Theorem schedule_blocks p sh recs ms s :
  play (shared_new p sh recs) ms = Some s -> poisoned s = false -> lock s = Free ->
  calls ms = map fst (returned s) ++ in_flight (app_at s) /\
  exists bs, Forall (block_ok (sh_config sh)) bs /\ (packets bs <= length ms)%nat /\
    serves Sync p bs (returned s) (st_writer s) /\ records s = recs ++ flat_map block_sizes bs.
Proof.
  intros H P F. destruct (inv_play _ _ _ _ _ _ _ _ (inv_new p sh recs) H) as ([L _] & _ & I).
  destruct (I P) as (_ & _ & Cs & bs & Fb & Pk & B). cbn [app] in Cs. split; [assumption|].
  exists bs. split; [assumption|]. split; [cbn in Pk; lia|]. unfold holds_blocks in B. rewrite F in L.
  destruct (app_at s), (thread_at s); try discriminate; assumption.
Qed.

(** In the critical section there is at most the padding of the payload about to be written. *)
Theorem schedule_blocks_any p sh recs ms s :
  play (shared_new p sh recs) ms = Some s -> poisoned s = false ->
  exists bs pad p1, Forall (block_ok (sh_config sh)) bs /\
    serves Sync p bs (returned s) p1 /\
    match pad with
    | [] => st_writer s = p1
    | [d] => (exists pl, app_at s = AppWrite pl) /\ shaper_decoy_payload d /\ lock s = ByApp /\
             write_any Sync p1 d = Ret (Ok tt, st_writer s)
    | _ => False
    end.
Proof.
  intros H P. destruct (inv_play _ _ _ _ _ _ _ _ (inv_new p sh recs) H) as ([L _] & _ & I).
  destruct (I P) as (_ & _ & Cs & bs & Fb & Pk & B). unfold holds_blocks in B.
  destruct (app_at s) eqn:A; cbn [app_inside] in L;
    try solve [exists bs, [], (st_writer s); split; [assumption|]; split; [|reflexivity];
               destruct (thread_at s); destruct B as (B1 & B2); try destruct B2 as (B2 & B3 & B4); assumption].
  destruct B as [(B1 & B2 & B3)|(d & p1 & B1 & B2 & B3 & B4 & B5)].
  - exists bs, [], (st_writer s). auto.
  - exists bs, [d], p1. split; [assumption|]. split; [assumption|]. cbn. split; [eauto|]. auto.
Qed.

(** ** Panics *)

Lemma decoy_sound d : shaper_decoy_payload d -> sound_payload d.
Proof. intros (n & _ & ->). eexists. reflexivity. Qed.

Lemma pad_total sh pl : sound_payload pl -> exists d sh' recs, shaper_pad sh pl = Ret (d, sh', recs).
Proof.
  intros ([t ct] & V). unfold payload_view in V. apply bind_ret_inv in V. destruct V as (t' & _ & V).
  apply bind_ret_inv in V. destruct V as (ct' & C & _). unfold shaper_pad. rewrite C. cbn [bind].
  destruct (padding_strategy _); [eauto|]. destruct (zero_decoy _) as [[d n] g]. eauto.
Qed.

Definition fine (k : N) s : Prop :=
  poisoned s = false /\ app_at s <> AppPanicked /\ thread_at s <> ThPanicked /\
  counted k (pw_cipher (st_writer s)) /\
  Forall sound_payload (in_flight (app_at s)) /\
  (forall d pl, app_at s = AppWritePad d pl -> sound_payload d) /\
  (forall d, thread_at s = ThWrite d -> sound_payload d).

Local Ltac ands := repeat match goal with |- _ /\ _ => split end.

Lemma fine_move k s m s' :
  fine k s -> room k -> Forall sound_payload (calls [m]) -> do_move s m = Some s' -> fine (k + 1) s'.
Proof.
  intros (P & A & T & C & S1 & S2 & S3) Hr Sm H.
  destruct s as [w sh lk po sd a t rc rt].
  cbn [lock app_at thread_at st_shaper st_writer poisoned returned records] in *. subst po.
  assert (counted (k + 1) (pw_cipher w)) as C1 by (eapply counted_mono; [|eassumption]; lia).
  unfold fine. destruct m as [pl| | |]; unfold calls in Sm; cbn [flat_map Datatypes.app] in Sm; cbn [do_move app_at] in H.
  - destruct a; inversion H; subst; cbn; ands; try reflexivity; try assumption; discriminate.
  - destruct a; inversion H; subst; cbn; ands; try reflexivity; try assumption; try discriminate; constructor.
  - unfold app_step in H. cbn [app_at lock poisoned st_shaper st_writer thread_at] in H. destruct a; try discriminate.
    + destruct lk; inversion H; subst; cbn; ands; try reflexivity; try assumption; discriminate.
    + injection H as <-. inversion S1 as [|? ? S4 _]; subst.
      destruct (pad_total sh pl S4) as (d & sh' & rec' & Q). rewrite Q. apply shaper_pad_spec in Q. destruct Q as [_ Q].
      destruct d as [d|]; cbn; ands; try reflexivity; try assumption; try discriminate.
      intros ? ? D. injection D as <- <-. apply decoy_sound. tauto.
    + injection H as <-. destruct (S2 d pl eq_refl) as [q V].
      destruct (write_any_total Sync w d k q C Hr V) as (x & w' & W & C'). cbn [write_any] in W. rewrite W.
      destruct x as [[]|e]; cbn; ands; try reflexivity; try assumption; try discriminate; try constructor.
    + injection H as <-. inversion S1 as [|? ? [q V] _]; subst.
      destruct (write_any_total Sync w pl k q C Hr V) as (x & w' & W & C'). cbn [write_any] in W. rewrite W.
      cbn; ands; try reflexivity; try assumption; try discriminate; try constructor.
    + destruct t; inversion H; subst; cbn; ands; try reflexivity; try assumption; try discriminate.
  - unfold thread_step in H. cbn [app_at lock poisoned st_shaper st_writer thread_at shutdown] in H.
    destruct t; try discriminate; injection H as <-.
    + destruct sd; cbn; ands; try reflexivity; try assumption; try discriminate.
    + cbn; ands; try reflexivity; try assumption; try discriminate.
    + destruct lk; cbn; ands; try reflexivity; try assumption; try discriminate.
    + destruct (shaper_decoy sh) as [[d sh'] rec'] eqn:Q. apply shaper_decoy_spec in Q. destruct Q as (_ & Q & _).
      destruct d as [d|]; cbn; ands; try reflexivity; try assumption; try discriminate.
      intros ? D. injection D as <-. apply decoy_sound. tauto.
    + destruct (S3 d eq_refl) as [q V].
      destruct (write_any_total Sync w d k q C Hr V) as (x & w' & W & C'). cbn [write_any] in W. rewrite W.
      cbn; ands; try reflexivity; try assumption; try discriminate.
Qed.

Lemma fine_play : forall ms k s s',
  fine k s -> (overflow_checks = true -> k + len ms < 2 ^ 32) -> Forall sound_payload (calls ms) ->
  play s ms = Some s' -> fine (k + len ms) s'.
Proof.
  induction ms as [|m ms IH]; intros k s s' F Hr Sm H; cbn [play] in H.
  - injection H as <-. now replace (k + len []) with k by (cbn; lia).
  - destruct (do_move s m) as [s1|] eqn:M; [|discriminate].
    change (m :: ms) with ([m] ++ ms) in Sm. rewrite calls_app in Sm. apply Forall_app in Sm. destruct Sm as [Sm1 Sm2].
    rewrite len_cons in *. replace (k + (len ms + 1)) with (k + 1 + len ms) by lia.
    eapply IH; [|intros Ho; specialize (Hr Ho); lia|eassumption|eassumption].
    eapply fine_move; try eassumption. intros Ho. specialize (Hr Ho). lia.
Qed.

Theorem schedule_no_panic p sh recs k ms s :
  counted k (pw_cipher p) -> (overflow_checks = true -> k + len ms < 2 ^ 32) ->
  Forall sound_payload (calls ms) ->
  play (shared_new p sh recs) ms = Some s ->
  poisoned s = false /\ app_at s <> AppPanicked /\ thread_at s <> ThPanicked.
Proof.
  intros C Hr S H. assert (fine k (shared_new p sh recs)) as F.
  { unfold fine. cbn. ands; try discriminate; try assumption; try reflexivity; try constructor. }
  pose proof (fine_play _ _ _ _ F Hr S H) as (A & B & D & _). auto.
Qed.

(** ** Shutdown *)

(** Moves the decoy thread still makes after the flag is set. *)
Definition left_moves (t : thread_pc) : nat :=
  match t with
  | ThCheck => 1 | ThSleep => 5 | ThTryLock => 4 | ThDecoy => 3 | ThWrite _ => 2 | ThDone | ThPanicked => 0
  end.

Definition left_writes (t : thread_pc) : nat :=
  match t with ThSleep | ThTryLock | ThDecoy | ThWrite _ => 1 | ThCheck | ThDone | ThPanicked => 0 end.

(** What the thread is about to write is a decoy. *)
Definition decoy_next s : Prop := forall d, thread_at s = ThWrite d -> shaper_decoy_payload d.

Lemma decoy_next_move s m s' : decoy_next s -> do_move s m = Some s' -> decoy_next s'.
Proof.
  intros D H. destruct s as [w sh lk po sd a t rc rt]. unfold decoy_next in *. cbn [thread_at] in *.
  destruct m as [pl| | |]; cbn [do_move app_at] in H.
  - destruct a; inversion H; subst; exact D.
  - destruct a; inversion H; subst; exact D.
  - unfold app_step in H. cbn [app_at lock poisoned st_shaper st_writer thread_at] in H. destruct a; try discriminate.
    + destruct lk, po; inversion H; subst; exact D.
    + injection H as <-. destruct (shaper_pad sh pl) as [[[[d|] sh'] rec']| |]; exact D.
    + injection H as <-. destruct (sync_write w d) as [[[[]|e] w']| |]; exact D.
    + injection H as <-. destruct (sync_write w pl) as [[x w']| |]; exact D.
    + destruct t; inversion H; subst; exact D.
  - unfold thread_step in H. cbn [app_at lock poisoned st_shaper st_writer thread_at shutdown] in H.
    destruct t; try discriminate; injection H as <-.
    + destruct sd; cbn; discriminate.
    + cbn; discriminate.
    + destruct lk; [destruct po|..]; cbn; discriminate.
    + destruct (shaper_decoy sh) as [[d sh'] rec'] eqn:Q. apply shaper_decoy_spec in Q. destruct Q as (_ & Q & _).
      destruct d as [d|]; cbn; [|discriminate]. intros ? D'. injection D' as <-. tauto.
    + destruct (sync_write w d) as [[x w']| |]; cbn; discriminate.
Qed.

Lemma decoy_next_play : forall ms s s', decoy_next s -> play s ms = Some s' -> decoy_next s'.
Proof.
  induction ms as [|m ms IH]; intros s s' D H; cbn [play] in H; [now injection H as <-|].
  destruct (do_move s m) as [s1|] eqn:M; [|discriminate]. eapply IH; [|eassumption]. eapply decoy_next_move; eassumption.
Qed.

Lemma thread_step_left s : shutdown s = true -> decoy_next s ->
  match thread_step s with
  | Some s' => shutdown s' = true /\ (left_moves (thread_at s') < left_moves (thread_at s))%nat /\
               (left_writes (thread_at s') <= left_writes (thread_at s))%nat /\
               app_at s' = app_at s /\
               (st_writer s' = st_writer s \/
                left_writes (thread_at s) = 1%nat /\ left_writes (thread_at s') = 0%nat /\
                exists d x, shaper_decoy_payload d /\ sync_write (st_writer s) d = Ret (x, st_writer s'))
  | None => left_moves (thread_at s) = 0%nat
  end.
Proof.
  intros Hs Dn. destruct s as [w sh lk po sd a t rc rt]. cbn in Hs. subst sd. unfold thread_step.
  unfold decoy_next in Dn. cbn [thread_at] in Dn.
  cbn [app_at lock poisoned st_shaper st_writer thread_at shutdown].
  destruct t; cbn; try (repeat split; auto; lia).
  - destruct lk; [destruct po|..]; cbn; repeat split; auto; lia.
  - destruct (shaper_decoy sh) as [[[d|] sh'] rec']; cbn; repeat split; auto; lia.
  - destruct (sync_write w d) as [[x w']| |] eqn:W; cbn; repeat split; auto; try lia.
    right. split; [reflexivity|]. split; [reflexivity|]. exists d, x. split; [now apply Dn|assumption].
Qed.

(** The application waiting in [join] or gone only goes on to be gone. *)
Lemma joining_move s m s' :
  shutdown s = true -> app_at s = AppJoin \/ app_at s = AppDropped -> do_move s m = Some s' ->
  (m = App /\ s' = set_app s AppDropped /\ thread_ended (thread_at s)) \/ (m = Thread /\ thread_step s = Some s').
Proof.
  intros Hs A H. destruct m as [pl| | |]; cbn [do_move] in H.
  - destruct A as [A|A]; rewrite A in H; discriminate.
  - destruct A as [A|A]; rewrite A in H; discriminate.
  - left. unfold app_step in H. destruct A as [A|A]; rewrite A in H; [|discriminate].
    unfold thread_ended. destruct (thread_at s); try discriminate; injection H as <-; auto.
  - right. auto.
Qed.

Theorem drop_stops : forall ms s s',
  shutdown s = true -> decoy_next s -> app_at s = AppJoin \/ app_at s = AppDropped -> play s ms = Some s' ->
  (thread_moves ms + left_moves (thread_at s') <= left_moves (thread_at s))%nat /\
  (st_writer s' = st_writer s \/
   left_writes (thread_at s) = 1%nat /\ left_writes (thread_at s') = 0%nat /\
   exists d x, shaper_decoy_payload d /\ sync_write (st_writer s) d = Ret (x, st_writer s')).
Proof.
  induction ms as [|m ms IH]; intros s s' Hs Dn A H; cbn [play] in H.
  - injection H as <-. split; [cbn; lia|now left].
  - destruct (do_move s m) as [s1|] eqn:M; [|discriminate].
    destruct (joining_move _ _ _ Hs A M) as [(-> & -> & T)|(-> & T)].
    + apply IH in H; [|exact Hs|exact Dn|now right]. exact H.
    + pose proof (thread_step_left s Hs Dn) as Q. rewrite T in Q. destruct Q as (Q1 & Q2 & Q3 & Q4 & Q5).
      apply IH in H; [|exact Q1|eapply decoy_next_move; eassumption|now rewrite Q4]. destruct H as [H1 H2].
      split; [unfold thread_moves in *; cbn [filter length]; lia|].
      destruct Q5 as [Q5|(Q5 & Q6 & d & x & Q7 & Q8)].
      * rewrite <- Q5. destruct H2 as [H2|(H2 & H3 & H4)]; [now left|]. right.
        split; [|auto]. destruct (left_writes (thread_at s)) as [|[|n]] eqn:W; [lia|reflexivity|].
        destruct (thread_at s); cbn in W; discriminate.
      * destruct H2 as [H2|(H2 & _)]; [|rewrite Q6 in H2; discriminate].
        right. split; [assumption|]. split; [|exists d, x; split; [assumption|now rewrite H2]].
        clear -H1 Q6. assert (forall t, left_moves t <= 1 -> left_writes t = 0)%nat as Z by (intros []; cbn; lia).
        apply Z. destruct (thread_at s1); cbn in *; try discriminate; lia.
Qed.

(** The thread is never stuck: it can move until it has ended. *)
Lemma thread_never_stuck s : thread_step s = None -> thread_ended (thread_at s).
Proof.
  unfold thread_step, thread_ended. destruct (thread_at s); try discriminate; auto.
Qed.

(** [join] has returned: the thread has ended. *)
Definition dropped_ok s : Prop :=
  (app_at s = AppJoin \/ app_at s = AppDropped -> shutdown s = true) /\
  (app_at s = AppDropped -> thread_ended (thread_at s)).

Lemma dropped_move s m s' : dropped_ok s -> do_move s m = Some s' -> dropped_ok s'.
Proof.
  intros [D1 D2] H. destruct s as [w sh lk po sd a t rc rt]. unfold dropped_ok in *.
  cbn [app_at thread_at shutdown] in *.
  destruct m as [pl| | |]; cbn [do_move app_at] in H.
  - destruct a; inversion H; subst; cbn; split; intros Q; (discriminate Q || (destruct Q as [Q|Q]; discriminate Q)).
  - destruct a; inversion H; subst; cbn; split; auto; discriminate.
  - unfold app_step in H. cbn [app_at lock poisoned st_shaper st_writer thread_at] in H. destruct a; try discriminate.
    + destruct lk, po; inversion H; subst; cbn; split; intros Q; (discriminate Q || (destruct Q as [Q|Q]; discriminate Q)).
    + injection H as <-. destruct (shaper_pad sh pl) as [[[[d|] sh'] rec']| |]; cbn; split; intros Q; (discriminate Q || (destruct Q as [Q|Q]; discriminate Q)).
    + injection H as <-. destruct (sync_write w d) as [[[[]|e] w']| |]; cbn; split; intros Q; (discriminate Q || (destruct Q as [Q|Q]; discriminate Q)).
    + injection H as <-. destruct (sync_write w pl) as [[x w']| |]; cbn; split; intros Q; (discriminate Q || (destruct Q as [Q|Q]; discriminate Q)).
    + unfold thread_ended. destruct t; inversion H; subst; cbn; auto.
  - unfold thread_step in H. cbn [app_at lock poisoned st_shaper st_writer thread_at shutdown] in H.
    assert (a = AppDropped -> t = ThDone \/ t = ThPanicked) as D3 by exact D2.
    assert (a = AppDropped -> False) as D4.
    { intros Q. destruct (D3 Q) as [-> | ->]; discriminate. }
    assert (app_at s' = a /\ shutdown s' = sd) as [-> ->].
    { destruct t; try discriminate; injection H as <-.
      - destruct sd; auto.
      - auto.
      - destruct lk; [destruct po|..]; auto.
      - destruct (shaper_decoy sh) as [[[d|] sh'] rec']; auto.
      - destruct (sync_write w d) as [[x w']| |]; auto. }
    split; [exact D1|]. intros Q. destruct (D4 Q).
Qed.

Lemma dropped_play : forall ms s s', dropped_ok s -> play s ms = Some s' -> dropped_ok s'.
Proof.
  induction ms as [|m ms IH]; intros s s' D H; cbn [play] in H; [now injection H as <-|].
  destruct (do_move s m) as [s1|] eqn:M; [|discriminate]. eapply IH; [|eassumption]. eapply dropped_move; eassumption.
Qed.

Theorem after_drop p sh recs ms s ms' s' :
  play (shared_new p sh recs) ms = Some s -> app_at s = AppDropped -> play s ms' = Some s' ->
  thread_ended (thread_at s) /\ s' = s /\ ms' = [].
Proof.
  intros H A H'. assert (dropped_ok (shared_new p sh recs)) as D.
  { split; cbn; [intros []; discriminate|discriminate]. }
  pose proof (dropped_play _ _ _ D H) as [_ D2]. specialize (D2 A). split; [assumption|].
  destruct ms' as [|m ms']; cbn [play] in H'; [now injection H' as <-|].
  destruct (do_move s m) as [s1|] eqn:M; [|discriminate]. destruct m; cbn [do_move] in M.
  - rewrite A in M. discriminate.
  - rewrite A in M. discriminate.
  - unfold app_step in M. rewrite A in M. discriminate.
  - unfold thread_step in M. destruct D2 as [T|T]; rewrite T in M; discriminate.
Qed.

Lemma joining_shutdown p sh recs ms s :
  play (shared_new p sh recs) ms = Some s -> app_at s = AppJoin -> shutdown s = true /\ decoy_next s.
Proof.
  intros H A. assert (dropped_ok (shared_new p sh recs)) as D.
  { split; cbn; [intros []; discriminate|discriminate]. }
  pose proof (dropped_play _ _ _ D H) as [D1 _]. split; [auto|].
  eapply decoy_next_play; [|eassumption]. unfold decoy_next. cbn. discriminate.
Qed.

(** Left alone, the thread ends and [join] returns. *)
Lemma join_returns : forall n s, shutdown s = true -> decoy_next s -> app_at s = AppJoin ->
  (left_moves (thread_at s) <= n)%nat ->
  exists i s', (i <= n)%nat /\ play s (repeat Thread i ++ [App]) = Some s' /\ app_at s' = AppDropped.
Proof.
  induction n as [|n IH]; intros s Hs Dn A L.
  - exists 0%nat. cbn [repeat app play do_move]. unfold app_step. rewrite A.
    destruct (thread_at s); cbn in L; try lia; eexists; split; auto; split; reflexivity.
  - pose proof (thread_step_left s Hs Dn) as Q. destruct (thread_step s) as [s1|] eqn:T.
    + destruct Q as (Q1 & Q2 & _ & Q4 & _). destruct (IH s1) as (i & s' & Li & P & R0); try congruence; try lia.
      { eapply decoy_next_move with (m := Thread); eassumption. }
      exists (S i), s'. split; [lia|]. split; [|assumption]. cbn [repeat app play do_move]. rewrite T. exact P.
    + destruct (IH s) as (i & s' & Li & P & R0); try assumption; try lia. exists i, s'. split; [lia|]. auto.
Qed.

(** ** Disabled shaping *)

Lemma write_many_snoc fl : forall pls p pl xs p1 x p2,
  write_many fl p pls = Ret (xs, p1) -> write_any fl p1 pl = Ret (x, p2) ->
  write_many fl p (pls ++ [pl]) = Ret (xs ++ [x], p2).
Proof.
  induction pls as [|q pls IH]; intros p pl xs p1 x p2 H W; cbn [write_many app] in *.
  - injection H as <- <-. rewrite W. reflexivity.
  - apply bind_ret_inv in H. destruct H as ([y p3] & Q & H). apply bind_ret_inv in H. destruct H as ([ys p4] & Q2 & H).
    injection H as <- <-. rewrite Q. cbn [bind]. rewrite (IH _ _ _ _ _ _ Q2 W). reflexivity.
Qed.

Lemma serves_plain fl p bs rs p' : serves fl p bs rs p' ->
  Forall (block_ok (Config Disabled Disabled)) bs ->
  write_many fl p (map fst rs) = Ret (map snd rs, p') /\ bs = map Bare (map fst rs).
Proof.
  intros H. induction H as [p|p bs rs p1 d x p2 H IH W1|p bs rs p1 pl x p2 H IH W1|p bs rs p1 d pl p2 x p3 H IH W1 W2|p bs rs p1 d pl e p2 H IH W1].
  - intros _. split; reflexivity.
  - intros F. apply Forall_app in F. destruct F as [_ F]. inversion F as [|? ? B]; subst. destruct B; discriminate.
  - intros F. apply Forall_app in F. destruct F as [F _]. destruct (IH F) as [Q ->]. rewrite !map_app.
    split; [|reflexivity]. eapply write_many_snoc; eassumption.
  - intros F. apply Forall_app in F. destruct F as [_ F]. inversion F as [|? ? B]; subst. destruct B; discriminate.
  - intros F. apply Forall_app in F. destruct F as [_ F]. inversion F as [|? ? B]; subst. destruct B; discriminate.
Qed.

Lemma shaper_unused_move s m s' :
  sh_config (st_shaper s) = Config Disabled Disabled -> do_move s m = Some s' -> st_shaper s' = st_shaper s.
Proof.
  intros C H. destruct s as [w sh lk po sd a t rc rt].
  cbn [lock app_at thread_at st_shaper st_writer poisoned returned records] in *.
  destruct m as [pl| | |]; cbn [do_move app_at] in H.
  - destruct a; inversion H; subst; reflexivity.
  - destruct a; inversion H; subst; reflexivity.
  - unfold app_step in H. cbn [app_at lock poisoned st_shaper st_writer thread_at] in H. destruct a; try discriminate.
    + destruct lk, po; inversion H; subst; reflexivity.
    + injection H as <-. destruct (shaper_pad sh pl) as [[[d' sh'] rec']| |] eqn:SP; [|reflexivity..].
      destruct (shaper_pad_spec _ _ _ _ _ SP) as [_ Sp]. rewrite C in Sp.
      destruct d' as [d|]; [destruct Sp; discriminate|]. destruct Sp as (_ & -> & _). reflexivity.
    + injection H as <-. destruct (sync_write w d) as [[[[]|e] w']| |]; reflexivity.
    + injection H as <-. destruct (sync_write w pl) as [[x w']| |]; reflexivity.
    + destruct t; inversion H; subst; reflexivity.
  - unfold thread_step in H. cbn [app_at lock poisoned st_shaper st_writer thread_at shutdown] in H.
    destruct t; try discriminate; injection H as <-.
    + destruct sd; reflexivity.
    + reflexivity.
    + destruct lk; [destruct po|..]; reflexivity.
    + destruct (shaper_decoy sh) as [[d' sh'] rec'] eqn:SD.
      destruct (shaper_decoy_spec _ _ _ _ SD) as (_ & _ & Sp). rewrite C in Sp. specialize (Sp eq_refl). subst sh'.
      destruct d'; reflexivity.
    + destruct (sync_write w d) as [[x w']| |]; reflexivity.
Qed.

Theorem schedule_disabled p sh recs ms s :
  sh_config sh = Config Disabled Disabled ->
  play (shared_new p sh recs) ms = Some s -> poisoned s = false ->
  st_shaper s = sh /\
  (lock s = Free ->
   write_many Sync p (map fst (returned s)) = Ret (map snd (returned s), st_writer s) /\
   records s = recs ++ map size_of (map fst (returned s))).
Proof.
  intros C H P. split.
  - assert (Q : forall ms (s s' : @shared G), sh_config (st_shaper s) = Config Disabled Disabled ->
       play s ms = Some s' -> st_shaper s' = st_shaper s).
    { clear -RL. induction ms as [|m ms IH]; intros s s' C H; cbn [play] in H; [now injection H as <-|].
      destruct (do_move s m) as [s1|] eqn:M; [|discriminate].
      pose proof (shaper_unused_move _ _ _ C M) as Q. rewrite <- Q. apply IH; [now rewrite Q|assumption]. }
    exact (Q ms (shared_new p sh recs) s C H).
  - intros F. destruct (schedule_blocks _ _ _ _ _ H P F) as (_ & bs & Fb & _ & S & Rc). rewrite C in Fb.
    destruct (serves_plain _ _ _ _ _ S Fb) as [W ->]. split; [assumption|]. rewrite Rc. f_equal.
    clear. induction (map fst (returned s)) as [|x l IH]; [reflexivity|]. cbn. now rewrite IH.
Qed.

End Io.
