(** * Property C108: what padding hides from somebody who sees when bytes leave *)
From Coq Require Import List NArith Bool Lia.
From Coq.Strings Require Import Byte.
From Verif Require Import Base BaseFacts Env Toy FsChacha Cipher CipherProofs Handshake Transport Io Futures HsSteps Sessions SessionProofs
  Traffic TrafficIo TrafficFutures SpecTraffic TrafficProofs TrafficIoProofs PropsHandshake PropsIo PropsTraffic PropsShape PropsVolume
  Outgoing SpecOutgoing PropsOutgoing ShapedOut SpecBursts.
Import ListNotations.
Local Open Scope N_scope.

(** ** The writers *)

(** A transport without hold-ups, and a [BufWriter] of any capacity over one. *)
Theorem C108_writers : forall fl,
  prompt raw_write raw_flush written (fun _ => []) (fun w => w_script w = [] /\ flushes w = []) /\
  prompt (buf_write fl) (buf_flush fl) (fun b => written (bw_inner b)) bw_buffer
    (fun b => w_script (bw_inner b) = [] /\ flushes (bw_inner b) = []).
Proof.
  intros fl. destruct (C93_bufwriter fl) as [HB HR]. split.
  - split; [exact HR|]. split.
    + intros w bs [F1 F2] _. unfold raw_write. rewrite F1. eexists. split; [reflexivity|]. cbn. auto.
    + intros w [F1 F2]. unfold raw_flush. rewrite F2. exists w. auto.
  - split; [exact HB|]. split.
    + intros b bs [F1 F2] H. unfold buf_write. rewrite H. cbn [app].
      unfold drain_fuel. cbn [drain].
      replace (if bw_capacity b <? len [] + len bs then _ else _) with (Some (@Ok io_kind unit tt), @nil byte, bw_inner b)
        by (destruct (_ <? _); reflexivity).
      destruct (bw_capacity b <=? len bs).
      * unfold raw_write. rewrite F1. eexists. split; [reflexivity|]. cbn. auto.
      * eexists. split; [reflexivity|]. cbn. auto.
    + intros b [F1 F2]. unfold buf_flush.
      assert (D : exists w, drain (drain_fuel (bw_inner b)) fl (bw_buffer b) (bw_inner b) = (Some (Ok tt), [], w) /\ w_script w = [] /\ flushes w = []).
      { unfold drain_fuel. rewrite F1. cbn [length drain]. destruct (bw_buffer b) as [|x l] eqn:B; [eexists; split; [reflexivity|]; auto|].
        unfold raw_write. rewrite F1. rewrite len_cons. destruct (N.eqb_spec (1 + len l) 0); [lia|].
        rewrite <- (len_cons x l). rewrite drop_all by lia. eexists. split; [reflexivity|]. cbn. auto. }
      destruct D as (w & -> & D1 & D2). unfold raw_flush. rewrite D2. eexists. split; [reflexivity|]. cbn. auto.
Qed.
Print Assumptions C108_writers.

Section Writing.
Context {E : Env} {EL : EnvLaws E} {G : Type} {R : Rng G} {RL : RngLaws G R}.
Variables (St : Type) (wr : St -> bytes -> option (result io_kind N) * St) (fsh : St -> option (result io_kind unit) * St).
Variables (sent held : St -> bytes) (fit : St -> Prop).
Hypothesis PROMPT : prompt wr fsh sent held fit.

Definition look (st : St) : N := len (sent st).
Definition size_of' (pl : payload) : N := size_of pl + 20.

Lemma out_begin_fine fl c pl k : counted k c -> room k -> sound_payload pl ->
  exists pkt c', out_begin fl c pl = Ret (Putting pkt, c') /\ counted (k + 1) c' /\ len pkt = size_of' pl.
Proof.
  intros Hc Hr ([t ct] & V). destruct (encrypt_vec_ret k c ct t None Hc Hr) as (pkt & c' & En & Hc').
  pose proof V as V'. unfold payload_view in V'. apply bind_ret_inv in V'. destruct V' as (t' & T & V'). apply bind_ret_inv in V'. destruct V' as (ct' & C & V').
  injection V' as -> ->. exists pkt, c'. split; [|split; [exact Hc'|]].
  - unfold out_begin. rewrite T, C. cbn [bind]. destruct fl; [rewrite En; reflexivity|].
    change (encryption_buffer_len (len ct)) with (len ct + 20). rewrite encrypt_exact, En. reflexivity.
  - apply encrypt_vec_len in En. rewrite En. unfold size_of', size_of. f_equal.
    now rewrite (view_seen _ _ V).
Qed.

Lemma put_fine fuel fl c pl st k : (2 <= fuel)%nat -> counted k c -> room k -> sound_payload pl -> fit st -> held st = [] ->
  exists c' st1 st2, put St wr fsh fuel fl c pl st = Ret (Ok tt, c', [st1; st2]) /\ counted (k + 1) c' /\ fit st2 /\ held st2 = [] /\
    look st2 = look st + size_of' pl /\ (look st1 = look st \/ look st1 = look st2).
Proof.
  intros Hf Hc Hr Sp F Hh. destruct (out_begin_fine fl c pl k Hc Hr Sp) as (pkt & c' & B & Hc' & L). destruct PROMPT as (HOLD & PW & PF).
  destruct (PW st pkt F Hh) as (st1 & W1 & F1 & D1). destruct (PF st1 F1) as (st2 & W2 & F2).
  destruct (proj1 HOLD _ _ _ _ W1) as (_ & _ & T1). destruct (proj2 HOLD _ _ _ W2) as (_ & T2 & H2). specialize (H2 eq_refl).
  rewrite take_all in T1 by lia. rewrite Hh in T1. cbn [app] in T1. rewrite H2, app_nil_r in T2.
  exists c', st1, st2. destruct fuel as [|[|fuel]]; [lia|lia|]. split; [|split; [exact Hc'|split; [exact F2|split; [exact H2|split]]]].
  - unfold put. rewrite B. cbn [bind drive out_step]. unfold any_write_once. rewrite W1. unfold size_of' in L.
    destruct (N.eqb_spec (len pkt) 0); [lia|]. rewrite (proj2 (N.leb_le _ _) (N.le_refl (len pkt))). cbn [drive out_step]. rewrite W2. cbn [drive]. destruct fuel; reflexivity.
  - unfold look. rewrite T2, T1, len_app, L. reflexivity.
  - unfold look. rewrite T2. destruct D1 as [D|D]; rewrite D in T1 |- *.
    + right. now rewrite app_nil_r.
    + left. f_equal. rewrite D in T2. apply app_inv_tail in T1. exact T1.
Qed.

Lemma bursts_put st st1 st2 n rest : look st2 = look st + n -> 0 < n -> look st1 = look st \/ look st1 = look st2 ->
  bursts (look st) (look st1 :: look st2 :: rest) = n :: bursts (look st2) rest.
Proof.
  intros L P D. cbn [bursts]. destruct D as [-> | ->].
  - rewrite N.eqb_refl. destruct (N.eqb_spec (look st2) (look st)); [lia|]. f_equal. lia.
  - destruct (N.eqb_spec (look st2) (look st)); [lia|]. rewrite N.eqb_refl. f_equal. lia.
Qed.

Lemma decoy_size n : size_of (decoy (zeros n)) = n.
Proof. unfold size_of, seen. cbn. rewrite len_zeros. lia. Qed.

Lemma pad_choice cfg sh pl d sh' recs : sh_config sh = cfg -> shaper_pad sh pl = Ret (d, sh', recs) ->
  sh_config sh' = cfg /\ match d with
    | Some d => padding_strategy cfg = Random /\ shaper_decoy_payload d
    | None => padding_strategy cfg = Disabled end.
Proof.
  intros Cf P. unfold shaper_pad in P. apply bind_ret_inv in P. destruct P as (ct & _ & P). rewrite Cf in P. destruct (padding_strategy cfg).
  - injection P as <- <- _. auto.
  - unfold zero_decoy in P. destruct (gen_range 1 MAX_DECOY_SIZE_BYTES (sh_rng sh)) as [sz g] eqn:Q. injection P as <- <- _. split; [reflexivity|].
    split; [reflexivity|]. exists sz. split; [|reflexivity].
    pose proof (gen_range_in 1 MAX_DECOY_SIZE_BYTES (sh_rng sh) ltac:(unfold MAX_DECOY_SIZE_BYTES; lia)) as I. rewrite Q in I. exact I.
Qed.

Lemma decoy_choice cfg sh d sh' recs : sh_config sh = cfg -> shaper_decoy sh = (d, sh', recs) ->
  sh_config sh' = cfg /\ match d with Some d => decoy_strategy cfg = Random /\ shaper_decoy_payload d | None => True end.
Proof.
  intros Cf P. unfold shaper_decoy in P. rewrite Cf in P. destruct (decoy_strategy cfg); [injection P as <- <- _; auto|].
  destruct (gen_range 0 99 (sh_rng sh)) as [p g1]. destruct (p <? 85); [injection P as <- <- _; auto|].
  unfold zero_decoy in P. destruct (gen_range 1 MAX_DECOY_SIZE_BYTES g1) as [sz g] eqn:Q. injection P as <- <- _. split; [reflexivity|].
  split; [reflexivity|]. exists sz. split; [|reflexivity].
  pose proof (gen_range_in 1 MAX_DECOY_SIZE_BYTES g1 ltac:(unfold MAX_DECOY_SIZE_BYTES; lia)) as I. rewrite Q in I. exact I.
Qed.

Lemma works_fine fuel fl cfg : (2 <= fuel)%nat -> forall js c sh st k,
  sh_config sh = cfg -> counted k c -> (overflow_checks = true -> k + 2 * len js < 2 ^ 32) -> Forall sound_payload (written_by js) -> fit st -> held st = [] ->
  exists c' sh' sts bs, works St wr fsh fuel fl c sh st js = Ret (map (fun _ => Ok tt) js, c', sh', sts) /\
    Forall (block_ok cfg) bs /\ carried bs = written_by js /\
    bursts (look st) (map look sts) = map size_of' (flat_map block_payloads bs).
Proof.
  intros Hf. induction js as [|j js IH]; intros c sh st k Cf Hc Hr So F Hh.
  - exists c, sh, [], []. repeat split; try reflexivity. constructor.
  - rewrite len_cons in Hr. cbn [works]. destruct j as [pl|]; cbn [written_by flat_map app] in So.
    + apply Forall_cons_iff in So. destruct So as [Sp So]. cbn [turn_over].
      destruct (pad_total sh pl Sp) as (d & sh' & recs & P). rewrite P. cbn [bind].
      pose proof (pad_choice cfg sh pl d sh' recs Cf P) as PD.
      destruct PD as [Cf' PD]. destruct d as [d|].
      * destruct PD as [PD1 PD2]. assert (Sd : sound_payload d) by (destruct PD2 as (n & _ & ->); eexists; reflexivity).
        destruct (put_fine fuel fl c d st k Hf Hc ltac:(intros Ho; specialize (Hr Ho); lia) Sd F Hh) as (c1 & s1 & s2 & Q1 & Hc1 & F1 & Hh1 & L1 & D1).
        rewrite Q1. cbn [bind last]. 
        destruct (put_fine fuel fl c1 pl s2 (k + 1) Hf Hc1 ltac:(intros Ho; specialize (Hr Ho); lia) Sp F1 Hh1) as (c2 & s3 & s4 & Q2 & Hc2 & F2 & Hh2 & L2 & D2).
        rewrite Q2. cbn [bind app last].
        destruct (IH c2 sh' s4 (k + 1 + 1) Cf' Hc2 ltac:(intros Ho; specialize (Hr Ho); lia) So F2 Hh2) as (c' & sh'' & sts & bs & W & B1 & B2 & B3).
        rewrite W. cbn [bind]. exists c', sh'', (s1 :: s2 :: s3 :: s4 :: sts), (Padded d pl :: bs). split; [reflexivity|].
        split; [constructor; [split; assumption|exact B1]|]. split; [cbn; f_equal; exact B2|].
        cbn [map flat_map block_payloads app]. rewrite (bursts_put st s1 s2 (size_of' d)), (bursts_put s2 s3 s4 (size_of' pl)); try assumption; [|unfold size_of'; lia..].
        now rewrite B3.
      * destruct (put_fine fuel fl c pl st k Hf Hc ltac:(intros Ho; specialize (Hr Ho); lia) Sp F Hh) as (c1 & s1 & s2 & Q1 & Hc1 & F1 & Hh1 & L1 & D1).
        cbn [bind last]. rewrite Q1. cbn [bind app last].
        destruct (IH c1 sh' s2 (k + 1) Cf' Hc1 ltac:(intros Ho; specialize (Hr Ho); lia) So F1 Hh1) as (c' & sh'' & sts & bs & W & B1 & B2 & B3).
        rewrite W. cbn [bind]. exists c', sh'', (s1 :: s2 :: sts), (Bare pl :: bs). split; [reflexivity|].
        split; [constructor; [exact PD|exact B1]|]. split; [cbn; f_equal; exact B2|].
        cbn [map flat_map block_payloads app]. rewrite (bursts_put st s1 s2 (size_of' pl)); try assumption; [|unfold size_of'; lia]. now rewrite B3.
    + cbn [turn_over]. destruct (shaper_decoy sh) as [[d sh'] recs] eqn:P.
      pose proof (decoy_choice cfg sh d sh' recs Cf P) as PD.
      destruct PD as [Cf' PD]. destruct d as [d|].
      * destruct PD as [PD1 PD2]. assert (Sd : sound_payload d) by (destruct PD2 as (n & _ & ->); eexists; reflexivity).
        destruct (put_fine fuel fl c d st k Hf Hc ltac:(intros Ho; specialize (Hr Ho); lia) Sd F Hh) as (c1 & s1 & s2 & Q1 & Hc1 & F1 & Hh1 & L1 & D1).
        rewrite Q1. cbn [bind last].
        destruct (IH c1 sh' s2 (k + 1) Cf' Hc1 ltac:(intros Ho; specialize (Hr Ho); lia) So F1 Hh1) as (c' & sh'' & sts & bs & W & B1 & B2 & B3).
        rewrite W. cbn [bind]. exists c', sh'', (s1 :: s2 :: sts), (Cover d :: bs). split; [reflexivity|].
        split; [constructor; [split; assumption|exact B1]|]. split; [exact B2|].
        cbn [map flat_map block_payloads app]. rewrite (bursts_put st s1 s2 (size_of' d)); try assumption; [|unfold size_of'; lia]. now rewrite B3.
      * cbn [bind last]. destruct (IH c sh' st k Cf' Hc ltac:(intros Ho; specialize (Hr Ho); lia) So F Hh) as (c' & sh'' & sts & bs & W & B1 & B2 & B3).
        rewrite W. cbn [bind]. exists c', sh'', sts, bs. split; [reflexivity|]. repeat split; assumption.
Qed.

Lemma bursts_at_put t st st1 st2 n rest : look st2 = look st + n -> 0 < n -> look st1 = look st \/ look st1 = look st2 ->
  bursts_at (look st) ((t, look st1) :: (t, look st2) :: rest) = (t, n) :: bursts_at (look st2) rest.
Proof.
  intros L P D. cbn [bursts_at]. destruct D as [-> | ->].
  - rewrite N.eqb_refl. destruct (N.eqb_spec (look st2) (look st)); [lia|]. f_equal. f_equal. lia.
  - destruct (N.eqb_spec (look st2) (look st)); [lia|]. rewrite N.eqb_refl. f_equal. f_equal. lia.
Qed.

(** One turn: what it puts on the wire. *)
Lemma turn_fine fuel fl cfg c sh st k j : (2 <= fuel)%nat -> sh_config sh = cfg -> counted k c -> (overflow_checks = true -> k + 2 < 2 ^ 32) ->
  Forall sound_payload (written_by [j]) -> fit st -> held st = [] ->
  exists c' sh' sts bs, turn_over St wr fsh fuel fl c sh st j = Ret (Ok tt, c', sh', sts) /\ sh_config sh' = cfg /\ counted (k + 2) c' /\
    fit (last sts st) /\ held (last sts st) = [] /\ Forall (block_ok cfg) bs /\ carried bs = written_by [j] /\
    (length bs <= 1)%nat /\
    forall t rest, bursts_at (look st) (map (fun s => (t, look s)) sts ++ rest) =
      map (fun pl => (t, size_of' pl)) (flat_map block_payloads bs) ++ bursts_at (look (last sts st)) rest.
Proof.
  intros Hf Cf Hc Hr So F Hh. destruct j as [pl|]; cbn [written_by flat_map app] in So.
  - apply Forall_cons_iff in So. destruct So as [Sp _]. cbn [turn_over].
    destruct (pad_total sh pl Sp) as (d & sh' & recs & P). rewrite P. cbn [bind]. destruct (pad_choice cfg sh pl d sh' recs Cf P) as [Cf' PD]. destruct d as [d|].
    + destruct PD as [PD1 PD2]. assert (Sd : sound_payload d) by (destruct PD2 as (n & _ & ->); eexists; reflexivity).
      destruct (put_fine fuel fl c d st k Hf Hc ltac:(intros Ho; specialize (Hr Ho); lia) Sd F Hh) as (c1 & s1 & s2 & Q1 & Hc1 & F1 & Hh1 & L1 & D1).
      rewrite Q1. cbn [bind last].
      destruct (put_fine fuel fl c1 pl s2 (k + 1) Hf Hc1 ltac:(intros Ho; specialize (Hr Ho); lia) Sp F1 Hh1) as (c2 & s3 & s4 & Q2 & Hc2 & F2 & Hh2 & L2 & D2).
      rewrite Q2. cbn [bind app]. exists c2, sh', [s1; s2; s3; s4], [Padded d pl]. cbn [last].
      replace (k + 2) with (k + 1 + 1) by lia. repeat (split; [first [reflexivity|assumption|repeat constructor; assumption]|]).
      intros t rest. cbn [map flat_map block_payloads app]. rewrite (bursts_at_put t st s1 s2 (size_of' d)), (bursts_at_put t s2 s3 s4 (size_of' pl)); try assumption; [reflexivity|unfold size_of'; lia..].
    + destruct (put_fine fuel fl c pl st k Hf Hc ltac:(intros Ho; specialize (Hr Ho); lia) Sp F Hh) as (c1 & s1 & s2 & Q1 & Hc1 & F1 & Hh1 & L1 & D1).
      cbn [bind last]. rewrite Q1. cbn [bind app]. exists c1, sh', [s1; s2], [Bare pl]. cbn [last].
      repeat (split; [first [reflexivity|assumption|repeat constructor; assumption|apply (counted_mono (k + 1)); [lia|assumption]]|]).
      intros t rest. cbn [map flat_map block_payloads app]. rewrite (bursts_at_put t st s1 s2 (size_of' pl)); try assumption; [reflexivity|unfold size_of'; lia].
  - cbn [turn_over]. destruct (shaper_decoy sh) as [[d sh'] recs] eqn:P. destruct (decoy_choice cfg sh d sh' recs Cf P) as [Cf' PD]. destruct d as [d|].
    + destruct PD as [PD1 PD2]. assert (Sd : sound_payload d) by (destruct PD2 as (n & _ & ->); eexists; reflexivity).
      destruct (put_fine fuel fl c d st k Hf Hc ltac:(intros Ho; specialize (Hr Ho); lia) Sd F Hh) as (c1 & s1 & s2 & Q1 & Hc1 & F1 & Hh1 & L1 & D1).
      rewrite Q1. cbn [bind]. exists c1, sh', [s1; s2], [Cover d]. cbn [last].
      repeat (split; [first [reflexivity|assumption|repeat constructor; assumption|apply (counted_mono (k + 1)); [lia|assumption]]|]).
      intros t rest. cbn [map flat_map block_payloads app]. rewrite (bursts_at_put t st s1 s2 (size_of' d)); try assumption; [reflexivity|unfold size_of'; lia].
    + exists c, sh', [], []. cbn [last].
      repeat (split; [first [reflexivity|assumption|repeat constructor; assumption|apply (counted_mono k); [lia|assumption]]|]). reflexivity.
Qed.

Lemma works_at_fine fuel fl cfg start : (2 <= fuel)%nat -> padding_strategy cfg = Random -> forall js c sh st k,
  sh_config sh = cfg -> counted k c -> (overflow_checks = true -> k + 2 * len js < 2 ^ 32) -> Forall sound_payload (written_by (map snd js)) -> fit st -> held st = [] ->
  Forall (fun x => match snd x with Ticks => off_grid start (fst x) = false | Writes _ => True end) js ->
  exists c' sh' sts, works_at St wr fsh fuel fl c sh st js = Ret (c', sh', sts) /\
    every_other (map snd (filter (fun x => off_grid start (fst x)) (bursts_at (look st) (map (fun x => (fst x, look (snd x))) sts)))) =
    map size_of' (written_by (map snd (filter (fun x => off_grid start (fst x)) js))).
Proof.
  intros Hf Pd. induction js as [|[t j] js IH]; intros c sh st k Cf Hc Hr So F Hh Gr.
  - exists c, sh, []. split; reflexivity.
  - rewrite len_cons in Hr. apply Forall_cons_iff in Gr. destruct Gr as [Gt Gr]. cbn [fst snd] in Gt. cbn [map snd] in So.
    assert (S2 : Forall sound_payload (written_by [j]) /\ Forall sound_payload (written_by (map snd js))).
    { unfold written_by in *. cbn [flat_map] in *. rewrite app_nil_r. now apply Forall_app. }
    destruct S2 as [So1 So2]. cbn [works_at].
    destruct (turn_fine fuel fl cfg c sh st k j Hf Cf Hc ltac:(intros Ho; specialize (Hr Ho); lia) So1 F Hh)
      as (c1 & sh1 & sts1 & bs & W1 & Cf1 & Hc1 & F1 & Hh1 & B1 & B2 & B3 & B4).
    rewrite W1. cbn [bind].
    destruct (IH c1 sh1 (last sts1 st) (k + 2) Cf1 Hc1 ltac:(intros Ho; specialize (Hr Ho); lia) So2 F1 Hh1 Gr) as (c' & sh' & sts & W & T).
    rewrite W. cbn [bind]. exists c', sh', (map (fun s => (t, s)) sts1 ++ sts). split; [reflexivity|].
    rewrite map_app, map_map. cbn [fst snd]. rewrite B4, filter_app, map_app. cbn [filter fst].
    destruct (off_grid start t) eqn:O.
    + destruct j as [pl|]; [|discriminate Gt]. cbn [map snd written_by flat_map app] in *.
      destruct bs as [|b [|? ?]]; [discriminate B2| |cbn in B3; lia]. apply Forall_cons_iff in B1. destruct B1 as [B1 _].
      destruct b as [d|d pl'|pl']; cbn [carried flat_map app] in B2; [discriminate B2| |cbn in B1; congruence]. injection B2 as ->.
      cbn [flat_map block_payloads map app filter fst]. rewrite O. cbn [app map snd every_other]. f_equal. exact T.
    + replace (filter (fun x : N * N => off_grid start (fst x)) (map (fun pl => (t, size_of' pl)) (flat_map block_payloads bs))) with (@nil (N * N)); [exact T|].
      clear - O. induction (flat_map block_payloads bs) as [|p l IHl]; [reflexivity|]. cbn [map filter fst]. rewrite O. exact IHl.
Qed.

End Writing.

(** ** C108 *)

(** ** The same as the other models *)

Lemma drive_flush fl fs : forall ws wn fuel, (S (length fs) <= fuel)%nat ->
  exists sts, drive writer raw_write raw_flush fuel fl Pushing (Writer ws fs wn) =
    Ret (match fst (flush (Writer ws fs wn)) with Ok _ => Ok tt | Err e => Err (from_io e) end, sts) /\
    last sts (Writer ws fs wn) = snd (flush (Writer ws fs wn)) /\ sts <> [].
Proof.
  induction fs as [|e fs IH]; intros ws wn fuel L; (destruct fuel as [|fuel]; [cbn in L; lia|]).
  - eexists. cbn. destruct fuel; (split; [reflexivity|]; split; [reflexivity|discriminate]).
  - destruct e as [|k|].
    + eexists. cbn. destruct fuel; (split; [reflexivity|]; split; [reflexivity|discriminate]).
    + eexists. cbn. destruct fuel; (split; [reflexivity|]; split; [reflexivity|discriminate]).
    + cbn [length] in L. destruct (IH ws wn fuel ltac:(lia)) as (sts & D & La & Ne).
      cbn [drive out_step raw_flush flushes w_script written]. rewrite D. cbn [bind]. eexists. split; [|split].
      * unfold flush. cbn [flushes flush_script w_script written]. reflexivity.
      * transitivity (last sts (Writer ws fs wn)); [destruct sts as [|a sts]; [congruence|]; cbn [last]; clear; revert a; induction sts as [|b sts IHs]; intros a; [reflexivity|exact (IHs b)]|].
        rewrite La. unfold flush. cbn [flushes flush_script w_script written]. reflexivity.
      * discriminate.
Qed.

Lemma last_other {A} (l : list A) d d' : l <> [] -> last l d = last l d'.
Proof. induction l as [|a l IH]; [congruence|]. intros _. destruct l as [|b l]; [reflexivity|]. apply IH. discriminate. Qed.
Lemma last_after {A} (l m : list A) d : m <> [] -> last (l ++ m) d = last m d.
Proof.
  intros H. induction l as [|a l IH]; [reflexivity|]. cbn [app last]. destruct (l ++ m) eqn:X; [destruct l; [cbn in X; congruence|discriminate X]|exact IH].
Qed.
Lemma last_cons {A} (a : A) l d : l <> [] -> last (a :: l) d = last l a.
Proof. intros H. destruct l as [|b l]; [congruence|]. cbn [last]. exact (last_other (b :: l) d a H). Qed.

Lemma drive_same fl fs ws : forall pkt wn fuel, 0 < len pkt -> (S (S (length ws + length fs)) <= fuel)%nat ->
  exists sts, drive writer raw_write raw_flush fuel fl (Putting pkt) (Writer ws fs wn) =
    Ret (match fst (write_flush fl (Writer ws fs wn) pkt) with Ok _ => Ok tt | Err e => Err (from_io e) end, sts) /\
    last sts (Writer ws fs wn) = snd (write_flush fl (Writer ws fs wn) pkt) /\ sts <> [].
Proof.
  induction ws as [|e ws IH]; intros pkt wn fuel Lp L; (destruct fuel as [|fuel]; [cbn in L; lia|]);
    cbn [drive out_step]; rewrite plain_write_once by exact Lp; unfold write_once; cbn [w_script flushes written];
    (destruct pkt as [|b pkt]; [cbn in Lp; lia|]); unfold write_flush, write_all; cbn [w_script flushes written write_script].
  - cbn [length Nat.add] in L. destruct (drive_flush fl fs [] (wn ++ b :: pkt) fuel ltac:(lia)) as (sts & D & La & Ne).
    rewrite D. cbn [bind]. eexists. split; [reflexivity|]. split; [|discriminate]. rewrite last_cons by exact Ne. exact La.
  - cbn [length Nat.add] in L. destruct e as [n|k|].
    + destruct (N.eqb_spec n 0) as [->|N0].
      * destruct fuel; [lia|]. cbn. rewrite app_nil_r. eexists. split; [reflexivity|]. split; [reflexivity|discriminate].
      * destruct (N.leb_spec (len (b :: pkt)) n) as [G|G].
        -- destruct (drive_flush fl fs ws (wn ++ b :: pkt) fuel ltac:(lia)) as (sts & D & La & Ne).
           rewrite D. cbn [bind]. eexists. split; [reflexivity|]. split; [|discriminate]. rewrite last_cons by exact Ne. exact La.
        -- destruct (IH (drop n (b :: pkt)) (wn ++ take n (b :: pkt)) fuel) as (sts & D & La & Ne); [rewrite len_drop; lia|lia|].
           rewrite D. cbn [bind]. unfold write_flush, write_all in La |- *. cbn [w_script flushes written] in La |- *.
           destruct (write_script fl ws (drop n (b :: pkt))) as [[r s2] out]. rewrite <- app_assoc in La |- *.
           eexists. split; [reflexivity|]. split; [|discriminate]. rewrite last_cons by exact Ne. exact La.
    + destruct (retries fl k) eqn:Re.
      * destruct (IH (b :: pkt) wn fuel Lp ltac:(lia)) as (sts & D & La & Ne). rewrite D. cbn [bind].
        destruct fl; [|discriminate Re]. destruct k; try discriminate Re.
        eexists. split; [reflexivity|]. split; [|discriminate]. rewrite last_cons by exact Ne. exact La.
      * destruct fuel; [lia|].
        destruct fl; [destruct k; try discriminate Re|]; cbn; rewrite app_nil_r; (eexists; split; [reflexivity|]; split; [reflexivity|discriminate]).
    + destruct (IH (b :: pkt) wn fuel Lp ltac:(lia)) as (sts & D & La & Ne). rewrite D. cbn [bind].
      eexists. split; [reflexivity|]. split; [|discriminate]. rewrite last_cons by exact Ne. exact La.
Qed.

(** Enough for a packet on this writer: each operation but the last of [write_all] and that of [flush] uses up an event. *)
Definition packet_fuel (w : writer) : nat := S (S (length (w_script w) + length (flushes w))).

(** One packet, on any scripted transport: the same result, cipher and writer as in Io.v, or the same panic. *)
Theorem C108_same : forall (E : Env) (EL : EnvLaws E) fl c pl w fuel, (packet_fuel w <= fuel)%nat ->
  match put writer raw_write raw_flush fuel fl c pl w with
  | Ret (x, c', sts) => write_any fl (PWriter c w) pl = Ret (x, PWriter c' (last sts w))
  | Panic => write_any fl (PWriter c w) pl = Panic
  | NoFuel => write_any fl (PWriter c w) pl = NoFuel
  end.
Proof.
  intros E EL fl c pl w fuel F.
  assert (D : forall pkt, 0 < len pkt -> exists sts, drive writer raw_write raw_flush fuel fl (Putting pkt) w =
      Ret (match fst (write_flush fl w pkt) with Ok _ => Ok tt | Err e => Err (from_io e) end, sts) /\ last sts w = snd (write_flush fl w pkt)).
  { intros pkt L. destruct w as [ws fs wn]. destruct (drive_same fl fs ws pkt wn fuel L F) as (sts & A & B & _). eauto. }
  unfold put, out_begin. destruct fl; cbn [write_any]; unfold sync_write, tokio_write; cbn [pw_cipher pw_writer];
    (destruct (payload_contents pl) as [ct| |]; [|reflexivity..]); cbn [bind];
    (destruct (payload_type pl) as [t| |]; [|reflexivity..]); cbn [bind].
  - destruct (encrypt_to_vec c ct t None) as [[pkt c']| |] eqn:En; [|reflexivity..]. cbn [bind].
    destruct (D pkt) as (sts & -> & La); [rewrite (encrypt_vec_len _ _ _ _ _ _ En); lia|]. cbn [bind].
    destruct (write_flush Sync w pkt) as [x w']. cbn [fst snd] in *. now rewrite La.
  - change (encryption_buffer_len (len ct)) with (len ct + 20). rewrite encrypt_exact.
    destruct (encrypt_to_vec c ct t None) as [[pkt c']| |] eqn:En; [|reflexivity..]. cbn [bind].
    destruct (D pkt) as (sts & -> & La); [rewrite (encrypt_vec_len _ _ _ _ _ _ En); lia|]. cbn [bind].
    destruct (write_flush Tokio w pkt) as [x w']. cbn [fst snd] in *. now rewrite La.
Qed.
Print Assumptions C108_same.

Lemma write_script_shrinks fl ws : forall bs, (length (snd (fst (write_script fl ws bs))) <= length ws)%nat.
Proof.
  induction ws as [|e ws IH]; intros [|b bs]; cbn [write_script fst snd length]; try lia.
  destruct e as [n|k|].
  - destruct (n =? 0); [cbn; lia|]. destruct (len (b :: bs) <=? n); [cbn; lia|].
    specialize (IH (drop n (b :: bs))). destruct (write_script fl ws (drop n (b :: bs))) as [[r s] out]. cbn [fst snd] in *. lia.
  - destruct fl; [destruct k|]; cbn [fst snd]; try lia. specialize (IH (b :: bs)). lia.
  - specialize (IH (b :: bs)). lia.
Qed.
Lemma flush_script_shrinks fs : (length (snd (flush_script fs)) <= length fs)%nat.
Proof. induction fs as [|[|k|] fs IH]; cbn [flush_script snd length]; lia. Qed.
Lemma write_any_shrinks {E : Env} fl p pl x p' : write_any fl p pl = Ret (x, p') -> (packet_fuel (pw_writer p') <= packet_fuel (pw_writer p))%nat.
Proof.
  assert (W : forall f w bs, (packet_fuel (snd (write_flush f w bs)) <= packet_fuel w)%nat).
  { intros f w bs. unfold write_flush, write_all. pose proof (write_script_shrinks f (w_script w) bs) as S1.
    destruct (write_script f (w_script w) bs) as [[r s] out]. cbn [fst snd] in S1. destruct r; unfold packet_fuel, flush; cbn [w_script flushes snd]; [|lia].
    pose proof (flush_script_shrinks (flushes w)) as S2. destruct (flush_script (flushes w)) as [r f']. cbn [snd w_script flushes] in *. lia. }
  destruct fl; cbn [write_any]; unfold sync_write, tokio_write; intros H;
    apply bind_ret_inv in H; destruct H as (ct & _ & H); apply bind_ret_inv in H; destruct H as (t & _ & H); apply bind_ret_inv in H.
  - destruct H as ([pkt c] & _ & H). specialize (W Sync (pw_writer p) pkt). destruct (write_flush Sync (pw_writer p) pkt) as [y w].
    injection H as _ <-. exact W.
  - destruct H as ([[[|e] c] pkt] & _ & H).
    + specialize (W Tokio (pw_writer p) pkt). destruct (write_flush Tokio (pw_writer p) pkt) as [y w]. injection H as _ <-. exact W.
    + injection H as _ <-. cbn [pw_writer]. lia.
Qed.

(** A command and a tick of the async task, on any scripted transport: results, shaper, cipher and writer are those of TrafficFutures.v;
    a decoy that could not be written is nobody's error. *)
Theorem C108_task : forall (E : Env) (EL : EnvLaws E) (G : Type) (R : Rng G) (t : task (G := G)) c w fuel, tk_writer t = PWriter c w ->
  (packet_fuel w <= fuel)%nat ->
  (forall id pl q, match turn_over writer raw_write raw_flush fuel Tokio c (tk_shaper t) w (Writes pl) with
    | Ret (x, c', sh', sts) => exists recs, handle t (Command id pl) q = turn t (PWriter c' (last sts w)) sh' q recs [(id, x)]
    | _ => exists w', handle t (Command id pl) q = stop t w'
    end) /\
  match turn_over writer raw_write raw_flush fuel Tokio c (tk_shaper t) w Ticks with
  | Ret (x, c', sh', sts) => x = Ok tt /\ exists recs, tick t = turn t (PWriter c' (last sts w)) sh' (queue t) recs []
  | _ => exists w', tick t = stop t w'
  end.
Proof.
  intros E EL G R t c w fuel Tw F. split.
  - intros id pl q. cbn [turn_over]. unfold handle. cbn [cmd_payload cmd_id]. rewrite Tw.
    destruct (shaper_pad (tk_shaper t) pl) as [[[d sh] recs]| |]; cbn [bind]; [|eauto..].
    assert (L : forall c1 w1, (packet_fuel w1 <= fuel)%nat -> forall sts0, last sts0 w = w1 ->
      match (let! (x0, c0, more) := put writer raw_write raw_flush fuel Tokio c1 pl w1 in Ret (x0, c0, sh, sts0 ++ more)) with
      | Ret (x, c', sh', sts) => exists recs0,
          match tokio_write (PWriter c1 w1) pl with Ret (x, w) => turn t w sh q recs [(id, x)] | _ => stop t (PWriter c1 w1) end
          = turn t (PWriter c' (last sts w)) sh' q recs0 [(id, x)]
      | _ => exists w', match tokio_write (PWriter c1 w1) pl with Ret (x, w) => turn t w sh q recs [(id, x)] | _ => stop t (PWriter c1 w1) end = stop t w'
      end).
    { intros c1 w1 F1 sts0 L0. pose proof (C108_same E EL Tokio c1 pl w1 fuel F1) as P. cbn [write_any] in P.
      destruct (put writer raw_write raw_flush fuel Tokio c1 pl w1) as [[[x c2] more]| |]; cbn [bind]; rewrite P; [|eauto..].
      exists recs. f_equal. f_equal. destruct more as [|m more]; [rewrite app_nil_r; cbn; now rewrite L0|].
      rewrite last_after by discriminate. apply last_other. discriminate. }
    destruct d as [d|].
    + pose proof (C108_same E EL Tokio c d w fuel F) as P. cbn [write_any] in P.
      destruct (put writer raw_write raw_flush fuel Tokio c d w) as [[[x c1] sts]| |]; cbn [bind]; rewrite P; [|eauto..].
      destruct x as [[]|e]; [|eauto]. apply L; [|reflexivity].
      pose proof (write_any_shrinks Tokio _ _ _ _ P) as S. cbn [pw_writer] in S. lia.
    + cbn [bind]. apply (L c w F []). reflexivity.
  - cbn [turn_over]. unfold tick. destruct (shaper_decoy (tk_shaper t)) as [[[d|] sh] recs].
    + rewrite Tw. pose proof (C108_same E EL Tokio c d w fuel F) as P. cbn [write_any] in P.
      destruct (put writer raw_write raw_flush fuel Tokio c d w) as [[[x c1] sts]| |]; cbn [bind]; rewrite P; [|eauto..]. split; [reflexivity|eauto].
    + split; [reflexivity|]. exists recs. now rewrite Tw.
Qed.
Print Assumptions C108_task.

(** The same for a writer that has locked the mutex of TrafficIo.v, and for the decoy thread. *)
Theorem C108_thread : forall (E : Env) (EL : EnvLaws E) (G : Type) (R : Rng G) (s : shared (G := G)) c w fuel, st_writer s = PWriter c w ->
  (packet_fuel w <= fuel)%nat ->
  (forall pl, app_at s = AppPad pl ->
    match turn_over writer raw_write raw_flush fuel Sync c (st_shaper s) w (Writes pl) with
    | Ret (x, c', sh', sts) => exists n s', play s (repeat App n) = Some s' /\ st_writer s' = PWriter c' (last sts w) /\ st_shaper s' = sh' /\
        returned s' = returned s ++ [(pl, x)] /\ lock s' = Free /\ app_at s' = AppOut /\ thread_at s' = thread_at s
    | _ => exists n s', play s (repeat App n) = Some s' /\ app_at s' = AppPanicked /\ poisoned s' = true
    end) /\
  (thread_at s = ThDecoy ->
    match turn_over writer raw_write raw_flush fuel Sync c (st_shaper s) w Ticks with
    | Ret (x, c', sh', sts) => x = Ok tt /\ exists n s', play s (repeat Thread n) = Some s' /\ st_writer s' = PWriter c' (last sts w) /\ st_shaper s' = sh' /\
        returned s' = returned s /\ lock s' = Free /\ app_at s' = app_at s /\ thread_at s' = ThCheck
    | _ => exists n s', play s (repeat Thread n) = Some s' /\ thread_at s' = ThPanicked /\ poisoned s' = true
    end).
Proof.
  intros E EL G R s c w fuel Tw F. destruct s as [pw sh0 lk po sd ap th rc rt]. cbn [st_writer st_shaper app_at thread_at returned lock poisoned] in *. subst pw. split.
  - intros pl ->. cbn [turn_over].
    destruct (shaper_pad sh0 pl) as [[[d sh] recs]| |] eqn:Pd; cbn [bind].
    2,3: exists 1%nat; eexists; cbn [repeat play do_move]; unfold app_step; cbn [app_at st_shaper]; rewrite Pd; split; [reflexivity|split; reflexivity].
    assert (L : forall c1 w1, (packet_fuel w1 <= fuel)%nat -> forall sts0, last sts0 w = w1 -> forall rc',
      match (let! (x0, c0, more) := put writer raw_write raw_flush fuel Sync c1 pl w1 in Ret (x0, c0, sh, sts0 ++ more)) with
      | Ret (x, c', sh', sts) => exists s', play (Shared (PWriter c1 w1) sh lk po sd (AppWrite pl) th rc' rt) [App] = Some s' /\ st_writer s' = PWriter c' (last sts w) /\ st_shaper s' = sh' /\
          returned s' = rt ++ [(pl, x)] /\ lock s' = Free /\ app_at s' = AppOut /\ thread_at s' = th
      | _ => exists s', play (Shared (PWriter c1 w1) sh lk po sd (AppWrite pl) th rc' rt) [App] = Some s' /\ app_at s' = AppPanicked /\ poisoned s' = true
      end).
    { intros c1 w1 F1 sts0 L0 rc'. cbn [play do_move]. unfold app_step. cbn [app_at st_writer].
      pose proof (C108_same E EL Sync c1 pl w1 fuel F1) as P. cbn [write_any] in P.
      destruct (put writer raw_write raw_flush fuel Sync c1 pl w1) as [[[x c2] more]| |]; cbn [bind]; rewrite P;
        [|eexists; split; [reflexivity|split; reflexivity]..].
      eexists. split; [reflexivity|]. cbn. repeat split. f_equal. destruct more as [|m more]; [rewrite app_nil_r; cbn; now rewrite L0|].
      rewrite last_after by discriminate. apply last_other. discriminate. }
    assert (PL : forall (a b c0 : shared (G := G)) n, do_move a App = Some b -> play b (repeat App n) = Some c0 -> play a (repeat App (S n)) = Some c0).
    { intros a b c0 n H1 H2. cbn [repeat play]. now rewrite H1. }
    destruct d as [d|].
    + assert (S1 : do_move (Shared (PWriter c w) sh0 lk po sd (AppPad pl) th rc rt) App = Some (Shared (PWriter c w) sh lk po sd (AppWritePad d pl) th (rc ++ recs) rt)).
      { cbn [do_move]. unfold app_step. cbn [app_at st_shaper]. rewrite Pd. reflexivity. }
      pose proof (C108_same E EL Sync c d w fuel F) as P. cbn [write_any] in P.
      assert (S2 : do_move (Shared (PWriter c w) sh lk po sd (AppWritePad d pl) th (rc ++ recs) rt) App =
        Some match sync_write (PWriter c w) d with
         | Ret (Ok _, w) => Shared w sh lk po sd (AppWrite pl) th (rc ++ recs) rt
         | Ret (Err e, w) => Shared w sh Free po sd AppOut th (rc ++ recs) (rt ++ [(pl, Err e)])
         | _ => Shared (PWriter c w) sh Free true sd AppPanicked th (rc ++ recs) rt
         end).
      { cbn [do_move]. unfold app_step. cbn [app_at st_writer]. destruct (sync_write (PWriter c w) d) as [[[|e] w']| |]; reflexivity. }
      destruct (put writer raw_write raw_flush fuel Sync c d w) as [[[x c1] sts]| |]; cbn [bind]; rewrite P in S2.
      2,3: exists 2%nat; eexists; (split; [apply (PL _ _ _ 1%nat S1); cbn [repeat play]; rewrite S2; reflexivity|split; reflexivity]).
      destruct x as [[]|e].
      2: { exists 2%nat. eexists. split; [apply (PL _ _ _ 1%nat S1); cbn [repeat play]; rewrite S2; reflexivity|]. cbn. repeat split. }
      pose proof (write_any_shrinks Sync _ _ _ _ P) as Sh. cbn [pw_writer] in Sh.
      specialize (L c1 (last sts w) ltac:(lia) sts eq_refl (rc ++ recs)).
      destruct (let! (x0, c0, more) := put writer raw_write raw_flush fuel Sync c1 pl (last sts w) in Ret (x0, c0, sh, sts ++ more)) as [[[[x c'] sh'] sts']| |].
      all: destruct L as (s' & L & L2); exists 3%nat, s'; (split; [apply (PL _ _ _ 2%nat S1), (PL _ _ _ 1%nat S2); exact L|exact L2]).
    + cbn [bind]. specialize (L c w F [] eq_refl (rc ++ recs)).
      assert (S1 : do_move (Shared (PWriter c w) sh0 lk po sd (AppPad pl) th rc rt) App = Some (Shared (PWriter c w) sh lk po sd (AppWrite pl) th (rc ++ recs) rt)).
      { cbn [do_move]. unfold app_step. cbn [app_at st_shaper]. rewrite Pd. reflexivity. }
      cbn [last].
      destruct (let! (x0, c0, more) := put writer raw_write raw_flush fuel Sync c pl w in Ret (x0, c0, sh, [] ++ more)) as [[[[x c'] sh'] sts']| |].
      all: destruct L as (s' & L & L2); exists 2%nat, s'; (split; [apply (PL _ _ _ 1%nat S1); exact L|exact L2]).
  - intros ->. cbn [turn_over]. destruct (shaper_decoy sh0) as [[[d|] sh] recs] eqn:De.
    + pose proof (C108_same E EL Sync c d w fuel F) as P. cbn [write_any] in P.
      destruct (put writer raw_write raw_flush fuel Sync c d w) as [[[x c1] sts]| |]; cbn [bind]; [split; [reflexivity|]|..].
      all: exists 2%nat; eexists; (split; [cbn [repeat play do_move]; unfold thread_step; cbn [thread_at st_shaper]; rewrite De; cbn; rewrite P; reflexivity|]); cbn; repeat split.
    + split; [reflexivity|]. exists 1%nat. eexists. split; [cbn [repeat play do_move]; unfold thread_step; cbn [thread_at st_shaper]; rewrite De; reflexivity|]. cbn. repeat split.
Qed.
Print Assumptions C108_thread.

(** Somebody who looks at the number of bytes on the wire after every operation sees the size of every single packet. *)
Theorem C108_bursts : forall (E : Env) (EL : EnvLaws E) (G : Type) (R : Rng G) (RL : RngLaws G R) (St : Type) wr fsh (sent held : St -> bytes) fit
    fuel fl c sh st js k,
  prompt wr fsh sent held fit -> fit st -> held st = [] -> (2 <= fuel)%nat ->
  counted k c -> (overflow_checks = true -> k + 2 * len js < 2 ^ 32) -> Forall sound_payload (written_by js) ->
  exists c' sh' sts bs, works St wr fsh fuel fl c sh st js = Ret (map (fun _ => Ok tt) js, c', sh', sts) /\
    Forall (block_ok (sh_config sh)) bs /\ carried bs = written_by js /\
    bursts (len (sent st)) (map (fun st => len (sent st)) sts) = map (fun pl => size_of pl + 20) (flat_map block_payloads bs).
Proof.
  intros E EL G R RL St wr fsh sent held fit fuel fl c sh st js k P F H Hf Hc Hr So.
  exact (works_fine St wr fsh sent held fit P fuel fl (sh_config sh) Hf js c sh st k eq_refl Hc Hr So F H).
Qed.
Print Assumptions C108_bursts.

(** So with padding, and no cover decoys in between, the sizes of the payloads are there to be read, whatever the draws. *)
Theorem C108_tells : forall (E : Env) (EL : EnvLaws E) (G : Type) (R : Rng G) (RL : RngLaws G R) (St : Type) wr fsh (sent held : St -> bytes) fit
    fuel fl c sh st js k,
  prompt wr fsh sent held fit -> fit st -> held st = [] -> (2 <= fuel)%nat ->
  counted k c -> (overflow_checks = true -> k + 2 * len js < 2 ^ 32) -> Forall sound_payload (written_by js) ->
  padding_strategy (sh_config sh) = Random -> decoy_strategy (sh_config sh) = Disabled ->
  exists c' sh' sts, works St wr fsh fuel fl c sh st js = Ret (map (fun _ => Ok tt) js, c', sh', sts) /\
    every_other (bursts (len (sent st)) (map (fun st => len (sent st)) sts)) = map (fun pl => size_of pl + 20) (written_by js).
Proof.
  intros E EL G R RL St wr fsh sent held fit fuel fl c sh st js k P F H Hf Hc Hr So Pd Dd.
  destruct (C108_bursts E EL G R RL St wr fsh sent held fit fuel fl c sh st js k P F H Hf Hc Hr So) as (c' & sh' & sts & bs & W & B1 & B2 & B3).
  exists c', sh', sts. split; [exact W|]. rewrite B3, <- B2. clear - B1 Pd Dd.
  induction B1 as [|b bs B _ IH]; [reflexivity|]. destruct b as [d|d pl|pl]; cbn [block_ok] in B.
  - destruct B as [B _]. congruence.
  - cbn [flat_map block_payloads map app every_other carried]. f_equal. exact IH.
  - congruence.
Qed.
Print Assumptions C108_tells.

(** Cover decoys do not help while they come when their timer runs out: at any other time the sizes are there to be read. *)
Theorem C108_both : forall (E : Env) (EL : EnvLaws E) (G : Type) (R : Rng G) (RL : RngLaws G R) (St : Type) wr fsh (sent held : St -> bytes) fit
    fuel fl c sh st js k start,
  prompt wr fsh sent held fit -> fit st -> held st = [] -> (2 <= fuel)%nat ->
  counted k c -> (overflow_checks = true -> k + 2 * len js < 2 ^ 32) -> Forall sound_payload (written_by (map snd js)) ->
  padding_strategy (sh_config sh) = Random ->
  (forall t, In (t, Ticks) js -> off_grid start t = false) ->
  exists c' sh' sts, works_at St wr fsh fuel fl c sh st js = Ret (c', sh', sts) /\
    every_other (map snd (filter (fun x => off_grid start (fst x))
      (bursts_at (len (sent st)) (map (fun x => (fst x, len (sent (snd x)))) sts)))) =
    map (fun pl => size_of pl + 20) (written_by (map snd (filter (fun x => off_grid start (fst x)) js))).
Proof.
  intros E EL G R RL St wr fsh sent held fit fuel fl c sh st js k start P F H Hf Hc Hr So Pd Gr.
  apply (works_at_fine St wr fsh sent held fit P fuel fl (sh_config sh) start Hf Pd js c sh st k eq_refl Hc Hr So F H).
  apply Forall_forall. intros [t [pl|]] I; [exact Logic.I|]. cbn [fst snd]. now apply Gr.
Qed.
Print Assumptions C108_both.

(** Whoever sees the same for two lists of payloads, whatever the draws were for either, knows that their sizes are the same. *)
Theorem C108_alike : forall (E : Env) (EL : EnvLaws E) (G : Type) (R : Rng G) (RL : RngLaws G R) (St : Type) wr fsh (sent held : St -> bytes) fit
    fuel fl c c2 sh sh2 st st2 pls pls2 k k2,
  prompt wr fsh sent held fit -> fit st -> held st = [] -> fit st2 -> held st2 = [] -> (2 <= fuel)%nat ->
  counted k c -> (overflow_checks = true -> k + 2 * len pls < 2 ^ 32) -> Forall sound_payload pls ->
  counted k2 c2 -> (overflow_checks = true -> k2 + 2 * len pls2 < 2 ^ 32) -> Forall sound_payload pls2 ->
  padding_strategy (sh_config sh) = Random -> decoy_strategy (sh_config sh) = Disabled ->
  padding_strategy (sh_config sh2) = Random -> decoy_strategy (sh_config sh2) = Disabled ->
  exists c' sh' sts c2' sh2' sts2,
    works St wr fsh fuel fl c sh st (map Writes pls) = Ret (map (fun _ => Ok tt) pls, c', sh', sts) /\
    works St wr fsh fuel fl c2 sh2 st2 (map Writes pls2) = Ret (map (fun _ => Ok tt) pls2, c2', sh2', sts2) /\
    (bursts (len (sent st)) (map (fun st => len (sent st)) sts) = bursts (len (sent st2)) (map (fun st => len (sent st)) sts2) ->
     map size_of pls = map size_of pls2).
Proof.
  intros E EL G R RL St wr fsh sent held fit fuel fl c c2 sh sh2 st st2 pls pls2 k k2 P F H F2 H2 Hf Hc Hr So Hc2 Hr2 So2 P1 D1 P2 D2.
  assert (WB : forall l, written_by (map Writes l) = l) by (induction l as [|x l IH]; [reflexivity|cbn; f_equal; exact IH]).
  assert (MM : forall l : list payload, map (fun _ => @Ok perror unit tt) (map Writes l) = map (fun _ => Ok tt) l) by (intros l; rewrite map_map; reflexivity).
  assert (LL : forall l : list payload, len (map Writes l) = len l) by (intros l; unfold len; now rewrite map_length).
  destruct (C108_tells E EL G R RL St wr fsh sent held fit fuel fl c sh st (map Writes pls) k P F H Hf Hc) as (c' & sh' & sts & W & T); try assumption;
    [now rewrite LL|now rewrite WB|].
  destruct (C108_tells E EL G R RL St wr fsh sent held fit fuel fl c2 sh2 st2 (map Writes pls2) k2 P F2 H2 Hf Hc2) as (c2' & sh2' & sts2 & W2 & T2); try assumption;
    [now rewrite LL|now rewrite WB|].
  rewrite MM in W, W2. rewrite WB in T, T2. exists c', sh', sts, c2', sh2', sts2. split; [exact W|]. split; [exact W2|]. intros Q. rewrite Q, T2 in T.
  clear - T. revert pls2 T. induction pls as [|a pls IH]; intros [|b pls2] T; try discriminate T; [reflexivity|].
  cbn [map] in T |- *. injection T as T0 T. f_equal; [lia|]. now apply IH.
Qed.
Print Assumptions C108_alike.

(** "hard for observers to determine where one message ends and another begins, hiding the genuine packet size" (traffic/README.md:23): not
    even when the sizes are close enough for the numbers of bytes to look alike (C85). *)
Theorem C108_hidden_refuted :
  ~ forall (E : Env) (EL : EnvLaws E) fl c cfg k pl pl2,
      padding_strategy cfg = Random -> decoy_strategy cfg = Disabled -> counted k c -> (overflow_checks = true -> k + 2 < 2 ^ 32) ->
      sound_payload pl -> sound_payload pl2 -> size_of pl <= size_of pl2 + 1023 -> size_of pl2 <= size_of pl + 1023 ->
      exists (g g2 : list N) x c' sh' sts x2 c2' sh2' sts2,
        @works E _ draws writer raw_write raw_flush 2 fl c (Shaper cfg g) fresh [Writes pl] = Ret (x, c', sh', sts) /\
        @works E _ draws writer raw_write raw_flush 2 fl c (Shaper cfg g2) fresh [Writes pl2] = Ret (x2, c2', sh2', sts2) /\
        bursts 0 (map (fun w => len (written w)) sts) = bursts 0 (map (fun w => len (written w)) sts2).
Proof.
  intros H. specialize (H (toy true) (toy_laws true) Sync (pw_cipher toy_writer) (Config Random Disabled) 0 (genuine []) (genuine [x00]) eq_refl eq_refl).
  assert (C : @counted (toy true) 0 (pw_cipher toy_writer)) by (intros _; vm_compute; repeat split; discriminate).
  destruct H as (g & g2 & x & c' & sh' & sts & x2 & c2' & sh2' & sts2 & W1 & W2 & B);
    [exact C|intros _; lia|eexists; reflexivity|eexists; reflexivity|vm_compute; discriminate|vm_compute; discriminate|].
  destruct (C108_alike (toy true) (toy_laws true) (list N) draws draws_laws writer raw_write raw_flush written (fun _ => [])
    (fun w => w_script w = [] /\ flushes w = []) 2 Sync (pw_cipher toy_writer) (pw_cipher toy_writer) (Shaper (Config Random Disabled) g)
    (Shaper (Config Random Disabled) g2) fresh fresh [genuine []] [genuine [x00]] 0 0) as (d' & e' & ts & d2' & e2' & ts2 & V1 & V2 & A);
    try reflexivity; try (split; reflexivity); try exact C; try lia; try (intros _; vm_compute; reflexivity);
    try (constructor; [eexists; reflexivity|constructor]); [apply (C108_writers Sync)|].
  cbn [map] in V1, V2. rewrite W1 in V1. rewrite W2 in V2. injection V1 as _ _ _ <-. injection V2 as _ _ _ <-.
  specialize (A B). discriminate A.
Qed.
Print Assumptions C108_hidden_refuted.

(** "Padding is where the library immediately follows a genuine packet send with a decoy packet" (traffic/README.md:23): the decoy comes first. *)
Theorem C108_follows_refuted :
  ~ forall (E : Env) (EL : EnvLaws E) fl c cfg k pl (g : list N) x c' sh' sts,
      padding_strategy cfg = Random -> counted k c -> (overflow_checks = true -> k + 2 < 2 ^ 32) -> sound_payload pl ->
      @works E _ draws writer raw_write raw_flush 2 fl c (Shaper cfg g) fresh [Writes pl] = Ret (x, c', sh', sts) ->
      hd 0 (bursts 0 (map (fun w => len (written w)) sts)) = size_of pl + 20.
Proof.
  intros H. assert (C : @counted (toy true) 0 (pw_cipher toy_writer)) by (intros _; vm_compute; repeat split; discriminate).
  destruct (@works (toy true) _ draws writer raw_write raw_flush 2 Sync (pw_cipher toy_writer) (Shaper (Config Random Disabled) [4]) fresh [Writes (genuine [])])
    as [[[[x c'] sh'] sts]| |] eqn:W; try (vm_compute in W; discriminate W).
  specialize (H (toy true) (toy_laws true) Sync (pw_cipher toy_writer) (Config Random Disabled) 0 (genuine []) [4] x c' sh' sts eq_refl C
    ltac:(intros _; lia) ltac:(eexists; reflexivity) W).
  vm_compute in W. injection W as _ _ _ <-. vm_compute in H. discriminate H.
Qed.
Print Assumptions C108_follows_refuted.

(** Two payloads of 3 and 0 bytes with padding of 5 and 2, through a [BufWriter] with a capacity of 24 bytes: 25, 23, 22 and 20 bytes leave. *)
Example C108_example :
  match @works (toy true) _ draws buf_writer (buf_write Sync) (buf_flush Sync) 2 Sync (pw_cipher toy_writer)
          (Shaper (Config Random Disabled) [4; 1]) (buf_writer_new 24 fresh) [Writes (genuine [x01; x02; x03]); Writes (genuine [])] with
  | Ret (_, _, _, sts) => bursts 0 (map (fun b => len (written (bw_inner b))) sts) = [25; 23; 22; 20] /\
      map (fun b => len (written (bw_inner b))) sts = [25; 25; 25; 48; 48; 70; 70; 90]
  | _ => False
  end.
Proof. vm_compute. repeat split. Qed.

(** Padding and cover decoys: a tick at 100 ms with a decoy of 7 bytes, a payload of 2 bytes at 130 ms padded with 3, a tick without a decoy. *)
Example C108_both_example :
  match @works_at (toy true) _ draws writer raw_write raw_flush 2 Tokio (pw_cipher toy_writer) (Shaper (Config Random Random) [90; 6; 2; 10]) fresh
          [(100, Ticks); (130, Writes (genuine [x01; x02])); (200, Ticks)] with
  | Ret (_, _, sts) => bursts_at 0 (map (fun x => (fst x, len (written (snd x)))) sts) = [(100, 27); (130, 23); (130, 22)]
  | _ => False
  end.
Proof. vm_compute. reflexivity. Qed.

(** A tick whose decoy cannot be written, a payload whose padding cannot, and one that is written in two parts. *)
Example C108_fails_example :
  match @works (toy true) _ draws writer raw_write raw_flush 9 Sync (pw_cipher toy_writer) (Shaper (Config Random Random) [90; 6; 2; 0])
          (Writer [WFail (OtherKind 11); WFail (OtherKind 12); WFail Interrupted; Accept 5] [] []) [Ticks; Writes (genuine [x01]); Writes (genuine [x02; x03])] with
  | Ret (xs, _, _, sts) => xs = [Ok tt; Err (from_io (OtherKind 12)); Ok tt] /\ map (fun w => len (written w)) sts = [0; 0; 0; 5; 21; 21; 43; 43]
  | _ => False
  end.
Proof. vm_compute. split; reflexivity. Qed.
