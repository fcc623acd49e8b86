(** * Property C110: what shaping costs, at most and in the mean *)
From Coq Require Import List NArith Bool Arith Lia.
From Coq.Strings Require Import Byte.
From Verif Require Import Base BaseFacts Env FsChacha Cipher Histories CipherProofs Handshake
  Transport Io SpecIo Futures Sessions SessionProofs EndpointProofs Toy PropsHandshake PropsIo
  Traffic TrafficIo TrafficFutures SpecTraffic TrafficProofs TrafficIoProofs TrafficFuturesProofs TrafficSessionProofs PropsTraffic PropsShape
  TrafficTask SpecTask TrafficTaskProofs PropsTask Timed SpecTimed PropsTimed DuplexProofs SpecObserver ObserverProofs PropsObserver SpecCover PropsCover SpecPrice.
Import ListNotations.
Local Open Scope N_scope.

(** What a suspended write has yet to send, at most. *)
Definition left_of (f : write_future) : N := match f with Writing rest => len rest | Flushing => 0 end.
Definition yet (r : wrote) : N := match r with Blocked f => left_of f | Done _ => 0 end.

Section Task.
Context {E : Env} {EL : EnvLaws E} {G : Type} {R : Rng G} {RL : RngLaws G R}.

Definition out_of (w : pwriter) : N := len (written (pw_writer w)).

Lemma script_bytes : forall s rest x s' out rest', poll_write_script s rest = (x, s', out, rest') -> len out + len rest' = len rest.
Proof.
  induction s as [|e s IH]; intros [|b rest] x s' out rest' H; cbn [poll_write_script] in H; try (inversion H; subst; cbn; lia).
  - destruct e as [n|k|]; [|inversion H; subst; reflexivity..]. destruct (n =? 0); [inversion H; subst; reflexivity|].
    destruct (len (b :: rest) <=? n) eqn:Q; [inversion H; subst; apply N.add_0_r|].
    destruct (poll_write_script s (drop n (b :: rest))) as [[[x1 s1] out1] rest1] eqn:P. injection H as <- <- <- <-. apply IH in P.
    rewrite len_app. apply N.leb_gt in Q. rewrite len_take, len_drop in *. lia.
Qed.

Lemma flush_bytes w x w' : flush w = (x, w') -> written w' = written w.
Proof. unfold flush. destruct (flush_script _) as [r f]. intros H. injection H as _ <-. reflexivity. Qed.

Lemma go_on_bytes f p r p' : go_on f p = (r, p') -> out_of p' + yet r <= out_of p + left_of f.
Proof.
  assert (FI : forall c w (r : wrote) p',
    (let '(x, p', f') := match flushes w with
      | FlushPending :: f => (NotReady, PWriter c (Writer (w_script w) f (written w)), Flushing)
      | _ => let '(x, w') := flush w in
        (Ready (match x with Ok _ => Ok tt | Err k => Err (from_io k) end), PWriter c w', Flushing) end in
     (match x with Ready a => Done a | NotReady => Blocked f' end, p')) = (r, p') -> out_of p' + yet r <= len (written w)).
  { clear. intros c w r p' H. destruct (flush w) as [x w'] eqn:F. apply flush_bytes in F.
    destruct (flushes w) as [|[] fs]; injection H as <- <-; unfold out_of; cbn [pw_writer yet left_of written]; rewrite ?F; lia. }
  unfold go_on, poll_write. destruct f as [rest|].
  - destruct (poll_write_script _ _) as [[[x s] out] rest'] eqn:P. apply script_bytes in P. cbn zeta. destruct x as [[u|k]|].
    + intros H. apply FI in H. cbn [written] in H. rewrite len_app in H. unfold out_of in *. cbn [left_of]. lia.
    + intros H. injection H as <- <-. unfold out_of. cbn [pw_writer written yet left_of]. rewrite len_app. lia.
    + intros H. injection H as <- <-. unfold out_of. cbn [pw_writer written yet left_of]. rewrite len_app. lia.
  - cbn zeta. intros H. apply FI in H. unfold out_of in *. cbn [left_of]. lia.
Qed.

Lemma begin_bytes p pl r p' : begin_write p pl = Ret (r, p') -> out_of p' + yet r <= out_of p + (size_of pl + 20).
Proof.
  unfold begin_write, start_write. destruct (payload_contents pl) as [ct| |] eqn:C; [|discriminate..]. cbn [bind].
  destruct (payload_type pl) as [ty| |]; [|discriminate..]. cbn [bind]. cbn zeta.
  change (encryption_buffer_len (len ct)) with (len ct + 20). rewrite encrypt_exact.
  destruct (encrypt_to_vec (pw_cipher p) ct ty None) as [[pkt c]| |] eqn:En; [|discriminate..]. cbn [bind]. intros H. injection H as H.
  apply go_on_bytes in H. apply encrypt_vec_len in En. rewrite (contents_seen _ _ C). unfold out_of in *. cbn [pw_writer left_of] in H. lia.
Qed.

(** What is written, what a suspended branch may yet write, and what the queue may come to. *)
Definition owed (pl : place) : N :=
  match pl with
  | AtSelect => 0
  | InPad f cmd => left_of f + (size_of (cmd_payload cmd) + 20)
  | InPayload f _ | InDecoy f => left_of f
  end.
Definition spent (pa : strategy) (s : @split_task G) : N :=
  out_of (tk_writer (sp_task s)) + owed (sp_place s) + total (fun c => most pa (cmd_payload c)) (queue (sp_task s)).
Definition shaped_as (c : config) (s : @split_task G) : Prop := sh_config (tk_shaper (sp_task s)) = c.

Lemma total_nil {A} (f : A -> N) : total f [] = 0.
Proof. reflexivity. Qed.
Ltac count := unfold spent, branch_end, branch_panic, with_writer, turn, stop in *; 
  cbn [sp_task sp_place owed yet left_of tk_writer queue] in *; rewrite ?total_nil; lia.

Lemma payload_bytes pa c (t : @task G) cmd s : write_payload t cmd = s -> sh_config (tk_shaper t) = c ->
  shaped_as c s /\ spent pa s <= out_of (tk_writer t) + (size_of (cmd_payload cmd) + 20) + total (fun c => most pa (cmd_payload c)) (queue t).
Proof.
  unfold write_payload. intros <- Cf. destruct (begin_write _ _) as [[r w]| |] eqn:B.
  - apply begin_bytes in B. destruct r as [f|x]; cbn [payload_wrote]; (split; [exact Cf|]); count.
  - split; [exact Cf|]. count.
  - split; [exact Cf|]. count.
Qed.

Lemma pad_bytes pa c (t : @task G) cmd r w s : pad_wrote t cmd (r, w) = s -> sh_config (tk_shaper t) = c ->
  shaped_as c s /\ spent pa s <= out_of w + yet r + (size_of (cmd_payload cmd) + 20) + total (fun c => most pa (cmd_payload c)) (queue t).
Proof.
  intros <- Cf. destruct r as [f|[u|e]]; cbn [pad_wrote].
  - split; [exact Cf|]. count.
  - destruct (payload_bytes pa c (with_writer t w) cmd _ eq_refl Cf) as (A & B). split; [exact A|]. count.
  - split; [exact Cf|]. count.
Qed.

Lemma decoy_at_most d : shaper_decoy_payload d -> size_of d + 20 <= 1044.
Proof. intros (n & B & ->). rewrite size_of_decoy, len_zeros. lia. Qed.

Lemma handle_bytes c (t : @task G) cmd q s : split_handle t cmd q = s -> sh_config (tk_shaper t) = c ->
  shaped_as c s /\ spent (padding_strategy c) s <=
    out_of (tk_writer t) + most (padding_strategy c) (cmd_payload cmd) + total (fun x => most (padding_strategy c) (cmd_payload x)) q.
Proof.
  intros <- Cf. unfold split_handle. destruct (shaper_pad _ _) as [[[d sh] recs]| |] eqn:P; [|split; [exact Cf|]; count..].
  apply shaper_pad_spec in P. destruct P as (Cs & P). rewrite Cf in *. set (t1 := Task _ _ _ _ _ _ _ _). destruct d as [d|].
  - destruct P as (Pd & Sd & _). apply decoy_at_most in Sd. destruct (begin_write _ _) as [[r w]| |] eqn:B.
    + apply begin_bytes in B. destruct (pad_bytes (padding_strategy c) c t1 cmd r w _ eq_refl Cs) as (A1 & A2). split; [exact A1|].
      assert (M : most (padding_strategy c) (cmd_payload cmd) = size_of (cmd_payload cmd) + 20 + 1044) by (unfold most; now rewrite Pd).
      unfold t1 in *. cbn [queue tk_writer] in *. lia.
    + split; [exact Cs|]. subst t1. count.
    + split; [exact Cs|]. subst t1. count.
  - destruct P as (Pd & _). destruct (payload_bytes (padding_strategy c) c t1 cmd _ eq_refl Cs) as (A1 & A2). split; [exact A1|].
    assert (M : most (padding_strategy c) (cmd_payload cmd) = size_of (cmd_payload cmd) + 20 + 0) by (unfold most; now rewrite Pd).
    unfold t1 in *. cbn [queue tk_writer] in *. lia.
Qed.

Lemma tick_bytes c (t : @task G) s : split_tick t = s -> sh_config (tk_shaper t) = c ->
  shaped_as c s /\ spent (padding_strategy c) s <=
    out_of (tk_writer t) + (if makes_decoy (tk_shaper t) then 1044 else 0) + total (fun x => most (padding_strategy c) (cmd_payload x)) (queue t).
Proof.
  intros <- Cf. unfold split_tick, makes_decoy. destruct (shaper_decoy _) as [[d sh] recs] eqn:P. cbn [fst].
  apply shaper_decoy_spec in P. destruct P as (Cs & P & _). rewrite Cf in Cs. destruct d as [d|].
  - destruct P as (_ & Sd & _). apply decoy_at_most in Sd. destruct (begin_write _ _) as [[r w]| |] eqn:B.
    + apply begin_bytes in B. destruct r as [f|x]; cbn [decoy_wrote]; (split; [exact Cs|]); count.
    + split; [exact Cs|]. count.
    + split; [exact Cs|]. count.
  - split; [exact Cs|]. count.
Qed.

(** One poll: what is written and owed grows by a decoy at most, and only if a tick makes one. *)
Lemma poll_bytes c order el (s : @split_task G) : shaped_as c s ->
  shaped_as c (split_poll order el s) /\ spent (padding_strategy c) (split_poll order el s) <=
    spent (padding_strategy c) s + (if ticking order el s && makes_decoy (tk_shaper (sp_task s)) then 1044 else 0).
Proof.
  intros Cf. unfold shaped_as in Cf. unfold split_poll, ticking. destruct s as [t pl]. cbn [sp_task sp_place] in *.
  destruct (running t); [|cbn [andb]; split; [exact Cf|lia]]. destruct pl as [|f cmd|f cmd|f].
  - destruct (select _ _ _) as [[|n]| |d]; cbn [andb].
    + destruct (queue t) as [|cmd q] eqn:Q; [split; [exact Cf|lia]|].
      destruct (handle_bytes c t cmd q _ eq_refl Cf) as (A & B). split; [exact A|]. unfold spent at 2. cbn [sp_task sp_place owed]. rewrite Q. cbn [total fold_right].
      unfold total in B. lia.
    + destruct (tick_bytes c t _ eq_refl Cf) as (A & B). split; [exact A|]. unfold spent at 2. cbn [sp_task sp_place owed]. lia.
    + split; [exact Cf|]. count.
    + split; [exact Cf|]. count.
  - destruct (go_on f (tk_writer t)) as [r w] eqn:B. apply go_on_bytes in B.
    destruct (pad_bytes (padding_strategy c) c t cmd r w _ eq_refl Cf) as (A1 & A2). split; [exact A1|].
    unfold spent at 2. cbn [sp_task sp_place owed andb]. lia.
  - destruct (go_on f (tk_writer t)) as [r w] eqn:B. apply go_on_bytes in B. cbn [andb].
    destruct r as [f'|x]; cbn [payload_wrote]; (split; [exact Cf|]); count.
  - destruct (go_on f (tk_writer t)) as [r w] eqn:B. apply go_on_bytes in B. cbn [andb].
    destruct r as [f'|x]; cbn [decoy_wrote]; (split; [exact Cf|]); count.
Qed.

Lemma total_app {A} (f : A -> N) l l' : total f (l ++ l') = total f l + total f l'.
Proof. induction l as [|a l IH]; [reflexivity|]. cbn [app total fold_right] in *. unfold total in *. rewrite IH. lia. Qed.

Definition so_far (c : config) (s : @timed_task G) : N := spent (padding_strategy c) (tt_split s).
Definition decoys_of (s : @timed_task G) : N := len (decoy_times (tt_ticks s)).

Lemma total_one {A} (f : A -> N) a : total f [a] = f a.
Proof. apply N.add_0_r. Qed.

Lemma step_bytes c (s : @timed_task G) e : shaped_as c (tt_split s) ->
  shaped_as c (tt_split (timed_step s e)) /\
  so_far c (timed_step s e) + 1044 * decoys_of s <= so_far c s + total (most (padding_strategy c)) (given [e]) + 1044 * decoys_of (timed_step s e).
Proof.
  Ltac easily := unfold so_far, decoys_of in *; cbn [tt_split tt_ticks given flat_map app split_step task_step] in *; rewrite ?total_nil; count.
  intros Cf. destruct e as [ms|[[cmd| |b rd|]|id]]; cbn [timed_step].
  - split; [exact Cf|]. easily.
  - split.
    + unfold shaped_as in *. cbn [tt_split split_step sp_task task_step]. destruct (senders _ && running _); exact Cf.
    + unfold so_far, decoys_of, spent. cbn [tt_split tt_ticks given flat_map app split_step task_step sp_task sp_place]. rewrite total_one.
      destruct (senders _ && running _); cbn [queue tk_writer]; [rewrite total_app, total_one|]; lia.
  - split; [exact Cf|]. easily.
  - unfold timed_poll. cbn zeta. pose proof (poll_bytes c (order_of b) (rd && (tt_deadline s <=? tt_now s)) (tt_split s) Cf) as (A & B).
    destruct (ticking _ _ _); cbn [tt_split andb] in *; (split; [exact A|]); unfold so_far, decoys_of in *; cbn [tt_split tt_ticks given flat_map app]; rewrite total_nil.
    + unfold decoy_times. rewrite filter_app, map_app, len_app. cbn [filter snd]. destruct (makes_decoy _); cbn [map]; rewrite ?len_cons, ?len_nil; lia.
    + lia.
  - split.
    + unfold shaped_as in *. cbn [tt_split split_step sp_task task_step]. destruct (running _); exact Cf.
    + unfold so_far, decoys_of, spent. cbn [tt_split tt_ticks given flat_map app split_step task_step sp_task sp_place]. rewrite total_nil.
      destruct (running _); cbn [stop queue tk_writer]; rewrite ?total_nil; lia.
  - split; [exact Cf|]. easily.
Qed.

Lemma run_bytes c : forall es (s : @timed_task G), shaped_as c (tt_split s) ->
  shaped_as c (tt_split (timed_run s es)) /\
  so_far c (timed_run s es) + 1044 * decoys_of s <= so_far c s + total (most (padding_strategy c)) (given es) + 1044 * decoys_of (timed_run s es).
Proof.
  induction es as [|e es IH]; intros s Cf; [split; [exact Cf|]; cbn; lia|].
  destruct (step_bytes c s e Cf) as (A & B). destruct (IH _ A) as (A' & B'). split; [exact A'|].
  change (timed_run s (e :: es)) with (timed_run (timed_step s e) es). change (given (e :: es)) with (given ([e] ++ es)).
  replace (given ([e] ++ es)) with (given [e] ++ given es) by (symmetry; apply flat_map_app). rewrite total_app. lia.
Qed.

Lemma no_decoys c : forall es (s : @timed_task G), decoy_strategy c = Disabled -> shaped_as c (tt_split s) -> decoys_of s = 0 -> decoys_of (timed_run s es) = 0.
Proof.
  induction es as [|e es IH]; intros s Dc Cf Z; [exact Z|]. destruct (step_bytes c s e Cf) as (A & _). apply (IH (timed_step s e) Dc A).
  destruct e as [ms|[[cmd| |b rd|]|id]]; cbn [timed_step]; try exact Z.
  unfold timed_poll. cbn zeta. destruct (ticking _ _ _); [|exact Z]. unfold decoys_of, decoy_times in *. cbn [tt_ticks].
  rewrite filter_app, map_app, len_app, Z. cbn [filter snd]. unfold makes_decoy, shaper_decoy. unfold shaped_as in Cf. rewrite Cf, Dc. reflexivity.
Qed.

End Task.

(** ** C110 *)

(** The task, on every schedule and over every transport: no more than what it is given, 1044 bytes for each padded payload, and 1044 bytes
    for every 100 ms that passed, the first one at the start. *)
Theorem C110_task : forall (E : Env) (EL : EnvLaws E) (G : Type) (R : Rng G) (RL : RngLaws G R) start p (sh : shaper G) recs es,
  let s := timed_run (timed_new start p sh recs) es in
  len (written (pw_writer (tk_writer (sp_task (tt_split s))))) <=
    len (written (pw_writer p)) + total (most (padding_strategy (sh_config sh))) (given es) +
    match decoy_strategy (sh_config sh) with Random => 1044 * (passed es / 100 + 1) | Disabled => 0 end.
Proof.
  intros E EL G R RL start p sh recs es s.
  destruct (run_bytes (sh_config sh) es (timed_new start p sh recs) eq_refl) as (_ & B). fold s in B.
  change (decoys_of (timed_new start p sh recs)) with 0 in B. unfold so_far at 2 in B. unfold spent in B. cbn [timed_new tt_split split_new sp_task sp_place owed task_new tk_writer queue total fold_right] in B.
  unfold so_far, spent in B. unfold out_of in B.
  destruct (decoy_strategy (sh_config sh)) eqn:Dc.
  - pose proof (no_decoys (sh_config sh) es (timed_new start p sh recs) Dc eq_refl eq_refl) as Z. fold s in Z. rewrite Z in B. lia.
  - destruct (C97_task_rate E G R start p sh recs es) as (_ & _ & L1 & L2). fold s in L1, L2. unfold decoys_of in B. lia.
Qed.
Print Assumptions C110_task.

Section Thread.
Context {E : Env} {EL : EnvLaws E} {G : Type} {R : Rng G} {RL : RngLaws G R}.

Lemma sync_bytes w pl x w' : sync_write w pl = Ret (x, w') -> out_of w' <= out_of w + (size_of pl + 20).
Proof.
  intros H. destruct (write_any_sound Sync w pl x w' H) as (t & ct & pkt & n & V & En & W & _).
  apply encrypt_vec_len in En. unfold out_of. rewrite W, len_app, len_take.
  assert (size_of pl = len ct) as ->.
  { unfold payload_view in V. apply bind_ret_inv in V. destruct V as (t' & _ & V). apply bind_ret_inv in V. destruct V as (ct' & C & V).
    injection V as _ ->. now apply contents_seen. }
  lia.
Qed.

Definition app_owes (pa : strategy) (a : app_pc) : N :=
  match a with
  | AppLock pl | AppPad pl => most pa pl
  | AppWritePad d pl => size_of d + 20 + (size_of pl + 20)
  | AppWrite pl => size_of pl + 20
  | _ => 0
  end.
Definition thread_owes (t : thread_pc) : N := match t with ThWrite d => size_of d + 20 | _ => 0 end.
Definition shared_spent (pa : strategy) (s : @shared G) : N := out_of (st_writer s) + app_owes pa (app_at s) + thread_owes (thread_at s).

(** The thread makes no decoy before it has slept. *)
Definition slept (start : N) (s : @timed_shared G) : Prop :=
  let n := 100 * len (ts_decoys s) in
  match thread_at (ts_shared s) with
  | ThSleep => start + n <= ts_now s /\ start + n + 100 <= ts_wake s
  | ThTryLock | ThDecoy => start + n + 100 <= ts_now s
  | _ => start + n <= ts_now s
  end.

Definition held_to (c : config) (start base : N) (s : @timed_shared G) (pls : list payload) : Prop :=
  sh_config (st_shaper (ts_shared s)) = c /\ slept start s /\
  shared_spent (padding_strategy c) (ts_shared s) <= base + total (most (padding_strategy c)) pls + 1044 * len (ts_decoys s) /\
  (decoy_strategy c = Disabled -> ts_decoys s = []).

Ltac red_ := unfold set_app, set_thread, set_lock, set_writer, set_shaper, set_shutdown, poison, app_return in *; cbv zeta in *;
  cbn [st_writer st_shaper app_at thread_at ts_shared ts_decoys ts_now ts_wake app_owes thread_owes] in *.

Lemma held_step c start base s m s' pls : held_to c start base s pls -> timed_do s m = Some s' -> held_to c start base s' (pls ++ called [m]).
Proof.
  intros (Cf & Sl & B & Nd) H. unfold held_to. rewrite total_app. destruct m as [ms|mv]; cbn [timed_do called flat_map app] in H.
  - injection H as <-. cbn [ts_shared ts_decoys called flat_map app]. rewrite total_nil. split; [exact Cf|]. split; [|split; [lia|exact Nd]].
    unfold slept in *. cbn [ts_shared ts_decoys ts_now ts_wake]. destruct (thread_at _); lia.
  - destruct mv as [pl| | |].
    + cbn [do_move] in H. destruct (app_at (ts_shared s)) eqn:A; try discriminate. injection H as <-. cbn [called flat_map app]. rewrite total_one.
      split; [exact Cf|]. split; [exact Sl|]. split; [|exact Nd]. unfold shared_spent in *. rewrite A in B. red_. lia.
    + cbn [do_move] in H. cbn [called flat_map app]. rewrite total_nil.
      destruct (app_at (ts_shared s)) eqn:A; try discriminate; injection H as <-; (split; [exact Cf|]; split; [exact Sl|]; split; [|exact Nd]);
        unfold shared_spent in *; rewrite A in B; red_; lia.
    + cbn [called flat_map app]. rewrite total_nil. cbn [do_move] in H. destruct (app_step (ts_shared s)) as [t|] eqn:T; [|discriminate]. injection H as <-.
      cbn [ts_shared ts_decoys].
      enough (sh_config (st_shaper t) = c /\ thread_at t = thread_at (ts_shared s) /\ shared_spent (padding_strategy c) t <= shared_spent (padding_strategy c) (ts_shared s)) as (X & Y & Z).
      { split; [exact X|]. split; [unfold slept in *; cbn [ts_shared ts_decoys ts_now ts_wake]; rewrite Y; exact Sl|]. split; [lia|exact Nd]. }
      clear B Sl Nd. unfold app_step in T. unfold shared_spent. destruct (app_at (ts_shared s)) as [|pl|pl|d pl|pl| | |] eqn:A; try discriminate.
      * destruct (lock _); try discriminate. destruct (poisoned _); injection T as <-; red_; (split; [exact Cf|]; split; [reflexivity|]); lia.
      * injection T as <-. destruct (shaper_pad _ _) as [[[[d|] sh] recs]| |] eqn:P.
        -- apply shaper_pad_spec in P. destruct P as (Cs & Pd & Sd & _). apply decoy_at_most in Sd. rewrite Cf in *. red_. split; [exact Cs|]. split; [reflexivity|].
           assert (M : most (padding_strategy c) pl = size_of pl + 20 + 1044) by (unfold most; now rewrite Pd). lia.
        -- apply shaper_pad_spec in P. destruct P as (Cs & Pd & _). rewrite Cf in *. red_. split; [exact Cs|]. split; [reflexivity|].
           assert (M : most (padding_strategy c) pl = size_of pl + 20 + 0) by (unfold most; now rewrite Pd). lia.
        -- red_. split; [exact Cf|]. split; [reflexivity|]. lia.
        -- red_. split; [exact Cf|]. split; [reflexivity|]. lia.
      * injection T as <-. destruct (sync_write _ _) as [[[u|e] w]| |] eqn:W; [apply sync_bytes in W..| |]; red_; (split; [exact Cf|]; split; [reflexivity|]); lia.
      * injection T as <-. destruct (sync_write _ _) as [[x w]| |] eqn:W; [apply sync_bytes in W| |]; red_; (split; [exact Cf|]; split; [reflexivity|]); lia.
      * destruct (thread_at _) eqn:Th; try discriminate; injection T as <-; red_; (split; [exact Cf|]; split; [exact Th|]); rewrite ?Th; red_; lia.
    + cbn [called flat_map app]. rewrite total_nil. cbn [timed_do] in H. unfold timed_thread in H. destruct (thread_step (ts_shared s)) as [t|] eqn:T; [|discriminate].
      unfold thread_step in T. unfold slept, shared_spent in *. destruct (thread_at (ts_shared s)) as [| | | |d| |] eqn:Th; try discriminate.
      * injection T as <-. injection H as <-. unfold DEFAULT_CHECK_INTERVAL_MS. red_. split; [exact Cf|]. destruct (shutdown _); red_; (split; [lia|]); (split; [lia|exact Nd]).
      * injection T as <-. destruct (ts_wake s <=? ts_now s) eqn:Wk; [|discriminate]. injection H as <-. apply N.leb_le in Wk. red_. split; [exact Cf|]. split; [lia|]. split; [lia|exact Nd].
      * injection H as <-. destruct (lock _); [destruct (poisoned _)|..]; injection T as <-; red_; (split; [exact Cf|]); (split; [lia|]); (split; [lia|exact Nd]).
      * injection H as <-. unfold makes_decoy. destruct (shaper_decoy _) as [[[d|] sh] recs] eqn:P; injection T as <-; apply shaper_decoy_spec in P; destruct P as (Cs & Pd & _); rewrite Cf in *.
        -- destruct Pd as (Dc & Sd & _). apply decoy_at_most in Sd. cbn [fst ts_shared ts_decoys ts_now ts_wake]. rewrite len_app, len_cons, len_nil. red_.
           split; [exact Cs|]. split; [lia|]. split; [lia|]. rewrite Dc. discriminate.
        -- cbn [fst ts_shared ts_decoys ts_now ts_wake]. rewrite app_nil_r. red_. split; [exact Cs|]. split; [lia|]. split; [lia|exact Nd].
      * injection H as <-. injection T as <-. destruct (sync_write _ _) as [[x w]| |] eqn:W; [apply sync_bytes in W| |]; red_; (split; [exact Cf|]); (split; [lia|]); (split; [lia|exact Nd]).
Qed.

Lemma held_play c start base : forall ms s s' pls, held_to c start base s pls -> timed_play s ms = Some s' -> held_to c start base s' (pls ++ called ms).
Proof.
  induction ms as [|m ms IH]; intros s s' pls X H; cbn [timed_play] in H; [injection H as <-; cbn; rewrite app_nil_r; exact X|].
  destruct (timed_do s m) as [s1|] eqn:D; [|discriminate]. pose proof (held_step _ _ _ _ _ _ _ X D) as Y. apply (IH _ _ _ Y) in H.
  change (called (m :: ms)) with (called ([m] ++ ms)). replace (called ([m] ++ ms)) with (called [m] ++ called ms) by (symmetry; apply flat_map_app).
  rewrite app_assoc. exact H.
Qed.

End Thread.

(** The blocking writer, likewise; its thread sleeps first. *)
Theorem C110_thread : forall (E : Env) (EL : EnvLaws E) (G : Type) (R : Rng G) (RL : RngLaws G R) start p (sh : shaper G) recs ms s,
  timed_play (timed_shared_new start p sh recs) ms = Some s ->
  len (written (pw_writer (st_writer (ts_shared s)))) <=
    len (written (pw_writer p)) + total (most (padding_strategy (sh_config sh))) (called ms) +
    match decoy_strategy (sh_config sh) with Random => 1044 * ((ts_now s - start) / 100) | Disabled => 0 end.
Proof.
  intros E EL G R RL start p sh recs ms s H.
  assert (X : held_to (sh_config sh) start (len (written (pw_writer p))) (timed_shared_new start p sh recs) []).
  { split; [reflexivity|]. split; [cbn; lia|]. split; [|reflexivity]. unfold shared_spent, out_of. cbn. lia. }
  destruct (held_play _ _ _ _ _ _ _ X H) as (_ & Sl & B & Nd). cbn [app] in B. unfold shared_spent, out_of in B.
  destruct (decoy_strategy (sh_config sh)); [rewrite Nd in B by reflexivity; change (len (@nil N)) with 0 in B; lia|].
  assert (len (ts_decoys s) <= (ts_now s - start) / 100).
  { apply N.div_le_lower_bound; [lia|]. unfold slept in Sl. destruct (thread_at _); try lia. }
  lia.
Qed.
Print Assumptions C110_thread.

(** *** In the mean *)

Section Mean.
Context {E : Env} {EL : EnvLaws E}.

(** What leaves at each tick, from what the draws decide. *)
Fixpoint tick_sizes (o z : list N) : list N :=
  match o with
  | [] => []
  | x :: o => if 85 <=? x then match z with y :: z => (y + 21) :: tick_sizes o z | [] => 21 :: tick_sizes o [] end
              else 0 :: tick_sizes o z
  end.

Lemma decides' c x o z : decoy_strategy c = Random -> x < 100 -> Forall (fun y => y < 1024) z ->
  exists recs, shaper_decoy (Shaper c (x :: o, z)) =
    if 85 <=? x then (Some (decoy (zeros (1 + match z with y :: _ => y | [] => 0 end))), Shaper c (o, tl z), recs) else (None, Shaper c (o, z), recs).
Proof.
  intros Dc Lx Lz. unfold shaper_decoy. cbn [sh_config sh_rng]. rewrite Dc.
  assert (gen_range 0 99 (x :: o, z) = (x, (o, z))) as ->.
  { cbn [gen_range dice]. change (is_decision 0 99) with true. cbn [fst snd next_in]. change (99 - 0 + 1) with 100.
    rewrite N.mod_small by exact Lx. reflexivity. }
  rewrite N.leb_antisym. destruct (x <? 85); cbn [negb]; [eexists; reflexivity|].
  unfold zero_decoy. change MAX_DECOY_SIZE_BYTES with 1024. cbn [gen_range dice fst snd]. change (is_decision 1 1024) with false. cbn iota.
  destruct z as [|y z]; cbn [next_in tl]; [eexists; reflexivity|]. apply Forall_cons_iff in Lz. destruct Lz as [Ly _].
  change (1024 - 1 + 1) with 1024. rewrite N.mod_small by exact Ly. eexists. reflexivity.
Qed.

Lemma task_sizes c : forall o z w k rc an,
  decoy_strategy c = Random -> Forall (fun x => x < 100) o -> Forall (fun y => y < 1024) z -> healthy (pw_writer w) -> counted k (pw_cipher w) ->
  (overflow_checks = true -> k + len o < 2 ^ 32) ->
  task_ticks (Task w (Shaper c (o, z)) [] true no_branch_disabled true rc an) (length o) = tick_sizes o z.
Proof.
  induction o as [|x o IH]; intros z w k rc an Dc F Fz Hh Hc Hr; [reflexivity|].
  apply Forall_cons_iff in F. destruct F as [Fx F]. rewrite len_cons in Hr. destruct (decides' c x o z Dc Fx Fz) as (recs & Q).
  cbn [length task_ticks].
  set (t1 := task_step (Task w (Shaper c (x :: o, z)) [] true no_branch_disabled true rc an) (Poll false true)).
  assert (exists w' rc' k', t1 = Task w' (Shaper c (o, if 85 <=? x then tl z else z)) [] true no_branch_disabled true rc' an /\ healthy (pw_writer w') /\
    counted k' (pw_cipher w') /\ k' <= k + 1 /\
    len (written (pw_writer w')) - len (written (pw_writer w)) = (if 85 <=? x then match z with y :: _ => y | [] => 0 end + 21 else 0))
    as (w' & rc' & k' & -> & Hh' & Hc' & Lk & Z).
  { subst t1. cbn [task_step]. rewrite poll_task_eq; [|reflexivity|left; reflexivity]. cbn [andb queue]. unfold tick. cbn [tk_shaper].
    rewrite Q. destruct (85 <=? x).
    - revert Q. generalize (match z with y :: _ => y | [] => 0 end). intros y Q.
      destruct (tokio_write_fine w (decoy (zeros (1 + y))) k Hh Hc) as (w1 & o1 & W1 & C1 & H1 & O1 & L1).
      { intros Ho. specialize (Hr Ho). lia. }
      { eexists. reflexivity. }
      cbn [tk_writer]. rewrite W1. exists w1. eexists. exists (k + 1). split; [unfold turn; cbn [tk_writer tk_shaper queue senders tk_records answers]; rewrite app_nil_r; reflexivity|].
      split; [exact H1|]. split; [exact C1|]. split; [lia|]. rewrite O1, len_app, L1, size_of_decoy, len_zeros. lia.
    - exists w. eexists. exists k. split; [unfold turn; cbn [tk_writer tk_shaper queue senders tk_records answers]; rewrite app_nil_r; reflexivity|].
      split; [exact Hh|]. split; [exact Hc|]. split; [lia|]. apply N.sub_diag. }
  cbn [tk_writer]. rewrite Z. rewrite (IH _ w' k'); [|try assumption..].
  - cbn [tick_sizes]. destruct (85 <=? x); [destruct z as [|y z]; reflexivity|reflexivity].
  - destruct (85 <=? x); [|exact Fz]. destruct z; [exact Fz|]. apply Forall_cons_iff in Fz. apply Fz.
  - intros Ho. specialize (Hr Ho). lia.
Qed.

Lemma thread_sizes c : forall o z w k rc rt,
  decoy_strategy c = Random -> Forall (fun x => x < 100) o -> Forall (fun y => y < 1024) z -> healthy (pw_writer w) -> counted k (pw_cipher w) ->
  (overflow_checks = true -> k + len o < 2 ^ 32) ->
  thread_ticks (Shared w (Shaper c (o, z)) Free false false AppOut ThCheck rc rt) (length o) = tick_sizes o z.
Proof.
  induction o as [|x o IH]; intros z w k rc rt Dc F Fz Hh Hc Hr; [reflexivity|].
  apply Forall_cons_iff in F. destruct F as [Fx F]. rewrite len_cons in Hr. destruct (decides' c x o z Dc Fx Fz) as (recs & Q).
  cbn [length thread_ticks].
  assert (exists w' rc' k', thread_turn (Shared w (Shaper c (x :: o, z)) Free false false AppOut ThCheck rc rt) =
      Some (Shared w' (Shaper c (o, if 85 <=? x then tl z else z)) Free false false AppOut ThCheck rc' rt) /\ healthy (pw_writer w') /\
    counted k' (pw_cipher w') /\ k' <= k + 1 /\
    len (written (pw_writer w')) - len (written (pw_writer w)) = (if 85 <=? x then match z with y :: _ => y | [] => 0 end + 21 else 0))
    as (w' & rc' & k' & -> & Hh' & Hc' & Lk & Z).
  { revert Q. generalize (match z with y :: _ => y | [] => 0 end). intros size Q. destruct (85 <=? x).
    - destruct (sync_write_fine w (decoy (zeros (1 + size))) k Hh Hc) as (pk & c1 & w1 & W1 & _ & <- & C1 & H1 & O1 & L1).
      { intros Ho. specialize (Hr Ho). lia. }
      { eexists. reflexivity. }
      exists w1, (rc ++ recs), (k + 1). split; [exact (turn_some _ _ _ _ _ _ _ _ _ Q W1)|].
      split; [exact H1|]. split; [exact C1|]. split; [lia|]. rewrite O1, len_app, L1, size_of_decoy, len_zeros. lia.
    - exists w, (rc ++ recs), k. split; [exact (turn_none _ _ _ _ _ _ Q)|].
      split; [exact Hh|]. split; [exact Hc|]. split; [lia|]. apply N.sub_diag. }
  cbn [st_writer]. rewrite Z. rewrite (IH _ w' k'); [|try assumption..].
  - cbn [tick_sizes]. destruct (85 <=? x); [destruct z as [|y z]; reflexivity|reflexivity].
  - destruct (85 <=? x); [|exact Fz]. destruct z; [exact Fz|]. apply Forall_cons_iff in Fz. apply Fz.
  - intros Ho. specialize (Hr Ho). lia.
Qed.

Lemma cover_sizes fl p c k n m o z :
  In o (outcomes 100 n) -> In z (outcomes 1024 m) -> decoy_strategy c = Random -> healthy (pw_writer p) -> counted k (pw_cipher p) ->
  (overflow_checks = true -> k + N.of_nat n < 2 ^ 32) -> cover fl p c z o = tick_sizes o z.
Proof.
  intros I J Dc Hh Hc Hr. apply in_outcomes in I. destruct I as [L F]. change (N.of_nat 100) with 100 in F. apply in_outcomes in J. destruct J as [_ Fz].
  change (N.of_nat 1024) with 1024 in Fz. subst n. destruct fl; [eapply thread_sizes|eapply task_sizes]; eassumption.
Qed.

End Mean.

Lemma total_ext {A} (f g : A -> N) l : (forall a, In a l -> f a = g a) -> total f l = total g l.
Proof.
  induction l as [|a l IH]; intros H; [reflexivity|]. change (f a + total f l = g a + total g l). rewrite (H a (or_introl eq_refl)), IH; [reflexivity|].
  intros b I. apply H. now right.
Qed.
Lemma total_map {A B} (g : B -> A) (f : A -> N) l : total f (map g l) = total (fun b => f (g b)) l.
Proof. induction l as [|a l IH]; [reflexivity|]. change (f (g a) + total f (map g l) = f (g a) + total (fun b => f (g b)) l). now rewrite IH. Qed.
Lemma total_add {A} (f g : A -> N) l : total (fun a => f a + g a) l = total f l + total g l.
Proof. induction l as [|a l IH]; [reflexivity|]. change (f a + g a + total (fun a => f a + g a) l = f a + total f l + (g a + total g l)). rewrite IH. lia. Qed.
Lemma total_const {A} k (l : list A) : total (fun _ => k) l = k * len l.
Proof. induction l as [|a l IH]; [now rewrite N.mul_0_r|]. change (k + total (fun _ => k) l = k * len (a :: l)). rewrite IH, len_cons. lia. Qed.

Lemma total_each (f : list N -> N) os : forall l, total f (flat_map (fun x => map (cons x) os) l) = total (fun x => total (fun o => f (x :: o)) os) l.
Proof.
  induction l as [|x l IH]; [reflexivity|]. cbn [flat_map]. rewrite total_app, IH, total_map. reflexivity.
Qed.

Lemma total_if (p : N -> bool) a b l : total (fun x => if p x then a else b) l = a * len (filter p l) + b * len (filter (fun x => negb (p x)) l).
Proof.
  induction l as [|x l IH]; [cbn; lia|]. change ((if p x then a else b) + total (fun x => if p x then a else b) l = a * len (filter p (x :: l)) + b * len (filter (fun x => negb (p x)) (x :: l))).
  rewrite IH. cbn [filter]. destruct (p x); cbn [negb]; rewrite len_cons; lia.
Qed.

Lemma total_from : forall n a, 2 * total (fun x => x) (from a n) + N.of_nat n = N.of_nat n * (2 * a + N.of_nat n).
Proof.
  induction n as [|n IH]; intros a; [reflexivity|]. cbn [from]. change (total (fun x => x) (a :: from (a + 1) n)) with (a + total (fun x => x) (from (a + 1) n)).
  specialize (IH (a + 1)). rewrite Nat2N.inj_succ. nia.
Qed.

Definition over (f : list N -> list N -> N) (n m : nat) : N := total (fun o => total (fun z => f o z) (outcomes 1024 m)) (outcomes 100 n).

Lemma mean_ticks : forall n m, (n <= m)%nat ->
  8 * over (fun o z => sum (tick_sizes o z)) n m = 639 * N.of_nat n * (100 ^ N.of_nat n * 1024 ^ N.of_nat m).
Proof.
  induction n as [|n IH]; intros m L.
  - unfold over. cbn [outcomes total fold_right tick_sizes sum]. change (fold_right (fun (_ : list N) n => 0 + n) 0) with (total (fun _ : list N => 0)).
    rewrite total_const. lia.
  - destruct m as [|m]; [lia|]. unfold over. change (outcomes 100 (S n)) with (flat_map (fun x => map (cons x) (outcomes 100 n)) (from 0 100)). rewrite total_each.
    set (A := over (fun o z => sum (tick_sizes o z)) n m) in *.
    set (B := over (fun o z => sum (tick_sizes o z)) n (S m)) in *.
    rewrite (total_ext _ (fun x => if 85 <=? x then 545280 * (1024 ^ N.of_nat m * 100 ^ N.of_nat n) + 1024 * A else B)).
    + rewrite total_if. change (len (filter (N.leb 85) (from 0 100))) with 15. change (len (filter (fun x => negb (85 <=? x)) (from 0 100))) with 85.
      pose proof (IH m ltac:(lia)) as I1. pose proof (IH (S m) ltac:(lia)) as I2. fold A in I1. fold B in I2.
      rewrite !Nat2N.inj_succ, !N.pow_succ_r' in *.
      set (P := 100 ^ N.of_nat n) in *. set (Q := 1024 ^ N.of_nat m) in *. 
      replace (8 * ((545280 * (Q * P) + 1024 * A) * 15 + B * 85)) with (120 * 545280 * (P * Q) + 15 * 1024 * (8 * A) + 85 * (8 * B)) by lia.
      rewrite I1, I2. set (PQ := P * Q) in *. replace (P * (1024 * Q)) with (1024 * PQ) by (unfold PQ; lia). replace (100 * P * (1024 * Q)) with (102400 * PQ) by (unfold PQ; lia).
      set (k := N.of_nat n). replace (639 * k * PQ) with (639 * (k * PQ)) by lia. replace (639 * k * (1024 * PQ)) with (639 * 1024 * (k * PQ)) by lia.
      replace (639 * N.succ k * (102400 * PQ)) with (639 * 102400 * PQ + 639 * 102400 * (k * PQ)) by lia. lia.
    + intros x _. destruct (85 <=? x) eqn:X.
      * rewrite (total_ext _ (fun o => 545280 * 1024 ^ N.of_nat m + 1024 * total (fun z => sum (tick_sizes o z)) (outcomes 1024 m))).
        -- rewrite total_add, total_const. pose proof (len_outcomes 100 n) as Lo. change (N.of_nat 100) with 100 in Lo. rewrite Lo.
           assert (Mu : forall (f : list N -> N) l, total (fun o => 1024 * f o) l = 1024 * total f l).
           { intros f. induction l as [|a l I]; [reflexivity|]. change (1024 * f a + total (fun o => 1024 * f o) l = 1024 * (f a + total f l)). rewrite I. lia. }
           rewrite Mu. unfold A, over. lia.
        -- intros o _. change (outcomes 1024 (S m)) with (flat_map (fun x => map (cons x) (outcomes 1024 m)) (from 0 1024)). rewrite total_each.
           rewrite (total_ext _ (fun y => y * 1024 ^ N.of_nat m + (21 * 1024 ^ N.of_nat m + total (fun z => sum (tick_sizes o z)) (outcomes 1024 m)))).
           ++ rewrite total_add, total_const, len_from.
              assert (Mu : forall k l, total (fun y => y * k) l = total (fun y => y) l * k).
              { intros k. induction l as [|a l I]; [reflexivity|]. change (a * k + total (fun y => y * k) l = (a + total (fun y => y) l) * k). rewrite I. lia. }
              rewrite Mu. pose proof (total_from 1024 0) as T. change (N.of_nat 1024) with 1024 in *.
              assert (total (fun y => y) (from 0 1024) = 523776) as -> by lia. lia.
           ++ intros y _. rewrite (total_ext _ (fun z => (y + 21) + sum (tick_sizes o z))).
              ** rewrite total_add, total_const. pose proof (len_outcomes 1024 m) as Lo. change (N.of_nat 1024) with 1024 in Lo. rewrite Lo. lia.
              ** intros z _. cbn [tick_sizes]. rewrite X. reflexivity.
      * unfold B, over. apply total_ext. intros o _. apply total_ext. intros z _. cbn [tick_sizes]. rewrite X. reflexivity.
Qed.

(** Cover traffic costs 639/8 = 79.875 bytes a tick in the mean over all outcomes of the draws: about 799 bytes a second. *)
Theorem C110_cover_mean : forall (E : Env) (EL : EnvLaws E) fl p c k n m,
  decoy_strategy c = Random -> healthy (pw_writer p) -> counted k (pw_cipher p) -> (overflow_checks = true -> k + N.of_nat n < 2 ^ 32) -> (n <= m)%nat ->
  8 * total (fun o => total (fun z => sum (cover fl p c z o)) (outcomes 1024 m)) (outcomes 100 n) =
  639 * N.of_nat n * (len (outcomes 100 n) * len (outcomes 1024 m)).
Proof.
  intros E EL fl p c k n m Dc Hh Hc Hr L. pose proof (len_outcomes 1024 m) as L1. pose proof (len_outcomes 100 n) as L2.
  change (N.of_nat 1024) with 1024 in L1. change (N.of_nat 100) with 100 in L2. rewrite L1, L2, <- (mean_ticks n m L). f_equal.
  apply total_ext. intros o I. apply total_ext. intros z J. now rewrite (cover_sizes fl p c k n m o z I J Dc Hh Hc Hr).
Qed.
Print Assumptions C110_cover_mean.

Lemma mean_masked : forall sizes, 2 * total (fun o => sum (masked 41 sizes o)) (outcomes 1024 (length sizes)) =
  (2 * sum sizes + 1105 * len sizes) * 1024 ^ len sizes.
Proof.
  induction sizes as [|s sizes IH]; [reflexivity|]. cbn [length].
  change (outcomes 1024 (S (length sizes))) with (flat_map (fun x => map (cons x) (outcomes 1024 (length sizes))) (from 0 1024)). rewrite total_each.
  pose proof (len_outcomes 1024 (length sizes)) as Lo. change (N.of_nat 1024) with 1024 in Lo. fold (len sizes) in Lo.
  rewrite (total_ext _ (fun y => y * 1024 ^ len sizes + ((s + 41) * 1024 ^ len sizes + total (fun o => sum (masked 41 sizes o)) (outcomes 1024 (length sizes))))).
  - rewrite total_add, total_const, len_from.
    assert (Mu : forall k l, total (fun y => y * k) l = total (fun y => y) l * k).
    { intros k. induction l as [|a l I]; [reflexivity|]. change (a * k + total (fun y => y * k) l = (a + total (fun y => y) l) * k). rewrite I. lia. }
    rewrite Mu. pose proof (total_from 1024 0) as T. change (N.of_nat 1024) with 1024 in *.
    assert (total (fun y => y) (from 0 1024) = 523776) as -> by lia.
    replace (len (s :: sizes)) with (N.succ (len sizes)) by (rewrite len_cons; lia). rewrite N.pow_succ_r'.
    change (sum (s :: sizes)) with (s + sum sizes). set (Q := 1024 ^ len sizes) in *. set (U := total _ (outcomes 1024 _)) in *.
    replace (2 * (523776 * Q + ((s + 41) * Q + U) * 1024)) with (1047552 * Q + 2048 * (s * Q) + 83968 * Q + 1024 * (2 * U)) by lia. rewrite IH.
    set (S1 := sum sizes). set (l1 := len sizes). nia.
  - intros y _. rewrite (total_ext _ (fun o => (s + 41 + y) + sum (masked 41 sizes o))) by (intros o _; reflexivity).
    rewrite total_add, total_const, Lo. lia.
Qed.

(** Padding costs 1065/2 = 532.5 bytes a payload in the mean, whatever its size. *)
Theorem C110_padding_mean : forall (E : Env) (EL : EnvLaws E) fl p c k pls,
  padding_strategy c = Random -> Forall sound_payload pls -> healthy (pw_writer p) -> counted k (pw_cipher p) ->
  (overflow_checks = true -> k + 2 * len pls < 2 ^ 32) ->
  let os := outcomes 1024 (length pls) in
  2 * total (fun o => sum (view fl p c pls o)) os = (2 * total (fun pl => size_of pl + 20) pls + 1065 * len pls) * len os.
Proof.
  intros E EL fl p c k pls Pd So Hh Hc Hr os. subst os. pose proof (len_outcomes 1024 (length pls)) as Lo. change (N.of_nat 1024) with 1024 in Lo. rewrite Lo.
  rewrite (total_ext _ (fun o => sum (masked 41 (map size_of pls) o))).
  - pose proof (mean_masked (map size_of pls)) as M. rewrite map_length in M. rewrite M. rewrite len_map'. fold (len pls). f_equal.
    rewrite total_add, total_const. assert (sum (map size_of pls) = total size_of pls) as ->; [|lia].
    clear. induction pls as [|a l IH]; [reflexivity|]. cbn [map]. change (size_of a + sum (map size_of l) = size_of a + total size_of l). now rewrite IH.
  - intros o I. now rewrite (view_is fl p c k pls o I Pd So Hh Hc Hr).
Qed.
Print Assumptions C110_padding_mean.

(** The bound of [C110_task] is reached: the largest decoys, at 0 and at 100 ms, and a padded payload of two bytes. *)
Example C110_example :
  let sh := Shaper all_random [99; 1023; 1023; 99; 1023] in
  let es := [Happens (Ev (Poll false true)); Happens (Ev (Send (Command 1 (genuine [x01; x02])))); Elapse 100;
             Happens (Ev (Poll false true)); Happens (Ev (Poll false true))] in
  let s := @timed_run (toy true) _ draws (timed_new 0 toy_writer sh []) es in
  len (written (pw_writer (tk_writer (sp_task (tt_split s))))) = 3154 /\
  total (most Random) (given es) + 1044 * (passed es / 100 + 1) = 3154 /\
  (* three ticks of which one makes a decoy of 1 + 7 bytes; one of 85 silent *)
  cover (E := toy true) Tokio toy_writer (Config Disabled Random) [7; 3] [10; 90; 20] = [0; 28; 0] /\
  cover (E := toy true) Sync toy_writer (Config Disabled Random) [7; 3] [10; 90; 99] = [0; 28; 24] /\
  (* the thread: a decoy at 100 ms, and the payload *)
  match @timed_play (toy true) _ draws (timed_shared_new 0 toy_writer (Shaper all_random [99; 1023; 1023]) [])
      ([Acts Thread; Later 100] ++ repeat (Acts Thread) 4 ++ Acts (CallWrite (genuine [x01; x02])) :: repeat (Acts App) 4) with
  | Some s => len (written (pw_writer (st_writer (ts_shared s)))) = 2110 /\ total (most Random) [genuine [x01; x02]] + 1044 * (100 / 100) = 2110
  | None => False
  end.
Proof. vm_compute. repeat split. Qed.
Print Assumptions C110_example.
