(** * PropsErrors: what the errors say (C99) *)
From Coq Require Import String Ascii List NArith Bool Lia.
From Coq Require Import DecimalString DecimalN.
From Coq.Strings Require Import Byte.
From Verif Require Import Base BaseFacts Env Toy FsChacha Cipher CipherFacts CipherProofs Handshake SpecHandshake HsDriver HandshakeProofs Transport Io
  PropsCipher PropsHandshake Errors.
Import ListNotations.
Local Open Scope N_scope.

(** The characters of a text, the last first. *)
Definition backwards (s : string) : list Ascii.ascii := List.rev (list_ascii_of_string s).

Lemma chars_app a b : list_ascii_of_string (a ++ b)%string = (list_ascii_of_string a ++ list_ascii_of_string b)%list.
Proof. induction a as [|x a IH]; [reflexivity|]. cbn. now rewrite IH. Qed.

Lemma backwards_app a b : backwards (a ++ b)%string = backwards b ++ backwards a.
Proof. unfold backwards. now rewrite chars_app, rev_app_distr. Qed.

Lemma backwards_inj a b : backwards a = backwards b -> a = b.
Proof.
  unfold backwards. intros H. apply (f_equal (@List.rev Ascii.ascii)) in H. rewrite !rev_involutive in H.
  rewrite <- (string_of_list_ascii_of_string a), <- (string_of_list_ascii_of_string b). now f_equal.
Qed.

Lemma text_suffix a b s : (a ++ s = b ++ s)%string -> a = b.
Proof. intros H. apply (f_equal backwards) in H. rewrite !backwards_app in H. apply app_inv_head in H. now apply backwards_inj. Qed.

Lemma text_prefix p a b : (p ++ a = p ++ b)%string -> a = b.
Proof. induction p as [|x p IH]; cbn; intros H; [exact H|]. injection H as H. auto. Qed.

Lemma decimal_inj n m : decimal n = decimal m -> n = m.
Proof.
  unfold decimal. intros H. apply (f_equal NilEmpty.uint_of_string) in H. rewrite !NilEmpty.usu in H.
  apply DecimalN.Unsigned.to_uint_inj. congruence.
Qed.

(** ** C99 *)
(** Different errors print different texts, whatever the errors of other crates print. *)
Theorem C99_text : forall f e e', show_error f e = show_error f e' -> e = e'.
Proof.
  intros f e e' H. destruct e as [|n| | | | |[]|], e' as [|n'| | | | |[]|]; try reflexivity; unfold show_error, debug_secret in H; try (exfalso; discriminate H).
  apply text_prefix, text_suffix, decimal_inj in H. now subst.
Qed.
Print Assumptions C99_text.

(** The text of a [ProtocolError] tells whether it is one of the transport, with which text and which suggestion, or which error. *)
Theorem C99_protocol_text : forall f io io' p p', show_protocol f io p = show_protocol f io' p' ->
  match p, p' with
  | Io _ s, Io _ s' => s = s' /\ io = io'
  | Internal e, Internal e' => e = e'
  | _, _ => False
  end.
Proof.
  intros f io io' p p' H. destruct p as [k s|e], p' as [k' s'|e']; unfold show_protocol in H; try discriminate H.
  - apply text_prefix in H. assert (s = s') as ->.
    { destruct s, s'; try reflexivity; exfalso; apply (f_equal backwards) in H; rewrite !backwards_app in H; discriminate H. }
    split; [reflexivity|]. now apply text_suffix in H.
  - apply text_prefix, text_suffix in H. exact (C99_text f e e' H).
Qed.
Print Assumptions C99_protocol_text.

(** The chain of sources ends, with an error of another crate or with one that has no cause. *)
Theorem C99_sources : forall p,
  match p with
  | Io k _ => sources 4 (AnyProtocol p) = [AnyIo k]
  | Internal (SecretGeneration e) =>
      sources 4 (AnyProtocol p) =
      [AnyError (SecretGeneration e); AnySecret e; match e with MaterialsGeneration => AnySecp | Expansion => AnyHkdf end]
  | Internal Decryption => sources 4 (AnyProtocol p) = [AnyError Decryption; AnyCipher; AnyAead]
  | Internal e => sources 4 (AnyProtocol p) = [AnyError e]
  end.
Proof. intros [k s|[|n| | | | |[]|]]; reflexivity. Qed.
Print Assumptions C99_sources.

(** "need at least n bytes": with n bytes the call does not say so again, with fewer it does; and the error leaves the cipher as
    it was, so that it can be tried again. *)
Theorem C99_required_encrypt : forall (E : Env) (EL : EnvLaws E) c pt buf t aad n c' buf',
  encrypt c pt buf t aad = Ret (Err (BufferTooSmall n), c', buf') ->
  c' = c /\ forall buf2 r c2 buf2', encrypt c pt buf2 t aad = Ret (r, c2, buf2') ->
    r = if n <=? len buf2 then Ok tt else Err (BufferTooSmall n).
Proof.
  intros E EL c pt buf t aad n c' buf' H.
  destruct (C06_encrypt_contract _ _ _ _ _ _ _ _ _ _ H) as [(L & Q & -> & _)|(_ & Q & _)]; [|discriminate Q].
  split; [reflexivity|]. intros buf2 r c2 buf2' H2. assert (n = len pt + 20) as -> by congruence.
  destruct (C06_encrypt_contract _ _ _ _ _ _ _ _ _ _ H2) as [(L2 & -> & _)|(L2 & -> & _)].
  - rewrite (proj2 (N.leb_gt _ _)) by lia. reflexivity.
  - rewrite (proj2 (N.leb_le _ _)) by lia. reflexivity.
Qed.
Print Assumptions C99_required_encrypt.

Theorem C99_required_decrypt : forall (E : Env) (EL : EnvLaws E) c ct buf aad n c' b,
  decrypt c ct buf aad = Ret (Err (BufferTooSmall n), c', b) ->
  c' = c /\ forall buf2 r c2 b2 m, decrypt c ct buf2 aad = Ret (r, c2, b2) -> (r = Err (BufferTooSmall m) <-> m = n /\ len buf2 < n).
Proof.
  intros E EL c ct buf aad n c' b H.
  destruct (C12_decrypt_size_errors _ _ _ _ _ _ _ _ H) as [_ Q]. destruct (proj1 (Q n) eq_refl) as (L17 & L & ->).
  split; [exact (proj1 (failed_decrypt _ _ _ _ _ _ _ H))|]. intros buf2 r c2 b2 m H2.
  destruct (C12_decrypt_size_errors _ _ _ _ _ _ _ _ H2) as [_ Q2]. rewrite Q2. intuition lia.
Qed.
Print Assumptions C99_required_decrypt.

Theorem C99_required_key : forall h g out n out',
  len (elligator_swift (in_point (hs_state h))) = 64 -> send_key h g out = Ret (Err (BufferTooSmall n), out') ->
  n = send_key_len g /\ forall out2,
    if n <=? len out2 then exists h' out2', send_key h g out2 = Ret (Ok h', out2')
    else send_key h g out2 = Ret (Err (BufferTooSmall n), out2).
Proof.
  intros h g out n out' L H. destruct (C17_send_key h g out L) as (A & B & C & D). rewrite D.
  destruct (N.lt_ge_cases 4095 (len (garbage_bytes g))) as [Lg|Lg]; [rewrite A in H by exact Lg; discriminate H|].
  destruct (N.lt_ge_cases (len out) (64 + len (garbage_bytes g))) as [Lo|Lo]; [|rewrite C in H by assumption; discriminate H].
  rewrite B in H by assumption. assert (n = 64 + len (garbage_bytes g)) as -> by congruence. split; [reflexivity|]. intros out2.
  destruct (C17_send_key h g out2 L) as (_ & B2 & C2 & _).
  destruct (N.leb_spec (64 + len (garbage_bytes g)) (len out2)) as [L2|L2]; [eexists _, _; apply C2; assumption|]. apply B2; assumption.
Qed.
Print Assumptions C99_required_key.

Theorem C99_required_version : forall (E : Env) (EL : EnvLaws E) h d out n out',
  len (terminator (session_keys (hs_state h)) (hs_role h)) = 16 ->
  send_version h out d = Ret (Err (BufferTooSmall n), out') ->
  n = send_version_len d /\ forall out2 r out2', n <= len out2 -> send_version h out2 d = Ret (r, out2') -> exists h', r = Ok h'.
Proof.
  intros E EL h d out n out' T H. rewrite C21_send_version_len.
  destruct (N.lt_ge_cases (len out) (36 + decoys_len (decoy_list d))) as [Lo|Lo].
  2:{ rewrite send_version_eq in H by assumption. apply bind_ret_inv in H. destruct H as ([ps oc] & _ & H). discriminate H. }
  rewrite C21_send_version_small in H by exact Lo.
  assert (n = 36 + decoys_len (decoy_list d)) as -> by congruence. split; [reflexivity|]. intros out2 r out2' L H2.
  rewrite send_version_eq in H2 by assumption. apply bind_ret_inv in H2. destruct H2 as ([ps oc] & _ & H2).
  injection H2 as <- _. eauto.
Qed.
Print Assumptions C99_required_version.

(** The numbers in a text, with the word after each: what a reader of it sees.  No counterpart in the repo. *)
Fixpoint numbers_from (s : string) (here : option N) : list (N * string) :=
  match s with
  | EmptyString => match here with Some n => [(n, EmptyString)] | None => [] end
  | String a s' =>
    let d := N_of_ascii a in
    if (48 <=? d) && (d <=? 57) then numbers_from s' (Some (10 * match here with Some n => n | None => 0 end + (d - 48)))
    else match here with Some n => [(n, String.substring 0 6 s)] | None => [] end ++ numbers_from s' None
  end.

(** The numbers the texts give, which are those of [C99_garbage], [C99_own_garbage] and [C99_4MiB_refuted]. *)
Theorem C99_numbers : forall f,
  numbers_from (show_error f NoGarbageTerminator) None = [(4095, " bytes")%string] /\
  numbers_from (show_error f TooMuchGarbage) None = [(4095, " bytes")%string] /\
  numbers_from (show_error f PacketTooBig) None = [(4, "MiB si")%string] /\
  numbers_from (show_error f CiphertextTooSmall) None = [] /\
  numbers_from (show_error f V1Protocol) None = [(1, " proto")%string] /\
  numbers_from (show_error f (BufferTooSmall 1234567)) None = [(1234567, " bytes")%string] /\
  (forall k, numbers_from (show_protocol f "" (Io k RetryV1)) None = [(1, " proto")%string]) /\
  (forall k, numbers_from (show_protocol f "" (Io k Abort)) None = []).
Proof. intros f. repeat split. Qed.
Print Assumptions C99_numbers.

(** The 4095 bytes of garbage of the two texts are meant. *)
Theorem C99_garbage : forall h buf, len (remote_garbage_terminator (hs_state h)) = 16 ->
  receive_garbage h buf = Ret (Err NoGarbageTerminator) ->
  4095 < len buf /\ forall i, i <= 4095 -> ~ occurs_at (remote_garbage_terminator (hs_state h)) buf i.
Proof.
  intros h buf T H. destruct (C22_garbage_exact h buf _ T H) as (_ & Q & _). destruct (proj1 Q eq_refl) as [A B]. split; [lia|exact A].
Qed.
Print Assumptions C99_garbage.

Theorem C99_own_garbage : forall h g out r out', len (elligator_swift (in_point (hs_state h))) = 64 ->
  send_key h g out = Ret (r, out') -> (r = Err TooMuchGarbage <-> 4095 < len (garbage_bytes g)).
Proof.
  intros h g out r out' L H. destruct (C17_send_key h g out L) as (A & B & C & D).
  destruct (N.lt_ge_cases 4095 (len (garbage_bytes g))) as [Lg|Lg].
  { rewrite A in H by exact Lg. split; [intros _; exact Lg|intros _; congruence]. }
  split; [|lia]. intros ->. exfalso.
  destruct (N.lt_ge_cases (len out) (64 + len (garbage_bytes g))) as [Lo|Lo]; [rewrite B in H by assumption|rewrite C in H by assumption]; discriminate H.
Qed.
Print Assumptions C99_own_garbage.

(** The 4 MiB of the third are not: the limit is below, and without overflow checks the same is said of almost nothing. *)
Theorem C99_4MiB_refuted :
  ~ forall (E : Env) (EL : EnvLaws E) c ct aad c', 16 <= len ct -> decrypt_to_vec c ct aad = Ret (Err PacketTooBig, c') -> 4 * 2 ^ 20 < len ct.
Proof.
  intros H. pose proof (H (toy true) (toy_laws true) (outbound (session_new km Initiator)) (zeros 4000031) None) as Q.
  rewrite len_zeros in Q. specialize (Q (outbound (session_new km Initiator)) ltac:(lia)).
  enough (4 * 2 ^ 20 < 4000031) by (cbn in *; lia). apply Q. apply decrypt_to_vec_too_big. rewrite len_zeros. lia.
Qed.
Print Assumptions C99_4MiB_refuted.

Theorem C99_big_refuted :
  ~ forall (E : Env) (EL : EnvLaws E) c ct aad c', decrypt_to_vec c ct aad = Ret (Err PacketTooBig, c') -> 16 <= len ct.
Proof.
  intros H. pose proof (H (toy false) (toy_laws false) (outbound (session_new km Initiator)) [] None (outbound (session_new km Initiator))) as Q.
  enough (16 <= 0) by lia. apply Q. exact (C12_vec_short (toy false) _ [] None ltac:(reflexivity)).
Qed.
Print Assumptions C99_big_refuted.

Lemma length_append a b : String.length (a ++ b)%string = (String.length a + String.length b)%nat.
Proof. induction a as [|x a IH]; [reflexivity|]. cbn. now rewrite IH. Qed.

(** Every error prints the text of the one it comes from inside its own, except the library's [Error]: that one prints how a
    programmer would write its source, not what the source says of itself. *)
Theorem C99_text_of_source : forall f io e s, source e = Some s ->
  match e with
  | AnyError _ => exists a b, show_any f io e = (a ++ match s with AnySecret x => debug_secret f x | _ => debug_cipher f end ++ b)%string
  | _ => exists a b, show_any f io e = (a ++ show_any f io s ++ b)%string
  end.
Proof.
  intros f io e s H. destruct e as [[k sg|e]|e|e| |k| | |]; cbn [source] in H; try discriminate H.
  - injection H as <-. exists "IO error: "%string. eexists. reflexivity.
  - injection H as <-. exists "Internal error: "%string. eexists. reflexivity.
  - destruct e; try discriminate H; injection H as <-.
    + exists "Cannot generate secrets: "%string, "."%string. reflexivity.
    + exists "Decryption error: "%string, "."%string. reflexivity.
  - destruct e; injection H as <-.
    + exists "Cannot generate materials: "%string, "."%string. reflexivity.
    + exists "Cannot expand key: "%string, "."%string. reflexivity.
  - injection H as <-. exists "Unable to dycrypt: "%string, "."%string. reflexivity.
Qed.
Print Assumptions C99_text_of_source.

Theorem C99_source_shown_refuted :
  ~ forall f io e s, source e = Some s -> exists a b, show_any f io e = (a ++ show_any f io s ++ b)%string.
Proof.
  intros H. destruct (H (Foreign "" "" "" "" "the tag does not match" "") ""%string (AnyError Decryption) AnyCipher eq_refl) as (a & b & Q).
  apply (f_equal String.length) in Q. rewrite !length_append in Q. cbn in Q. lia.
Qed.
Print Assumptions C99_source_shown_refuted.

(** The text of every internal error ends with two full stops. *)
Theorem C99_one_stop_refuted :
  ~ exists f io e s, show_protocol f io (Internal e) = (s ++ ".")%string /\ forall s', s <> (s' ++ ".")%string.
Proof.
  intros (f & io & e & s & H & D).
  assert (K : exists t, show_error f e = (t ++ ".")%string).
  { assert (backwards (show_error f e) = "."%char :: tl (backwards (show_error f e))) as B.
    { destruct e as [|n| | | | |x|]; unfold show_error; rewrite ?backwards_app; try reflexivity. }
    exists (string_of_list_ascii (List.rev (tl (backwards (show_error f e))))). apply backwards_inj. rewrite backwards_app.
    unfold backwards at 3. rewrite list_ascii_of_string_of_list_ascii, rev_involutive. exact B. }
  destruct K as [t K]. apply (D ("Internal error: " ++ t)%string).
  apply backwards_inj. apply (f_equal backwards) in H. unfold show_protocol in H. rewrite K, !backwards_app in H.
  rewrite !backwards_app. injection H as H. rewrite <- H. now rewrite app_assoc.
Qed.
Print Assumptions C99_one_stop_refuted.

Example C99_example :
  let f := Foreign "secp256k1 failed" "InvalidTweak" "too long" "MaxLengthError" "tag mismatch" "UnauthenticatedAdditionalData" in
  show_error f (BufferTooSmall 4159) = "Buffer memory allocation too small, need at least 4159 bytes."%string /\
  show_protocol f "connection reset" (from_io ConnectionReset) = "IO error: connection reset. Suggestion: Retry with V1 protocol."%string /\
  show_protocol f "timed out" (from_io (OtherKind 60)) = "IO error: timed out. Suggestion: Abort, do not retry."%string /\
  map (show_any f "") (sources 4 (AnyProtocol (Internal Decryption))) =
    ["Decryption error: Decryption(UnauthenticatedAdditionalData)."; "Unable to dycrypt: tag mismatch."; "tag mismatch"]%string /\
  map (show_any f "") (sources 4 (AnyProtocol (Internal (SecretGeneration Expansion)))) =
    ["Cannot generate secrets: Expansion(MaxLengthError)."; "Cannot expand key: too long."; "too long"]%string /\
  show_any f "" (AnySecret MaterialsGeneration) = "Cannot generate materials: secp256k1 failed."%string /\
  show_protocol f "" (Internal V1Protocol) = "Internal error: The remote peer is communicating on the V1 protocol.."%string.
Proof. repeat split. Qed.
