(** * NoFuel: the functions without loop bound never give [NoFuel] *)
From Coq Require Import List NArith Bool Lia.
From Coq.Strings Require Import Byte.
From Verif Require Import Base Env FsChacha Cipher Handshake Transport Io.
Import ListNotations.
Local Open Scope N_scope.

Definition fueled {A} (m : run A) : Prop := m <> NoFuel.

Lemma fueled_ret {A} (a : A) : fueled (Ret a). Proof. discriminate. Qed.
Lemma fueled_panic {A} : fueled (@Panic A). Proof. discriminate. Qed.
Lemma fueled_bind {A B} (m : run A) (f : A -> run B) :
  fueled m -> (forall a, fueled (f a)) -> fueled (bind m f).
Proof. intros H1 H2. destruct m; cbn; [apply H2|discriminate|contradiction]. Qed.

Create HintDb fuel.
#[export] Hint Resolve fueled_ret fueled_panic : fuel.

Ltac fuel_step :=
  match goal with
  | |- fueled (bind _ _) => apply fueled_bind; [|intros]
  | |- fueled (match ?x with _ => _ end) => destruct x
  | |- fueled (let '_ := ?x in _) => destruct x
  | |- fueled ((fun _ => _) _) => cbv beta
  | |- _ => solve [eauto with fuel nocore]
  end.
Ltac fuel := repeat fuel_step.

Lemma fueled_index s i : fueled (index s i). Proof. unfold index. fuel. Qed.
Lemma fueled_set_index s i v : fueled (set_index s i v). Proof. unfold set_index. fuel. Qed.
Lemma fueled_slice s a b : fueled (slice s a b). Proof. unfold slice. fuel. Qed.
Lemma fueled_splice s a b c : fueled (splice s a b c). Proof. unfold splice. fuel. Qed.
Lemma fueled_split_at s n : fueled (split_at s n). Proof. unfold split_at. fuel. Qed.
Lemma fueled_add c w a b : fueled (add_w c w a b). Proof. unfold add_w. fuel. Qed.
Lemma fueled_sub c w a b : fueled (sub_w c w a b). Proof. unfold sub_w. fuel. Qed.
#[export] Hint Resolve fueled_index fueled_set_index fueled_slice fueled_splice fueled_split_at
  fueled_add fueled_sub : fuel.

Section WithEnv.
Context {E : Env}.

Lemma fueled_fp_rekey s a : fueled (fp_rekey s a). Proof. unfold fp_rekey. fuel. Qed.
Hint Resolve fueled_fp_rekey : fuel.
Lemma fueled_fp_encrypt s a c : fueled (fp_encrypt s a c). Proof. unfold fp_encrypt. fuel. Qed.
Lemma fueled_fp_decrypt s a c t : fueled (fp_decrypt s a c t). Proof. unfold fp_decrypt. fuel. Qed.
Lemma fueled_fc_crypt s c : fueled (fc_crypt s c). Proof. unfold fc_crypt. fuel. Qed.
Hint Resolve fueled_fp_encrypt fueled_fp_decrypt fueled_fc_crypt : fuel.

Lemma fueled_decrypt_packet_len c b : fueled (decrypt_packet_len c b).
Proof. unfold decrypt_packet_len. fuel. Qed.
Lemma fueled_decrypt_in_place c b a : fueled (decrypt_in_place c b a).
Proof. unfold decrypt_in_place. fuel. Qed.
Lemma fueled_decrypt c b o a : fueled (decrypt c b o a).
Proof. unfold decrypt. fuel. Qed.
Lemma fueled_buffer_len n : fueled (decryption_buffer_len n).
Proof. unfold decryption_buffer_len. fuel. Qed.
Hint Resolve fueled_decrypt_packet_len fueled_decrypt_in_place fueled_decrypt fueled_buffer_len : fuel.
Lemma fueled_decrypt_to_vec c b a : fueled (decrypt_to_vec c b a).
Proof. unfold decrypt_to_vec. fuel. Qed.
Lemma fueled_encrypt c p b t a : fueled (encrypt c p b t a).
Proof. unfold encrypt. fuel. Qed.
Hint Resolve fueled_decrypt_to_vec fueled_encrypt : fuel.
Lemma fueled_encrypt_to_vec c p t a : fueled (encrypt_to_vec c p t a).
Proof. unfold encrypt_to_vec. fuel. Qed.
Lemma fueled_from_ecdh a b s p m : fueled (from_ecdh a b s p m).
Proof. unfold from_ecdh, expand32. fuel. Qed.
Hint Resolve fueled_encrypt_to_vec fueled_from_ecdh : fuel.

Lemma fueled_hs_new m r rnd : fueled (hs_new m r rnd). Proof. unfold hs_new. fuel. Qed.
Lemma fueled_send_key h g o : fueled (send_key h g o). Proof. unfold send_key. fuel. Qed.
Lemma fueled_receive_key h k : fueled (receive_key h k). Proof. unfold receive_key. fuel. Qed.
Lemma fueled_encrypt_into c o a n p t d : fueled (encrypt_into c o a n p t d).
Proof. unfold encrypt_into. fuel. Qed.
Hint Resolve fueled_hs_new fueled_send_key fueled_receive_key fueled_encrypt_into : fuel.
Lemma fueled_send_decoys ds : forall c o w a, fueled (send_decoys ds c o w a).
Proof. induction ds; intros; cbn [send_decoys]; fuel. Qed.
Hint Resolve fueled_send_decoys : fuel.
Lemma fueled_send_version h o d : fueled (send_version h o d). Proof. unfold send_version. fuel. Qed.
Lemma fueled_receive_garbage h b : fueled (receive_garbage h b).
Proof. unfold receive_garbage, split_garbage. fuel. Qed.
Lemma fueled_hs_packet_len h b : fueled (hs_decrypt_packet_len h b).
Proof. unfold hs_decrypt_packet_len. fuel. Qed.
Lemma fueled_receive_version h b : fueled (receive_version h b).
Proof. unfold receive_version. fuel. Qed.

Lemma fueled_payload_decrypted d : fueled (payload_decrypted d).
Proof. unfold payload_decrypted. fuel. Qed.
Lemma fueled_payload_contents p : fueled (payload_contents p).
Proof. unfold payload_contents. fuel. Qed.
Lemma fueled_payload_type p : fueled (payload_type p).
Proof. unfold payload_type. fuel. Qed.
Hint Resolve fueled_payload_decrypted fueled_payload_contents fueled_payload_type : fuel.
Lemma fueled_sync_read r : fueled (sync_read r). Proof. unfold sync_read. fuel. Qed.
Lemma fueled_sync_write p l : fueled (sync_write p l). Proof. unfold sync_write. fuel. Qed.
Lemma fueled_tokio_write p l : fueled (tokio_write p l). Proof. unfold tokio_write. fuel. Qed.

End WithEnv.

#[export] Hint Resolve fueled_hs_new fueled_send_key fueled_receive_key fueled_send_version
  fueled_receive_garbage fueled_hs_packet_len fueled_receive_version fueled_decrypt_packet_len
  fueled_decrypt_to_vec fueled_decrypt fueled_encrypt fueled_encrypt_to_vec fueled_buffer_len
  fueled_payload_decrypted fueled_payload_contents fueled_payload_type fueled_sync_read
  fueled_sync_write fueled_tokio_write : fuel.
