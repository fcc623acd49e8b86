(** * SpecErrorLists: the lists of errors in the documentation, and the errors that occur *)
From Coq Require Import List NArith.
From Verif Require Import Base Env Cipher Handshake Transport Io SpecIo Futures Sessions.
Import ListNotations.
Local Open Scope N_scope.

(** The variants of [Error], lib.rs:176-196, and [ProtocolError::Io], io.rs:168-174, without what they contain. *)
Inductive kind :=
| KIo | KCiphertextTooSmall | KBufferTooSmall | KPacketTooBig | KTooMuchGarbage | KNoGarbageTerminator | KV1Protocol
| KSecretGeneration | KDecryption.

(** As above. *)
Definition kind_of (x : error) : kind :=
  match x with
  | CiphertextTooSmall => KCiphertextTooSmall
  | BufferTooSmall _ => KBufferTooSmall
  | PacketTooBig => KPacketTooBig
  | TooMuchGarbage => KTooMuchGarbage
  | NoGarbageTerminator => KNoGarbageTerminator
  | V1Protocol => KV1Protocol
  | SecretGeneration _ => KSecretGeneration
  | Decryption => KDecryption
  end.

(** As above; an [Internal] error is the one inside. *)
Definition pkind_of (x : perror) : kind := match x with Io _ _ => KIo | Internal y => kind_of y end.

(** The functions that return a [Result]: handshake.rs:168-581, lib.rs:324-657, and those of io.rs and futures.rs. *)
Inductive api :=
| ASendKey | AReceiveKey | ASendVersion | AReceiveGarbage | AReceiveVersion
| AFromEcdh | ADecryptInPlace | ADecrypt | ADecryptToVec | AEncrypt
| AHandshake (fl : flavor) | ARead | AReadAsync | AWrite | AWriteAsync.

(** The sections "# Errors" of the documentation: handshake.rs:164-167, 224-227, 311-314, 401-404, 521-524,
    lib.rs:321-323, 481-484, 518-522, 564-568, 612-615, io.rs:277-279 and futures.rs:148-150.  Reading and writing
    have none. *)
Definition documented (a : api) : option (list kind) :=
  match a with
  | ASendKey => Some [KTooMuchGarbage; KBufferTooSmall]
  | AReceiveKey => Some [KV1Protocol; KSecretGeneration]
  | ASendVersion => Some [KBufferTooSmall; KDecryption]
  | AReceiveGarbage => Some [KNoGarbageTerminator]
  | AReceiveVersion => Some [KDecryption; KCiphertextTooSmall]
  | AFromEcdh => Some [KSecretGeneration]
  | ADecryptInPlace => Some [KCiphertextTooSmall; KDecryption]
  | ADecrypt => Some [KCiphertextTooSmall; KBufferTooSmall; KDecryption]
  | ADecryptToVec => Some [KCiphertextTooSmall; KPacketTooBig; KDecryption]
  | AEncrypt => Some [KBufferTooSmall]
  | AHandshake _ => Some [KIo]
  | ARead | AReadAsync | AWrite | AWriteAsync => None
  end.

(** The errors that occur, function by function as above. *)
Definition occurring (a : api) : list kind :=
  match a with
  | ASendKey => [KTooMuchGarbage; KBufferTooSmall]
  | AReceiveKey => [KV1Protocol]
  | ASendVersion => [KBufferTooSmall]
  | AReceiveGarbage => [KNoGarbageTerminator]
  | AReceiveVersion => [KDecryption; KCiphertextTooSmall]
  | AFromEcdh => []
  | ADecryptInPlace => [KCiphertextTooSmall; KDecryption]
  | ADecrypt => [KCiphertextTooSmall; KBufferTooSmall; KDecryption]
  | ADecryptToVec => [KCiphertextTooSmall; KPacketTooBig; KDecryption]
  | AEncrypt => [KBufferTooSmall]
  | AHandshake _ =>
      [KIo; KSecretGeneration; KTooMuchGarbage; KV1Protocol; KNoGarbageTerminator; KPacketTooBig; KDecryption]
  | ARead => [KIo; KPacketTooBig; KDecryption]
  | AReadAsync => [KIo; KDecryption]
  | AWrite | AWriteAsync => [KIo]
  end.

(** Some call of the function returns an error of this kind, from any state, with any arguments of the sizes the types
    prescribe; an asynchronous read in any poll after any polls and cancellations.  As above. *)
Definition gives {E : Env} (a : api) (k : kind) : Prop :=
  match a with
  | ASendKey => exists h g out x b, send_key h g out = Ret (Err x, b) /\ k = kind_of x
  | AReceiveKey => exists h their x, len (hs_magic h) = 4 /\ len their = 64 /\ receive_key h their = Ret (Err x) /\ k = kind_of x
  | ASendVersion => exists h out d x b, send_version h out d = Ret (Err x, b) /\ k = kind_of x
  | AReceiveGarbage => exists h buf x, receive_garbage h buf = Ret (Err x) /\ k = kind_of x
  | AReceiveVersion => exists h buf x b, receive_version h buf = Ret (Err x, b) /\ k = kind_of x
  | AFromEcdh => exists a b sk p magic x, len magic = 4 /\ from_ecdh a b sk p magic = Ret (Err x) /\ k = kind_of x
  | ADecryptInPlace => exists c ct aad x c' b, decrypt_in_place c ct aad = Ret (Err x, c', b) /\ k = kind_of x
  | ADecrypt => exists c ct buf aad x c' b, decrypt c ct buf aad = Ret (Err x, c', b) /\ k = kind_of x
  | ADecryptToVec => exists c ct aad x c', decrypt_to_vec c ct aad = Ret (Err x, c') /\ k = kind_of x
  | AEncrypt => exists c pt buf t aad x c' b, encrypt c pt buf t aad = Ret (Err x, c', b) /\ k = kind_of x
  | AHandshake fl => exists magic r sk g d s w o x, len magic = 4 /\
      io_handshake fl magic r sk g d s w = Ret o /\ ho_result o = Err x /\ k = pkind_of x
  | ARead => exists r x r' a, sync_read r = Ret (Err x, r', a) /\ k = pkind_of x
  | AReadAsync => exists acts c sr xs r f x r' f',
      run_schedule acts FreshFuture (TReader c sr init_reading_length) = Ret (xs, r, f) /\
      poll_read f r = Ret (Ready (Err x), r', f') /\ k = pkind_of x
  | AWrite => exists p pl x p', sync_write p pl = Ret (Err x, p') /\ k = pkind_of x
  | AWriteAsync => exists p pl x p', tokio_write p pl = Ret (Err x, p') /\ k = pkind_of x
  end.
