(** * Rfc: the real primitives, as a concrete environment

    ChaCha20 and Poly1305 (RFC 8439), SHA-256 (FIPS 180-4), HMAC (RFC 2104), HKDF (RFC 5869), secp256k1 (SEC 2) and
    ElligatorSwift (BIP-324), written from their specifications; the crates that implement them are not part of /repo.
    It shows that the hypotheses of the theorems hold of the primitives meant, and it lets Vectors.v run the model. *)
From Coq.Strings Require Import Byte String.
From Coq Require Import List NArith Bool Lia ZArith.
From Coq Require Import ZifyBool ZifyNat ZifyN.
From Verif Require Import Base BaseFacts Env.
Import ListNotations.
Local Open Scope N_scope.

(** ** 32-bit words *)

Definition mask32 (n : N) : N := N.land n 4294967295.
Definition add32 (a b : N) : N := mask32 (a + b).
Definition rotl32 (a n : N) : N := N.lor (mask32 (N.shiftl a n)) (N.shiftr a (32 - n)).
Definition rotr32 (a n : N) : N := rotl32 a (32 - n).
Definition word (l : list N) (i : nat) : N := nth i l 0.
(** The [i]th little-endian word of a byte string. *)
Definition word_at (i : N) (bs : bytes) : N := le_val (take 4 (drop (4 * i) bs)).

(** ** ChaCha20, RFC 8439 section 2.1-2.4 *)

Definition quarter (x : N * N * N * N) : N * N * N * N :=
  let '(a, b, c, d) := x in
  let a := add32 a b in let d := rotl32 (N.lxor d a) 16 in
  let c := add32 c d in let b := rotl32 (N.lxor b c) 12 in
  let a := add32 a b in let d := rotl32 (N.lxor d a) 8 in
  let c := add32 c d in let b := rotl32 (N.lxor b c) 7 in
  (a, b, c, d).

(** A state is a 4 by 4 matrix, here four rows. *)
Definition row := (N * N * N * N)%type.
Definition quarters (m : row * row * row * row) : row * row * row * row :=
  let '((a0, a1, a2, a3), (b0, b1, b2, b3), (c0, c1, c2, c3), (d0, d1, d2, d3)) := m in
  let '(a0, b0, c0, d0) := quarter (a0, b0, c0, d0) in
  let '(a1, b1, c1, d1) := quarter (a1, b1, c1, d1) in
  let '(a2, b2, c2, d2) := quarter (a2, b2, c2, d2) in
  let '(a3, b3, c3, d3) := quarter (a3, b3, c3, d3) in
  ((a0, a1, a2, a3), (b0, b1, b2, b3), (c0, c1, c2, c3), (d0, d1, d2, d3)).
Definition left1 (r : row) : row := let '(a, b, c, d) := r in (b, c, d, a).
Definition left2 (r : row) : row := left1 (left1 r).
Definition left3 (r : row) : row := left1 (left2 r).
(** A column round and a diagonal round. *)
Definition double_round (m : row * row * row * row) : row * row * row * row :=
  let '(a, b, c, d) := quarters m in
  let '(a, b, c, d) := quarters (a, left1 b, left2 c, left3 d) in
  (a, left3 b, left2 c, left1 d).
Definition add_row (x y : row) : row :=
  let '(a, b, c, d) := x in let '(a', b', c', d') := y in (add32 a a', add32 b b', add32 c c', add32 d d').
Definition row_bytes (r : row) : bytes :=
  let '(a, b, c, d) := r in le_bytes 4 a ++ le_bytes 4 b ++ le_bytes 4 c ++ le_bytes 4 d.

Definition chacha_block (key nonce : bytes) (counter : N) : bytes :=
  let k i := word_at i key in
  let m := ((1634760805, 857760878, 2036477234, 1797285236), (k 0, k 1, k 2, k 3), (k 4, k 5, k 6, k 7),
            (mask32 counter, word_at 0 nonce, word_at 1 nonce, word_at 2 nonce)) in
  let '(a, b, c, d) := m in
  let '(a', b', c', d') := Nat.iter 10 double_round m in
  row_bytes (add_row a a') ++ row_bytes (add_row b b') ++ row_bytes (add_row c c') ++ row_bytes (add_row d d').

(** [n] blocks from block [counter] on. *)
Fixpoint chacha_blocks (key nonce : bytes) (counter : N) (n : nat) : bytes :=
  match n with O => [] | S n => chacha_block key nonce counter ++ chacha_blocks key nonce (counter + 1) n end.

Definition chacha_stream (key nonce : bytes) (off n : N) : bytes :=
  take n (drop (off mod 64) (chacha_blocks key nonce (off / 64) (N.to_nat ((off mod 64 + n + 63) / 64)))).

(** ** Poly1305, RFC 8439 section 2.5-2.8 *)

Definition poly_p : N := 2 ^ 130 - 5.

Fixpoint poly_blocks (fuel : nat) (r acc : N) (msg : bytes) : N :=
  match fuel, msg with
  | S fuel, _ :: _ =>
    let blk := take 16 msg in
    poly_blocks fuel r (((acc + le_val blk + 2 ^ (8 * len blk)) * r) mod poly_p) (drop 16 msg)
  | _, _ => acc
  end.

Definition poly1305 (key msg : bytes) : bytes :=
  let r := N.land (le_val (take 16 key)) 21267647620597763993911028882763415551 in
  let s := le_val (take 16 (drop 16 key)) in
  le_bytes 16 (poly_blocks (length msg) r 0 msg + s).

Definition pad16 (bs : bytes) : bytes := zeros ((16 - len bs mod 16) mod 16).

Definition aead_mac (key nonce aad ct : bytes) : bytes :=
  poly1305 (chacha_stream key nonce 0 32)
           (aad ++ pad16 aad ++ ct ++ pad16 ct ++ le_bytes 8 (len aad) ++ le_bytes 8 (len ct)).

(** ** SHA-256, FIPS 180-4 *)

Definition sha_k : list N :=
  [1116352408; 1899447441; 3049323471; 3921009573; 961987163; 1508970993; 2453635748; 2870763221;
   3624381080; 310598401; 607225278; 1426881987; 1925078388; 2162078206; 2614888103; 3248222580;
   3835390401; 4022224774; 264347078; 604807628; 770255983; 1249150122; 1555081692; 1996064986;
   2554220882; 2821834349; 2952996808; 3210313671; 3336571891; 3584528711; 113926993; 338241895;
   666307205; 773529912; 1294757372; 1396182291; 1695183700; 1986661051; 2177026350; 2456956037;
   2730485921; 2820302411; 3259730800; 3345764771; 3516065817; 3600352804; 4094571909; 275423344;
   430227734; 506948616; 659060556; 883997877; 958139571; 1322822218; 1537002063; 1747873779;
   1955562222; 2024104815; 2227730452; 2361852424; 2428436474; 2756734187; 3204031479; 3329325298].

Definition sha_init : list N :=
  [1779033703; 3144134277; 1013904242; 2773480762; 1359893119; 2600822924; 528734635; 1541459225].

Definition be_val (bs : bytes) : N := le_val (rev bs).
Definition be_bytes (w : nat) (n : N) : bytes := rev (le_bytes w n).

Fixpoint be_words (n : nat) (bs : bytes) : list N :=
  match n with O => [] | S n => be_val (take 4 bs) :: be_words n (drop 4 bs) end.

Definition xor3 (a b c : N) : N := N.lxor a (N.lxor b c).

(** The message schedule, newest word first. *)
Fixpoint sha_schedule (n : nat) (rw : list N) : list N :=
  match n with
  | O => rw
  | S n =>
    let w2 := word rw 1 in let w15 := word rw 14 in
    let s0 := xor3 (rotr32 w15 7) (rotr32 w15 18) (N.shiftr w15 3) in
    let s1 := xor3 (rotr32 w2 17) (rotr32 w2 19) (N.shiftr w2 10) in
    sha_schedule n (mask32 (word rw 15 + s0 + word rw 6 + s1) :: rw)
  end.

Definition sha_round (st : list N) (kw : N * N) : list N :=
  match st with
  | [a; b; c; d; e; f; g; h] =>
    let s1 := xor3 (rotr32 e 6) (rotr32 e 11) (rotr32 e 25) in
    let ch := N.lxor (N.land e f) (N.land (N.lxor e 4294967295) g) in
    let t1 := h + s1 + ch + fst kw + snd kw in
    let s0 := xor3 (rotr32 a 2) (rotr32 a 13) (rotr32 a 22) in
    let maj := xor3 (N.land a b) (N.land a c) (N.land b c) in
    [mask32 (t1 + s0 + maj); a; b; c; mask32 (d + t1); e; f; g]
  | _ => st
  end.

Definition add_words (a b : list N) : list N := map (fun p => add32 (fst p) (snd p)) (combine a b).

Definition sha_compress (st : list N) (blk : bytes) : list N :=
  let ws := rev (sha_schedule 48 (rev (be_words 16 blk))) in
  add_words st (fold_left sha_round (combine sha_k ws) st).

Fixpoint sha_blocks (fuel : nat) (st : list N) (msg : bytes) : list N :=
  match fuel, msg with
  | S fuel, _ :: _ => sha_blocks fuel (sha_compress st (take 64 msg)) (drop 64 msg)
  | _, _ => st
  end.

Definition sha256 (msg : bytes) : bytes :=
  let padded := msg ++ x80 :: zeros ((119 - len msg mod 64) mod 64) ++ be_bytes 8 (8 * len msg) in
  concat (map (be_bytes 4) (sha_blocks (length padded) sha_init padded)).

(** ** HMAC and HKDF *)

Definition hmac (key msg : bytes) : bytes :=
  let key := if 64 <? len key then sha256 key else key in
  let key := key ++ zeros (64 - len key) in
  let pad b := map (bxor b) key in
  sha256 (pad x5c ++ sha256 (pad x36 ++ msg)).

Definition rfc_extract (salt ikm : bytes) : bytes := hmac salt ikm.

Fixpoint expand_blocks (n : nat) (prk info prev : bytes) (i : N) : bytes :=
  match n with
  | O => []
  | S n => let t := hmac prk (prev ++ info ++ [byte_of_N i]) in t ++ expand_blocks n prk info t (i + 1)
  end.

Definition rfc_expand (prk info : bytes) (n : N) : option bytes :=
  if n <=? 255 * 32 then Some (take n (expand_blocks (N.to_nat ((n + 31) / 32)) prk info [] 1)) else None.

(** ** secp256k1 *)

Definition field_p : N := 2 ^ 256 - 2 ^ 32 - 977.
Definition order_n : N := 115792089237316195423570985008687907852837564279074904382605163141518161494337.

(** Reduction: 2^256 is 2^32 + 977 modulo p. *)
Definition fold_p (x : N) : N := N.land x (2 ^ 256 - 1) + N.shiftr x 256 * 4294968273.
Definition reduce (x : N) : N := let y := fold_p (fold_p (fold_p x)) in if field_p <=? y then y - field_p else y.
Definition fadd (a b : N) : N := let s := a + b in if field_p <=? s then s - field_p else s.
Definition fneg (a : N) : N := if a =? 0 then 0 else field_p - a.
Definition fsub (a b : N) : N := fadd a (fneg b).
Definition fmul (a b : N) : N := reduce (a * b).
Definition fsq (a : N) : N := fmul a a.

Fixpoint fpow_pos (a : N) (e : positive) : N :=
  match e with
  | xH => a
  | xO e => fsq (fpow_pos a e)
  | xI e => fmul a (fsq (fpow_pos a e))
  end.
Definition fpow (a e : N) : N := match e with 0 => 1 | N.pos e => fpow_pos a e end.
Definition finv (a : N) : N := fpow a (field_p - 2).
Definition fdiv (a b : N) : N := fmul a (finv b).
Definition fsqrt (a : N) : option N :=
  let r := fpow a ((field_p + 1) / 4) in if fsq r =? a then Some r else None.
Definition is_square (a : N) : bool := match fsqrt a with Some _ => true | None => false end.

(** The right side of the curve equation. *)
Definition curve (x : N) : N := fadd (fmul (fsq x) x) 7.

(** Points in Jacobian coordinates; [Z = 0] is the point at infinity. *)
Definition point := (N * N * N)%type.
Definition infinity : point := (0, 1, 0).

Definition double (pt : point) : point :=
  let '(x, y, z) := pt in
  if (z =? 0) || (y =? 0) then infinity else
  let yy := fsq y in
  let s := fmul 4 (fmul x yy) in
  let m := fmul 3 (fsq x) in
  let x' := fsub (fsq m) (fadd s s) in
  (x', fsub (fmul m (fsub s x')) (fmul 8 (fsq yy)), fmul 2 (fmul y z)).

Definition add (p1 p2 : point) : point :=
  let '(x1, y1, z1) := p1 in
  let '(x2, y2, z2) := p2 in
  if z1 =? 0 then p2 else if z2 =? 0 then p1 else
  let zz1 := fsq z1 in let zz2 := fsq z2 in
  let u1 := fmul x1 zz2 in let u2 := fmul x2 zz1 in
  let s1 := fmul y1 (fmul zz2 z2) in let s2 := fmul y2 (fmul zz1 z1) in
  if u1 =? u2 then (if s1 =? s2 then double p1 else infinity) else
  let h := fsub u2 u1 in let r := fsub s2 s1 in
  let hh := fsq h in let hhh := fmul h hh in let v := fmul u1 hh in
  let x3 := fsub (fsub (fsq r) hhh) (fadd v v) in
  (x3, fsub (fmul r (fsub v x3)) (fmul s1 hhh), fmul h (fmul z1 z2)).

Fixpoint mult_pos (k : positive) (pt : point) : point :=
  match k with
  | xH => pt
  | xO k => double (mult_pos k pt)
  | xI k => add pt (double (mult_pos k pt))
  end.
Definition mult (k : N) (pt : point) : point := match k with 0 => infinity | N.pos k => mult_pos k pt end.

(** The affine x coordinate. *)
Definition x_of (pt : point) : N := let '(x, _, z) := pt in fmul x (finv (fsq z)).

Definition generator : point :=
  (55066263022277343669578718895168534326250603453777594175500187360389116729240,
   32670510020758816978083085130507043184471273380659243275938904335757337482424, 1).

(** Some point with this x coordinate; which of the two does not matter for x-only use. *)
Definition lift_x (x : N) : point := match fsqrt (curve x) with Some y => (x, y, 1) | None => infinity end.

Definition sk_in_range (sk : bytes) : bool :=
  let k := be_val sk in (len sk =? 32) && negb (k =? 0) && (k <? order_n).

(** ** ElligatorSwift, BIP-324 *)

Definition minus_3_sqrt : N := fpow (field_p - 3) ((field_p + 1) / 4).

(** [XSwiftEC(u, t)]. *)
Definition xswiftec (u t : N) : N :=
  let u := if u =? 0 then 1 else u in
  let t := if t =? 0 then 1 else t in
  let t := if fadd (curve u) (fsq t) =? 0 then fadd t t else t in
  let x := fdiv (fsub (curve u) (fsq t)) (fadd t t) in
  let y := fdiv (fadd x t) (fmul minus_3_sqrt u) in
  let x1 := fadd u (fmul 4 (fsq y)) in
  if is_square (curve x1) then x1 else
  let xy := fdiv x y in
  let half a := fdiv a 2 in
  let x2 := half (fsub (fneg xy) u) in
  if is_square (curve x2) then x2 else half (fsub xy u).

(** [XSwiftECInv(x, u, case)]: a [t] with [xswiftec u t = x], if this case has one. *)
Definition xswiftec_inv (x u c : N) : option N :=
  let half a := fdiv a 2 in
  let sv :=
    if N.land c 2 =? 0 then
      if is_square (curve (fneg (fadd x u))) then None
      else Some (fdiv (fneg (curve u)) (fadd (fadd (fsq u) (fmul u x)) (fsq x)), x)
    else
      let s := fsub x u in
      if s =? 0 then None else
      match fsqrt (fneg (fmul s (fadd (fmul 4 (curve u)) (fmul (fmul 3 s) (fsq u))))) with
      | None => None
      | Some r =>
        if negb (N.land c 1 =? 0) && (r =? 0) then None else Some (s, half (fsub (fdiv r s) u))
      end in
  match sv with
  | None => None
  | Some (s, v) =>
    match fsqrt s with
    | None => None
    | Some w =>
      let lo := fmul w (fadd (half (fmul u (fsub 1 minus_3_sqrt))) v) in
      let hi := fmul w (fadd (half (fmul u (fadd 1 minus_3_sqrt))) v) in
      let k := N.land c 5 in
      Some (if k =? 0 then fneg lo else if k =? 1 then hi else if k =? 4 then lo else fneg hi)
    end
  end.

(** The x coordinate a 64-byte encoding stands for. *)
Definition decode_x (e : bytes) : N :=
  xswiftec (be_val (take 32 e) mod field_p) (be_val (take 32 (drop 32 e)) mod field_p).

(** An encoding of an x coordinate: the first candidate (u, case) that has an inverse.  BIP-324 draws u and the case
    at random; which encoding is chosen does not matter. *)
Fixpoint encode_x (fuel : nat) (seed : bytes) (i x : N) : bytes :=
  match fuel with
  | O => zeros 64
  | S fuel =>
    let u := be_val (sha256 (seed ++ [byte_of_N i])) mod field_p in
    match xswiftec_inv x u (i mod 8) with
    | Some t =>
      let e := be_bytes 32 u ++ be_bytes 32 t in if decode_x e =? x then e else encode_x fuel seed (i + 1) x
    | None => encode_x fuel seed (i + 1) x
    end
  end.

Definition ellswift_encode (sk : bytes) : bytes := encode_x 256 sk 0 (x_of (mult (be_val sk) generator)).



Definition tagged_hash (tag : string) (msg : bytes) : bytes :=
  let t := sha256 (list_byte_of_string tag) in sha256 (t ++ t ++ msg).

(** [v2_ecdh] of BIP-324 (the hash function of libsecp256k1 takes no further data). *)
Definition ellswift_xdh (a b sk : bytes) (p : party) (data : bytes) : bytes :=
  let theirs := match p with PartyA => b | PartyB => a end in
  let x := x_of (mult (be_val sk) (lift_x (decode_x theirs))) in
  tagged_hash "bip324_ellswift_xonly_ecdh" (a ++ b ++ be_bytes 32 x).

(** ** The environment *)

Definition rfc (chk : bool) : Env := {|
  overflow_checks := chk;
  debug_assertions := chk;
  keystream := chacha_stream;
  mac := aead_mac;
  sk_valid := sk_in_range;
  ellswift_of := ellswift_encode;
  ecdh_xonly := ellswift_xdh;
  hkdf_extract := rfc_extract;
  hkdf_expand := rfc_expand
|}.

(** ** Its laws *)

Lemma len_row_bytes r : len (row_bytes r) = 16.
Proof. destruct r as [[[a b] c] d]. reflexivity. Qed.

Lemma len_chacha_block key nonce counter : len (chacha_block key nonce counter) = 64.
Proof.
  unfold chacha_block. cbn zeta. destruct (Nat.iter 10 _ _) as [[[a b] c] d].
  rewrite !len_app, !len_row_bytes. reflexivity.
Qed.

Lemma len_chacha_blocks key nonce n : forall counter, len (chacha_blocks key nonce counter n) = 64 * N.of_nat n.
Proof.
  induction n; intros; cbn [chacha_blocks]; [reflexivity|].
  rewrite len_app, len_chacha_block, IHn. lia.
Qed.

Lemma enough_blocks off n : off mod 64 + n <= 64 * ((off mod 64 + n + 63) / 64).
Proof.
  pose proof (N.div_mod (off mod 64 + n + 63) 64 ltac:(discriminate)).
  pose proof (N.mod_lt (off mod 64 + n + 63) 64 ltac:(discriminate)). lia.
Qed.

Lemma len_chacha_stream key nonce off n : len (chacha_stream key nonce off n) = n.
Proof.
  unfold chacha_stream. rewrite len_take, len_drop, len_chacha_blocks, N2Nat.id.
  pose proof (enough_blocks off n). lia.
Qed.

Lemma chacha_blocks_more key nonce n m : forall counter, (n <= m)%nat ->
  take (64 * N.of_nat n) (chacha_blocks key nonce counter m) = chacha_blocks key nonce counter n.
Proof.
  revert m. induction n; intros m counter H; [reflexivity|].
  destruct m as [|m]; [lia|]. cbn [chacha_blocks].
  rewrite take_app_ge by (rewrite len_chacha_block; lia).
  rewrite len_chacha_block. replace (64 * N.of_nat (S n) - 64) with (64 * N.of_nat n) by lia.
  rewrite IHn by lia. reflexivity.
Qed.

Lemma take_drop_prefix {A} n k (l m : list A) : take k m = l -> n <= len l -> take n m = take n l.
Proof.
  intros <- H. rewrite take_take. rewrite len_take in H. f_equal. lia.
Qed.

Lemma rfc_keystream_stable chk : KeystreamStable (rfc chk).
Proof.
  intros k n off c c' H. cbn [keystream rfc]. unfold chacha_stream. rewrite take_take, N.min_l by assumption.
  rewrite !take_drop_comm. f_equal. eapply take_drop_prefix with (k := 64 * N.of_nat (N.to_nat ((off mod 64 + c + 63) / 64))).
  - apply chacha_blocks_more.
    pose proof (N.div_le_mono (off mod 64 + c + 63) (off mod 64 + c' + 63) 64 ltac:(discriminate) ltac:(lia)). lia.
  - rewrite len_chacha_blocks, N2Nat.id. apply enough_blocks.
Qed.

Lemma length_add_words a b : length (add_words a b) = Nat.min (length a) (length b).
Proof. unfold add_words. rewrite map_length, combine_length. reflexivity. Qed.

Lemma length_sha_round st kw : length st = 8%nat -> length (sha_round st kw) = 8%nat.
Proof.
  intros H. do 8 (destruct st as [|? st]; [discriminate|]). destruct st; [reflexivity|discriminate].
Qed.

Lemma length_sha_rounds kws : forall st, length st = 8%nat -> length (fold_left sha_round kws st) = 8%nat.
Proof. induction kws; intros st H; cbn [fold_left]; [assumption|]. apply IHkws, length_sha_round, H. Qed.

Lemma length_sha_blocks fuel : forall st msg, length st = 8%nat -> length (sha_blocks fuel st msg) = 8%nat.
Proof.
  induction fuel; intros st msg H; cbn [sha_blocks]; [assumption|]. destruct msg; [assumption|].
  apply IHfuel. unfold sha_compress. rewrite length_add_words, length_sha_rounds, H by assumption. reflexivity.
Qed.

Lemma len_be_bytes w n : len (be_bytes w n) = N.of_nat w.
Proof. unfold be_bytes, len. rewrite rev_length. apply len_le_bytes. Qed.

Lemma len_concat_be w l : len (concat (map (be_bytes w) l)) = N.of_nat w * N.of_nat (length l).
Proof. induction l; cbn [map concat length]; [unfold len; cbn; lia|]. rewrite len_app, len_be_bytes, IHl. lia. Qed.

Lemma len_sha256 msg : len (sha256 msg) = 32.
Proof. unfold sha256. cbn zeta. rewrite len_concat_be, length_sha_blocks by reflexivity. reflexivity. Qed.

Lemma len_hmac key msg : len (hmac key msg) = 32.
Proof. apply len_sha256. Qed.

Lemma len_expand_blocks n prk info : forall prev i, len (expand_blocks n prk info prev i) = 32 * N.of_nat n.
Proof. induction n; intros; cbn [expand_blocks]; [reflexivity|]. rewrite len_app, len_hmac, IHn. lia. Qed.

Lemma rfc_expand_len prk info n okm : rfc_expand prk info n = Some okm -> len okm = n.
Proof.
  unfold rfc_expand. destruct (n <=? 255 * 32); [|discriminate]. intros H. injection H as <-.
  rewrite len_take, len_expand_blocks, N2Nat.id.
  pose proof (N.div_mod (n + 31) 32 ltac:(discriminate)).
  pose proof (N.mod_lt (n + 31) 32 ltac:(discriminate)). lia.
Qed.

Lemma len_encode_x fuel : forall seed i x, len (encode_x fuel seed i x) = 64.
Proof.
  induction fuel; intros; cbn [encode_x]; [reflexivity|].
  destruct (xswiftec_inv _ _ _); [|apply IHfuel]. cbn zeta. destruct (_ =? x); [|apply IHfuel].
  rewrite len_app, !len_be_bytes. reflexivity.
Qed.

(** The encoding of a public key decodes to its x coordinate, unless all candidates fail. *)
Lemma encode_x_decodes fuel : forall seed i x,
  encode_x fuel seed i x = zeros 64 \/ decode_x (encode_x fuel seed i x) = x.
Proof.
  induction fuel; intros; cbn [encode_x]; [now left|].
  destruct (xswiftec_inv _ _ _) as [t|]; [|apply IHfuel]. cbn zeta.
  destruct (decode_x _ =? x) eqn:H; [|apply IHfuel]. right. now apply N.eqb_eq.
Qed.

#[export] Instance rfc_laws chk : EnvLaws (rfc chk).
Proof.
  constructor; intros; cbn [rfc keystream mac ellswift_of hkdf_expand].
  - apply len_chacha_stream.
  - unfold aead_mac, poly1305. rewrite len_le_bytes. reflexivity.
  - apply len_encode_x.
  - destruct (rfc_expand prk info 32) as [okm|] eqn:H; [|discriminate].
    exists okm. split; [reflexivity|]. exact (rfc_expand_len _ _ _ _ H).
Qed.
