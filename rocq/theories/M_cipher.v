(** The symmetric cipher layer: block modes (lib/rijndael.c:469-612), key derivation,
    salting and padding (lib/cipher_funcs.c:120-327), and HMAC (lib/hmac.c). *)
From Verif Require Import Bytes M_util M_codec M_aes.
From Coq Require Import Init.Byte List ZArith Bool.
Import ListNotations.
Open Scope Z_scope.

(** [c[j] = a[j] ^ b[j]] over the common length. *)
Definition xor_bytes (a b : bytes) : bytes :=
  map (fun p => zb (Z.lxor (bv (fst p)) (bv (snd p)))) (combine a b).

Definition RIJNDAEL_BLOCKSIZE : Z := 16.
Definition RIJNDAEL_MIN_KEYSIZE : Z := 16.
Definition RIJNDAEL_MAX_KEYSIZE : Z := 32.
Definition SALT_LEN : Z := 8.

(** lib/fko.h, [fko_enc_mode_t]; lib/rijndael.h MODE_* has the same numbers. *)
Definition FKO_ENC_MODE_ECB : Z := 1.
Definition FKO_ENC_MODE_CBC : Z := 2.
Definition FKO_ENC_MODE_CFB : Z := 3.
Definition FKO_ENC_MODE_PCBC : Z := 4.
Definition FKO_ENC_MODE_OFB : Z := 5.
Definition FKO_ENC_MODE_CTR : Z := 6.
Definition FKO_ENC_MODE_ASYMMETRIC : Z := 7.
Definition FKO_ENC_MODE_CBC_LEGACY_IV : Z := 8.

(** Input block at the front of the rest of the input. *)
Definition front (l : bytes) : bytes := firstn 16 l.
Definition rest (l : bytes) : bytes := skipn 16 l.

(** lib/rijndael.c:480-483 and 548-551. *)
Fixpoint ecb (f : bytes -> bytes) (n : nat) (input : bytes) : bytes :=
  match n with
  | O => []
  | S k => f (front input) ++ ecb f k (rest input)
  end.
(** lib/rijndael.c:487-493. *)
Fixpoint cbc_enc (E : bytes -> bytes) (n : nat) (block input : bytes) : bytes :=
  match n with
  | O => []
  | S k => let block := E (xor_bytes block (front input)) in block ++ cbc_enc E k block (rest input)
  end.
(** lib/rijndael.c:555-565: the previous ciphertext block, at first the IV, is the mask. *)
Fixpoint cbc_dec (D : bytes -> bytes) (n : nat) (prev input : bytes) : bytes :=
  match n with
  | O => []
  | S k => xor_bytes (D (front input)) prev ++ cbc_dec D k (front input) (rest input)
  end.
(** lib/rijndael.c:496-502. *)
Fixpoint cfb_enc (E : bytes -> bytes) (n : nat) (block input : bytes) : bytes :=
  match n with
  | O => []
  | S k => let block := xor_bytes (E block) (front input) in block ++ cfb_enc E k block (rest input)
  end.
(** lib/rijndael.c:568-576. *)
Fixpoint cfb_dec (E : bytes -> bytes) (n : nat) (block input : bytes) : bytes :=
  match n with
  | O => []
  | S k => xor_bytes (E block) (front input) ++ cfb_dec E k (front input) (rest input)
  end.
(** lib/rijndael.c:505-512 and 581-588. *)
Fixpoint ofb (E : bytes -> bytes) (n : nat) (block input : bytes) : bytes :=
  match n with
  | O => []
  | S k => let block := E block in xor_bytes block (front input) ++ ofb E k block (rest input)
  end.
(** lib/rijndael.c:522-530: from the last byte on, add one and go on while it wrapped.  The
    argument is the block with its last byte first. *)
Fixpoint inc_rev (l : bytes) : bytes :=
  match l with
  | [] => []
  | b :: r => let b' := zb (bv b + 1) in
              b' :: (if bv b' =? 0 then inc_rev r else r)
  end.
Definition inc_block (block : bytes) : bytes := rev (inc_rev (rev block)).
(** lib/rijndael.c:515-531 and 591-607. *)
Fixpoint ctr (E : bytes -> bytes) (n : nat) (block input : bytes) : bytes :=
  match n with
  | O => []
  | S k => xor_bytes (E block) (front input) ++ ctr E k (inc_block block) (rest input)
  end.

(** lib/rijndael.c:469-536, [block_encrypt]; [out] is the output buffer before the call,
    returned untouched for a mode without a case. *)
Definition block_encrypt (ctx : aes_ctx) (mode : Z) (input iv out : bytes) : bytes :=
  let n := Nat.div (length input) 16 in
  let E := rijndael_encrypt ctx in
  if mode =? FKO_ENC_MODE_ECB then ecb E n input
  else if mode =? FKO_ENC_MODE_CBC then cbc_enc E n iv input
  else if mode =? FKO_ENC_MODE_CFB then cfb_enc E n iv input
  else if mode =? FKO_ENC_MODE_OFB then ofb E n iv input
  else if mode =? FKO_ENC_MODE_CTR then ctr E n iv input
  else out.
(** lib/rijndael.c:538-612, [block_decrypt], for at least one input block. *)
Definition block_decrypt (ctx : aes_ctx) (mode : Z) (input iv out : bytes) : bytes :=
  let n := Nat.div (length input) 16 in
  let E := rijndael_encrypt ctx in
  if mode =? FKO_ENC_MODE_ECB then ecb (rijndael_decrypt ctx) n input
  else if mode =? FKO_ENC_MODE_CBC then cbc_dec (rijndael_decrypt ctx) n iv input
  else if mode =? FKO_ENC_MODE_CFB then cfb_dec E n iv input
  else if mode =? FKO_ENC_MODE_OFB then ofb E n iv input
  else if mode =? FKO_ENC_MODE_CTR then ctr E n iv input
  else out.

(** lib/cipher_funcs.c:132-158: the password as hashed.  At most 32 bytes: the callers
    check, lib/fko_encryption.c:69 and 183. *)
Definition final_pw (mode : Z) (key : bytes) : bytes :=
  if (mode =? FKO_ENC_MODE_CBC_LEGACY_IV) && (zlen key <? RIJNDAEL_MIN_KEYSIZE)
  then key ++ repeat "0"%byte (Z.to_nat (RIJNDAEL_MIN_KEYSIZE - zlen key)) else key.

(** lib/cipher_funcs.c:183-195: the loop that fills [kiv_buf]; [last] is [None] before the
    first round (the test [kiv_len == 0]), then the previous hash, kept at the front of
    [tmp_buf].  Three rounds of 16 bytes fill the 48 bytes. *)
Fixpoint kiv_loop (md5 : bytes -> bytes) (n : nat) (last : option bytes) (pw_salt : bytes) : bytes :=
  match n with
  | O => []
  | S k => let d := md5 (match last with None => pw_salt | Some p => p ++ pw_salt end) in
           d ++ kiv_loop md5 k (Some d) pw_salt
  end.
(** lib/cipher_funcs.c:120-199, [rij_salt_and_iv]: key and initialization vector. *)
Definition rij_key_iv (H : hashes) (mode : Z) (key salt : bytes) : bytes * bytes :=
  let kiv := kiv_loop (h_md5 H) 3 None (final_pw mode key ++ salt) in
  (ztake RIJNDAEL_MAX_KEYSIZE kiv, zdrop RIJNDAEL_MAX_KEYSIZE kiv).

(** lib/cipher_funcs.c:211-225: the block mode. *)
Definition rij_mode (mode : Z) : Z := if mode =? FKO_ENC_MODE_CBC_LEGACY_IV then FKO_ENC_MODE_CBC else mode.

(** lib/cipher_funcs.c:260-262. *)
Definition pad (l : bytes) : bytes :=
  let pad_val := RIJNDAEL_BLOCKSIZE - zlen l mod RIJNDAEL_BLOCKSIZE in
  l ++ repeat (zb pad_val) (Z.to_nat pad_val).

(** lib/cipher_funcs.c:239-273, [rij_encrypt], with the random salt as an argument.  The
    output buffer comes zeroed from calloc (lib/fko_encryption.c:113). *)
Definition rij_encrypt (H : hashes) (mode : Z) (key salt pt : bytes) : bytes :=
  let '(k, iv) := rij_key_iv H mode key salt in
  let padded := pad pt in
  $ "Salted__" ++ salt ++
  block_encrypt (rijndael_setup RIJNDAEL_MAX_KEYSIZE k) (rij_mode mode) padded iv
    (repeat x00 (length padded)).

(** lib/cipher_funcs.c:302-318. *)
Definition unpad (out : bytes) : bytes :=
  let pad_val := bv (last out x00) in
  if pad_val <=? RIJNDAEL_BLOCKSIZE
  then if forallb (fun b => bv b =? pad_val) (zdrop (zlen out - pad_val) out)
       then ztake (zlen out - pad_val) out else out
  else out.
(** lib/cipher_funcs.c:277-327, [rij_decrypt].  Without a block after the salt, line 304
    reads before the output buffer: [Fault]. *)
Definition rij_decrypt (H : hashes) (mode : Z) (key input : bytes) : outcome bytes :=
  let '(k, iv) := rij_key_iv H mode key (ztake SALT_LEN (zdrop SALT_LEN input)) in
  if zlen input <? 2 * RIJNDAEL_BLOCKSIZE then Fault
  else let data := zdrop RIJNDAEL_BLOCKSIZE input in
       Ok (unpad (block_decrypt (rijndael_setup RIJNDAEL_MAX_KEYSIZE k) (rij_mode mode) data iv
                    (repeat x00 (length data)))).

(** ** HMAC *)
Definition MAX_DIGEST_BLOCK_LEN : Z := 136.
(** lib/hmac.c:41-62, [pad_init], for one of the two pads. *)
Definition pad_init (c : Z) (key : bytes) (key_len : Z) : bytes :=
  map (fun b => zb (Z.lxor (bv b) c)) (ztake key_len (ztake MAX_DIGEST_BLOCK_LEN key))
  ++ repeat (zb c) (Z.to_nat (MAX_DIGEST_BLOCK_LEN - key_len)).
(** A C array of [n] bytes, zeroed, with [s] copied to its front. *)
Definition array (n : Z) (s : bytes) : bytes := s ++ repeat x00 (Z.to_nat (n - zlen s)).
(** lib/hmac.c:64-108 [hmac_md5], 110-154 [hmac_sha1], 156-200 [hmac_sha256], 202-246
    [hmac_sha384], 248-292 [hmac_sha512], 294-338 [hmac_sha3_256], 340-384 [hmac_sha3_512]:
    the same statements with other constants. *)
Definition hmac_code (h : bytes -> bytes) (block_len digest_len : Z) (key msg : bytes) : bytes :=
  let '(final_key, final_len) :=
    if block_len <? zlen key then (array MAX_DIGEST_BLOCK_LEN (h key), digest_len)
    else (array MAX_DIGEST_BLOCK_LEN key, zlen key) in
  let block_inner_pad := pad_init 0x36 final_key final_len in
  let block_outer_pad := pad_init 0x5c final_key final_len in
  let inner_hash := h (ztake block_len block_inner_pad ++ msg) in
  h (ztake block_len block_outer_pad ++ ztake digest_len inner_hash).
(** lib/md5.h, sha1.h, sha2.h, sha3.h: block and digest lengths. *)
Definition block_len_of (t : Z) : Z :=
  if t =? 1 then 64 else if t =? 2 then 64 else if t =? 3 then 64 else if t =? 4 then 128
  else if t =? 5 then 128 else if t =? 6 then 136 else 72.
Definition digest_len_of (t : Z) : Z :=
  if t =? 1 then 16 else if t =? 2 then 20 else if t =? 3 then 32 else if t =? 4 then 48
  else if t =? 5 then 64 else if t =? 6 then 32 else 64.
(** lib/fko_hmac.c:256-311: the HMAC of a message by type; [None] for an unknown type. *)
Definition hmac_of (H : hashes) (t : Z) (key msg : bytes) : option bytes :=
  do h <- hash_of H t; Some (hmac_code h (block_len_of t) (digest_len_of t) key msg).
