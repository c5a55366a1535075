(** Symmetric encryption as other implementations define it: the block modes of NIST SP
    800-38A, PKCS#7 padding, the OpenSSL key derivation and salt header, and the HMAC of
    RFC 2104.  Written without reference to the code. *)
From Verif Require Import Bytes S_aes.
From Coq Require Import Init.Byte List ZArith Bool.
Import ListNotations.
Open Scope Z_scope.

Definition XOR (a b : bytes) : bytes := map (fun p => zb (Z.lxor (bv (fst p)) (bv (snd p)))) (combine a b).

(** The AES block cipher on bytes. *)
Definition aes (key block : bytes) : bytes := map zb (AES (map bv key) (map bv block)).

(** A message cut into 16-byte blocks. *)
Definition cut (blocks : list bytes) (msg : bytes) : Prop :=
  concat blocks = msg /\ Forall (fun b => length b = 16%nat) blocks.

(** A 16-byte block read as a big-endian number. *)
Definition be (l : bytes) : Z := fold_left (fun v b => 256 * v + bv b) l 0.

Inductive mode_name := ECB | CBC | CFB | OFB | CTR.

(** Block [j] of a list, and the one before, which is the initialization vector for the
    first block. *)
Definition blk (l : list bytes) (j : nat) : bytes := nth j l [].
Definition before (iv : bytes) (l : list bytes) (j : nat) : bytes := match j with O => iv | S i => blk l i end.

(** [C] is the encryption of the blocks [P] (SP 800-38A, 6.1-6.5). *)
Definition encrypts (m : mode_name) (E : bytes -> bytes) (iv : bytes) (P C : list bytes) : Prop :=
  length C = length P /\
  match m with
  | ECB => forall j, (j < length P)%nat -> blk C j = E (blk P j)
  | CBC => forall j, (j < length P)%nat -> blk C j = E (XOR (blk P j) (before iv C j))
  | CFB => forall j, (j < length P)%nat -> blk C j = XOR (blk P j) (E (before iv C j))
  | OFB => exists O, forall j, (j < length P)%nat -> blk O j = E (before iv O j) /\ blk C j = XOR (blk P j) (blk O j)
  | CTR => exists T, forall j, (j < length P)%nat ->
             length (blk T j) = 16%nat /\ be (blk T j) = (be iv + Z.of_nat j) mod 2 ^ 128 /\
             blk C j = XOR (blk P j) (E (blk T j))
  end.

(** PKCS#7: [n] bytes of value [n], 1..16, up to a multiple of the block length. *)
Definition pkcs7 (msg padded : bytes) : Prop :=
  exists n, 1 <= n <= 16 /\ padded = msg ++ repeat (zb n) (Z.to_nat n) /\ zlen padded mod 16 = 0.

(** OpenSSL's EVP_BytesToKey with one round of MD5. *)
Definition bytes_to_key (md5 : bytes -> bytes) (pw salt : bytes) : bytes :=
  let d1 := md5 (pw ++ salt) in
  let d2 := md5 (d1 ++ pw ++ salt) in
  let d3 := md5 (d2 ++ pw ++ salt) in
  d1 ++ d2 ++ d3.

(** RFC 2104, [B] the block length of the hash. *)
Definition rfc2104 (h : bytes -> bytes) (B : nat) (key msg : bytes) : bytes :=
  let k0 := if (B <? length key)%nat then h key else key in
  let k := k0 ++ repeat x00 (B - length k0) in
  h (XOR k (repeat x5c B) ++ h (XOR k (repeat x36 B) ++ msg)).

(** Block length in bytes of the hash with the given number (1 MD5, 2 SHA1, 3 SHA256,
    4 SHA384, 5 SHA512, 6 SHA3-256, 7 SHA3-512). *)
Definition hash_block (t : Z) : nat := nth (Z.to_nat t) [0; 64; 64; 64; 128; 128; 136; 72]%nat 0%nat.

(** The numbers of the encryption modes in the API, and the password that is hashed: in
    the legacy mode short passwords are filled up with the digit 0. *)
Inductive api_mode : Z -> mode_name -> Prop :=
| am_ecb : api_mode 1 ECB
| am_cbc : api_mode 2 CBC
| am_cfb : api_mode 3 CFB
| am_ofb : api_mode 5 OFB
| am_ctr : api_mode 6 CTR
| am_legacy : api_mode 8 CBC.
Definition password (mode : Z) (key : bytes) : bytes :=
  if mode =? 8 then key ++ repeat "0"%byte (16 - length key) else key.
