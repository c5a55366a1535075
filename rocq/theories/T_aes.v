(** Property theorems: the AES block cipher. *)
From Verif Require Import Bytes M_aes S_aes P_aes.
From Coq Require Import Init.Byte List ZArith Bool Lia Arith.
Import ListNotations.
Open Scope Z_scope.

(** ** C10 Decrypting an encrypted block gives the block back *)
Theorem C10_block_round_trip : forall key block : bytes,
  (length key = 16 \/ length key = 24 \/ length key = 32)%nat -> length block = 16%nat ->
  let ctx := rijndael_setup (zlen key) key in
  rijndael_decrypt ctx (rijndael_encrypt ctx block) = block /\
  length (rijndael_encrypt ctx block) = 16%nat.
Proof. exact (fun key block K B => conj (decrypt_encrypt key block K B) (encrypt_length _ block)). Qed.
Print Assumptions C10_block_round_trip.

(** ** C45 The block cipher is AES as in FIPS 197 *)
Theorem C45_block_cipher_is_aes : forall key block : bytes,
  (length key = 16 \/ length key = 24 \/ length key = 32)%nat -> length block = 16%nat ->
  rijndael_encrypt (rijndael_setup (zlen key) key) block = map zb (AES (map bv key) (map bv block)).
Proof. exact encrypt_is_aes. Qed.
Print Assumptions C45_block_cipher_is_aes.

(** FIPS 197, appendix C.3: the hypotheses are met and the result is the published one. *)
Example C10_C45_ex :
  let key := map (fun i => zb (Z.of_nat i)) (seq 0 32) in
  let block := map (fun i => zb (17 * Z.of_nat i)) (seq 0 16) in
  length key = 32%nat /\ length block = 16%nat /\
  rijndael_encrypt (rijndael_setup (zlen key) key) block =
    map zb [0x8e; 0xa2; 0xb7; 0xca; 0x51; 0x67; 0x45; 0xbf; 0xea; 0xfc; 0x49; 0x90; 0x4b; 0x49; 0x60; 0x89].
Proof. vm_compute. repeat split. Qed.
