(** Theorems for C63: the hash functions of the library are the standard ones. *)
From Verif Require Import Bytes M_codec M_hash S_codec S_cipher S_hash M_cipher P_hash1 P_hash2 P_hash3 P_hash4 P_hash5 P_hash6.
From Coq Require Import Init.Byte List ZArith Bool Lia.
Import ListNotations.
Open Scope Z_scope.

(** Whatever the memory of the context holds before, each of the seven functions of the library
    gives the digest of the standard, for every text below 2^31 bytes. *)
Theorem C63_standard_digest : forall junk t g h m,
  hash_number (lib_hashes junk) t g -> standard t h -> zlen m < 2 ^ 31 -> g m = h m.
Proof. exact digest_standard. Qed.
Print Assumptions C63_standard_digest.
(** A text handed over in any number of pieces has the digest of the whole. *)
Theorem C63_pieces : forall junk ps, length junk = 64%nat ->
  MD5Final (fold_left MD5Update ps (MD5Init junk)) = MD5 (concat ps) /\
  sha1_final (fold_left sha1_update ps (sha1_init junk)) = SHA1 (concat ps) /\
  sha2_final v256 8 (fold_left (sha2_update v256) ps (sha2_init v256 sha256_initial_hash_value)) = SHA256 (concat ps) /\
  sha2_final v512 6 (fold_left (sha2_update v512) ps (sha2_init v512 sha384_initial_hash_value)) = SHA384 (concat ps) /\
  sha2_final v512 8 (fold_left (sha2_update v512) ps (sha2_init v512 sha512_initial_hash_value)) = SHA512 (concat ps).
Proof. exact pieces_standard. Qed.
Print Assumptions C63_pieces.
(** Every digest has the size of the standard; so the hypothesis [hashes_ok] of the other theorems
    holds of the functions of the library. *)
Theorem C63_sizes : forall junk, hashes_ok (lib_hashes junk) /\
  forall t g m, hash_number (lib_hashes junk) t g -> zlen (g m) = digest_size t.
Proof. exact sizes_standard. Qed.
Print Assumptions C63_sizes.
(** The HMAC of the library is the one of RFC 2104 with the standard hash function. *)
Theorem C63_hmac : forall junk t h key msg,
  standard t h -> zlen key < 2 ^ 31 -> zlen msg < 2 ^ 31 - 200 ->
  hmac_of (lib_hashes junk) t key msg = Some (rfc2104 h (hash_block t) key msg).
Proof. exact hmac_standard. Qed.
Print Assumptions C63_hmac.
(** FIPS 180-4 and RFC 1321 give these digests as examples. *)
Example C63_ex : hash_number (lib_hashes (repeat xaa 70)) 1 (md5 (repeat xaa 70)) /\ standard 1 MD5 /\
  MD5 ($ "abc") = [x90; x01; x50; x98; x3c; xd2; x4f; xb0; xd6; x96; x3f; x7d; x28; xe1; x7f; x72] /\
  SHA1 ($ "abc") = [xa9; x99; x3e; x36; x47; x06; x81; x6a; xba; x3e; x25; x71; x78; x50; xc2; x6c; x9c; xd0; xd8; x9d].
Proof. split; [constructor|split; [constructor|]]. vm_compute. split; reflexivity. Qed.
