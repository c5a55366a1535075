(** Property theorems: symmetric encryption and HMAC. *)
From Verif Require Import Bytes M_util M_codec M_aes M_cipher S_aes S_cipher S_codec P_cipher T_codec.
From Coq Require Import Init.Byte List ZArith Bool Lia Arith.
Import ListNotations.
Open Scope Z_scope.

(** ** C09 Decryption returns the plaintext *)
Theorem C09_cipher_round_trip : forall H mode m key salt pt,
  hashes_ok H -> api_mode mode m -> zlen salt = 8 ->
  rij_decrypt H mode key (rij_encrypt H mode key salt pt) = Ok pt.
Proof.
  exact (fun H mode m key salt pt OK A S =>
    match salted_format H mode m key salt pt OK (api_mode_of mode m A) S with
    | ex_intro _ _ (ex_intro _ _ (ex_intro _ _ (ex_intro _ _ (ex_intro _ _
        (conj _ (conj _ (conj _ (conj _ (conj _ (conj _ (conj _ (conj _ R)))))))))))) => R end).
Qed.
Print Assumptions C09_cipher_round_trip.
Example C09_ex : forall m mode, In (mode, m) [(1, ECB); (2, CBC); (3, CFB); (5, OFB); (6, CTR); (8, CBC)] ->
  api_mode mode m /\ hashes_ok toy /\ zlen ($ "saltsalt") = 8 /\
  rij_decrypt toy mode ($ "pw") (rij_encrypt toy mode ($ "pw") ($ "saltsalt") ($ "sixteen bytes...")) = Ok ($ "sixteen bytes...") /\
  zlen (rij_encrypt toy mode ($ "pw") ($ "saltsalt") ($ "sixteen bytes...")) = 48.
Proof.
  assert (A : Forall (fun x => api_mode (fst x) (snd x) /\ hashes_ok toy /\ zlen ($ "saltsalt") = 8 /\
    rij_decrypt toy (fst x) ($ "pw") (rij_encrypt toy (fst x) ($ "pw") ($ "saltsalt") ($ "sixteen bytes...")) = Ok ($ "sixteen bytes...") /\
    zlen (rij_encrypt toy (fst x) ($ "pw") ($ "saltsalt") ($ "sixteen bytes...")) = 48)
    [(1, ECB); (2, CBC); (3, CFB); (5, OFB); (6, CTR); (8, CBC)]).
  { repeat apply Forall_cons; try apply Forall_nil; cbn [fst snd];
      (split; [constructor|split; [exact toy_ok|split; [reflexivity|vm_compute; split; reflexivity]]]). }
  intros m mode I. exact (proj1 (Forall_forall _ _) A (mode, m) I).
Qed.
(** The API also accepts mode 4 (PCBC), which has no case in the block routines: different
    plaintexts give the same ciphertext, so they cannot both be recovered. *)
Theorem C09_pcbc_refuted : exists key salt pt1 pt2,
  pt1 <> pt2 /\ rij_encrypt toy 4 key salt pt1 = rij_encrypt toy 4 key salt pt2.
Proof. exists ($ "key"), ($ "saltsalt"), ($ "open 22"), ($ "open 80"). split; [discriminate|vm_compute; reflexivity]. Qed.
Print Assumptions C09_pcbc_refuted.

(** ** C46 The ciphertext format is the standard one *)
Theorem C46_standard_format : forall H mode m key salt pt,
  hashes_ok H -> api_mode mode m -> zlen salt = 8 ->
  exists k iv padded P C,
    length k = 32%nat /\ length iv = 16%nat /\
    k ++ iv = bytes_to_key (h_md5 H) (password mode key) salt /\
    pkcs7 pt padded /\ cut P padded /\ encrypts m (aes k) iv P C /\
    rij_encrypt H mode key salt pt = $ "Salted__" ++ salt ++ concat C.
Proof.
  exact (fun H mode m key salt pt OK A S =>
    match salted_format H mode m key salt pt OK (api_mode_of mode m A) S with
    | ex_intro _ k (ex_intro _ iv (ex_intro _ padded (ex_intro _ P (ex_intro _ C
        (conj a (conj b (conj c (conj d (conj e (conj f (conj g _))))))))))) =>
      ex_intro _ k (ex_intro _ iv (ex_intro _ padded (ex_intro _ P (ex_intro _ C
        (conj a (conj b (conj (eq_trans c (f_equal (fun p => bytes_to_key (h_md5 H) p salt) (final_pw_password mode key)))
          (conj d (conj e (conj f g)))))))))) end).
Qed.
Print Assumptions C46_standard_format.

(** ** C44 HMAC as in RFC 2104 *)
Theorem C44_hmac_is_rfc2104 : forall H t h key msg,
  hashes_ok H -> hash_number H t h ->
  hmac_of H t key msg = Some (rfc2104 h (hash_block t) key msg).
Proof. exact hmac_of_rfc. Qed.
Print Assumptions C44_hmac_is_rfc2104.
Example C44_ex : hash_number toy 7 (h_sha3_512 toy) /\
  rfc2104 (h_sha3_512 toy) (hash_block 7) (repeat x41 80) ($ "a") <> rfc2104 (h_sha3_512 toy) (hash_block 7) (repeat x41 80) ($ "b").
Proof. split; [constructor|]. vm_compute. discriminate. Qed.
