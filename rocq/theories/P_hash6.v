(** The hash functions together. *)
From Verif Require Import Bytes M_codec M_hash S_codec S_cipher S_hash M_cipher P_bytes P_aes P_cipher P_hash1 P_hash2 P_hash3 P_hash4 P_hash5.
From Coq Require Import Init.Byte List ZArith Bool Lia.
Import ListNotations.
Open Scope Z_scope.
Lemma digest_standard junk t g h m : hash_number (lib_hashes junk) t g -> standard t h -> zlen m < 2 ^ 31 -> g m = h m.
Proof.
  intros N S L. assert (L2 : zlen m < 2 ^ 32) by lia.
  assert (X : match t with 1 => g m = md5 junk m | 2 => g m = sha1 junk m | 3 => g m = sha256 m | 4 => g m = sha384 m | 5 => g m = sha512 m
    | 6 => g m = sha3_256 m | 7 => g m = sha3_512 m | _ => True end) by (destruct N; reflexivity).
  clear N. destruct S; cbv iota beta in X; rewrite X.
  - apply md5_correct, L2.
  - apply sha1_correct, L.
  - apply sha256_correct.
  - apply sha384_correct.
  - apply sha512_correct.
  - apply sha3_256_correct, L2.
  - apply sha3_512_correct, L2.
Qed.
Lemma fold_pieces {C} (up : C -> bytes -> C) (I : C -> bytes -> Prop) : (forall c m d, I c m -> I (up c d) (m ++ d)) ->
  forall ps c m, I c m -> I (fold_left up ps c) (m ++ concat ps).
Proof.
  intros H ps. induction ps as [|p ps IH]; intros c m J; [now rewrite app_nil_r|]. cbn [fold_left concat]. rewrite app_assoc. apply IH, H, J.
Qed.
Lemma iv256 : map (root2 32) (firstn 8 primes) = sha256_initial_hash_value. Proof. vm_compute. reflexivity. Qed.
Lemma iv512 : map (root2 64) (firstn 8 primes) = sha512_initial_hash_value. Proof. vm_compute. reflexivity. Qed.
Lemma iv384 : map (root2 64) (firstn 8 (skipn 8 primes)) = sha384_initial_hash_value. Proof. vm_compute. reflexivity. Qed.
Lemma pieces_standard junk ps : length junk = 64%nat ->
  MD5Final (fold_left MD5Update ps (MD5Init junk)) = MD5 (concat ps) /\
  sha1_final (fold_left sha1_update ps (sha1_init junk)) = SHA1 (concat ps) /\
  sha2_final v256 8 (fold_left (sha2_update v256) ps (sha2_init v256 sha256_initial_hash_value)) = SHA256 (concat ps) /\
  sha2_final v512 6 (fold_left (sha2_update v512) ps (sha2_init v512 sha384_initial_hash_value)) = SHA384 (concat ps) /\
  sha2_final v512 8 (fold_left (sha2_update v512) ps (sha2_init v512 sha512_initial_hash_value)) = SHA512 (concat ps).
Proof.
  intros J. split; [|split; [|split; [|split]]].
  - apply md5_final. apply (fold_pieces MD5Update md5_inv md5_update ps _ []). apply md5_init; auto.
  - apply sha1_final_eq. apply (fold_pieces sha1_update sha1_inv sha1_update_inv ps _ []). apply sha1_init_inv; auto.
  - unfold SHA256. rewrite iv256. apply (final_eq v256 sha2_32 _ fits_256 counter_256); [split; [reflexivity|apply ok_iv; reflexivity]|].
    apply (fold_pieces _ _ (update_inv v256 sha2_32 _ fits_256 counter_256 sha256_initial_hash_value) ps _ []). apply (init_inv v256 sha2_32 _ fits_256 counter_256). split; [reflexivity|apply ok_iv; reflexivity].
  - unfold SHA384. rewrite iv384. apply (final_eq v512 sha2_64 _ fits_512 counter_512); [split; [reflexivity|apply ok_iv; reflexivity]|].
    apply (fold_pieces _ _ (update_inv v512 sha2_64 _ fits_512 counter_512 sha384_initial_hash_value) ps _ []). apply (init_inv v512 sha2_64 _ fits_512 counter_512). split; [reflexivity|apply ok_iv; reflexivity].
  - unfold SHA512. rewrite iv512. apply (final_eq v512 sha2_64 _ fits_512 counter_512); [split; [reflexivity|apply ok_iv; reflexivity]|].
    apply (fold_pieces _ _ (update_inv v512 sha2_64 _ fits_512 counter_512 sha512_initial_hash_value) ps _ []). apply (init_inv v512 sha2_64 _ fits_512 counter_512). split; [reflexivity|apply ok_iv; reflexivity].
Qed.
Lemma block8 p : forall l st, length st = 8%nat -> length (fold_left (sha2_block p) l st) = 8%nat.
Proof. induction l as [|b l IH]; intros st L; [exact L|]. apply IH. reflexivity. Qed.
Lemma concat_be k l : length (concat (map (to_be k) l)) = (k * length l)%nat.
Proof. induction l as [|x l IH]; [cbn; lia|]. cbn [map concat length]. rewrite app_length, to_be_length, IH. lia. Qed.
Lemma digest_length p st n m : length st = 8%nat -> (n <= 8 * word_size p)%nat -> length (sha2_digest p st n m) = n.
Proof. intros L N. unfold sha2_digest. rewrite firstn_length, concat_be, block8 by auto. lia. Qed.
Lemma sponge_length rate n m : (0 < rate)%nat -> (n <= 200)%nat -> length (sponge rate n m) = n.
Proof.
  intros R N. unfold sponge. rewrite firstn_length. apply Nat.min_l.
  assert (H : forall l s, length s = 200%nat -> length (fold_left (fun s p => keccak_p (xor_bytes s (p ++ repeat x00 (200 - rate)))) l s) = 200%nat).
  { induction l as [|b l IH]; intros s L; [exact L|]. apply IH, keccak_length. }
  rewrite H; [auto|apply repeat_length].
Qed.
Lemma md5_size m : length (MD5 m) = 16%nat.
Proof. unfold MD5. destruct (fold_left _ _ _) as [[[? ?] ?] ?]. rewrite !app_length, !to_le_length. reflexivity. Qed.
Lemma sha1_size m : length (SHA1 m) = 20%nat.
Proof. unfold SHA1. destruct (fold_left _ _ _) as [[[[? ?] ?] ?] ?]. rewrite !app_length, !to_be_length. reflexivity. Qed.
(** Also for a size that is cut *)
Lemma md5_any junk m : exists m', md5 junk m = MD5 m'.
Proof. exists (ztake (u32 (zlen m)) m). apply md5_final. change (md5_inv (MD5Update (MD5Init (junk64 junk)) (ztake (u32 (zlen m)) m)) ([] ++ ztake (u32 (zlen m)) m)). apply md5_update, md5_init, junk64_length. Qed.
Lemma sha1_any junk m : exists m', sha1 junk m = SHA1 m'.
Proof. exists (ztake (i32 (zlen m)) m). apply sha1_final_eq. change (sha1_inv (sha1_update (sha1_init (junk64 junk)) (ztake (i32 (zlen m)) m)) ([] ++ ztake (i32 (zlen m)) m)). apply sha1_update_inv, sha1_init_inv, junk64_length. Qed.
Lemma sizes_standard junk : hashes_ok (lib_hashes junk) /\ forall t g m, hash_number (lib_hashes junk) t g -> zlen (g m) = digest_size t.
Proof.
  assert (A : forall d, zlen (md5 junk d) = 16) by (intros d; destruct (md5_any junk d) as [x ->]; unfold zlen; now rewrite md5_size).
  assert (B : forall d, zlen (sha1 junk d) = 20) by (intros d; destruct (sha1_any junk d) as [x ->]; unfold zlen; now rewrite sha1_size).
  assert (C : forall d, zlen (sha256 d) = 32) by (intros d; rewrite sha256_correct; unfold zlen, SHA256; rewrite digest_length; [reflexivity|reflexivity|apply Nat.leb_le; reflexivity]).
  assert (D : forall d, zlen (sha384 d) = 48) by (intros d; rewrite sha384_correct; unfold zlen, SHA384; rewrite digest_length; [reflexivity|reflexivity|apply Nat.leb_le; reflexivity]).
  assert (E : forall d, zlen (sha512 d) = 64) by (intros d; rewrite sha512_correct; unfold zlen, SHA512; rewrite digest_length; [reflexivity|reflexivity|apply Nat.leb_le; reflexivity]).
  assert (F : forall d, zlen (sha3_256 d) = 32) by (intros d; unfold sha3_256; change (1088 / 8)%nat with 136%nat; rewrite sponge_eq by lia; unfold zlen; rewrite sponge_length by lia; reflexivity).
  assert (G : forall d, zlen (sha3_512 d) = 64) by (intros d; unfold sha3_512; change (576 / 8)%nat with 72%nat; rewrite sponge_eq by lia; unfold zlen; rewrite sponge_length by lia; reflexivity).
  split; [intros d; repeat split; cbn [h_md5 h_sha1 h_sha256 h_sha384 h_sha512 h_sha3_256 h_sha3_512 lib_hashes]; auto|].
  intros t g m N. destruct N; [exact (A m)|exact (B m)|exact (C m)|exact (D m)|exact (E m)|exact (F m)|exact (G m)].
Qed.
Lemma rfc_ext g h B key msg : (forall m, zlen m < 2 ^ 31 -> g m = h m) -> (forall m, zlen (h m) <= 64) -> (B <= 136)%nat -> zlen key < 2 ^ 31 -> zlen msg < 2 ^ 31 - 200 ->
  rfc2104 g B key msg = rfc2104 h B key msg.
Proof.
  intros E S L K M. unfold rfc2104. cbv zeta. rewrite (E key) by auto. set (k0 := if (B <? length key)%nat then h key else key).
  assert (X : forall a n, zlen (XOR a (repeat n B)) <= 136).
  { intros a n. unfold XOR, zlen. rewrite map_length, combine_length, repeat_length. lia. }
  rewrite (E (XOR (k0 ++ repeat x00 (B - length k0)) (repeat x36 B) ++ msg)). 2: { unfold zlen in *. rewrite app_length. pose proof (X (k0 ++ repeat x00 (B - length k0)) x36). unfold zlen in *. lia. }
  apply E. unfold zlen in *. rewrite app_length. pose proof (X (k0 ++ repeat x00 (B - length k0)) x5c). pose proof (S (XOR (k0 ++ repeat x00 (B - length k0)) (repeat x36 B) ++ msg)). unfold zlen in *. lia.
Qed.
Lemma standard_size t h m : standard t h -> zlen (h m) = digest_size t.
Proof.
  intros S; destruct S; unfold zlen.
  - now rewrite md5_size. - now rewrite sha1_size.
  - unfold SHA256. rewrite digest_length; [reflexivity|reflexivity|apply Nat.leb_le; reflexivity].
  - unfold SHA384. rewrite digest_length; [reflexivity|reflexivity|apply Nat.leb_le; reflexivity].
  - unfold SHA512. rewrite digest_length; [reflexivity|reflexivity|apply Nat.leb_le; reflexivity].
  - unfold SHA3_256. rewrite sponge_length by lia. reflexivity.
  - unfold SHA3_512. rewrite sponge_length by lia. reflexivity.
Qed.
Lemma hmac_standard junk t h key msg : standard t h -> zlen key < 2 ^ 31 -> zlen msg < 2 ^ 31 - 200 ->
  hmac_of (lib_hashes junk) t key msg = Some (rfc2104 h (hash_block t) key msg).
Proof.
  intros S K M. assert (N : exists g, hash_number (lib_hashes junk) t g) by (destruct S; eexists; constructor). destruct N as [g N].
  rewrite (hmac_of_rfc _ _ _ _ _ (proj1 (sizes_standard junk)) N). f_equal. apply rfc_ext; auto.
  - intros m L. eapply digest_standard; eauto.
  - intros m. rewrite (standard_size t h m S). destruct S; vm_compute; congruence.
  - destruct S; apply Nat.leb_le; reflexivity.
Qed.
