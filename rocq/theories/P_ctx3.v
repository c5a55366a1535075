(** Proofs about the context interface: the packet, and what the receiver makes of it. *)
From Verif Require Import Bytes M_base64 M_util M_message M_codec M_cipher M_ctx
  S_base64 S_text S_codec S_cipher S_ctx P_bytes P_base64 P_util P_message P_codec P_cipher P_ctx P_ctx2.
From Coq Require Import Init.Byte List ZArith Bool Lia.
Import ListNotations.
Open Scope Z_scope.

Lemma strip_text l : strip_b64_eq (b64_encode l) = b64_text l.
Proof. exact (digest_b64_text (fun _ => l) []). Qed.
Lemma rfc2104_len H t h B key msg : hashes_ok H -> hash_number H t h -> zlen (rfc2104 h B key msg) = digest_len_of t.
Proof.
  intros OK N. unfold rfc2104. cbv zeta. rewrite (hash_number_len H t h _ OK N). destruct N; reflexivity.
Qed.
Lemma b64_text_len l : zlen (b64_text l) = (4 * zlen l + 2) / 3.
Proof. rewrite <- strip_text. apply b64_stripped_len. Qed.
Lemma b64_len_digest t : 1 <= t <= 7 -> (4 * digest_len_of t + 2) / 3 = b64_len_of t.
Proof.
  intro R. unfold digest_len_of, b64_len_of. repeat match goal with |- context [if ?b then _ else _] => destruct b end; reflexivity.
Qed.
Definition mac_text (h : bytes -> bytes) (t : Z) (key msg : bytes) : bytes := b64_text (rfc2104 h (hash_block t) key msg).
Lemma mac_text_len H t h key msg : hashes_ok H -> hash_number H t h -> zlen (mac_text h t key msg) = b64_len_of t.
Proof.
  intros OK N. unfold mac_text. rewrite b64_text_len, (rfc2104_len H t) by auto. apply b64_len_digest.
  eapply hash_number_range; eauto.
Qed.
Lemma is_b64_len_of t : is_b64_digest_len (b64_len_of t) = true.
Proof. unfold b64_len_of. repeat match goal with |- context [if ?b then _ else _] => destruct b end; reflexivity. Qed.
Lemma b64_len_of_range t : 22 <= b64_len_of t <= 86.
Proof. unfold b64_len_of. repeat match goal with |- context [if ?b then _ else _] => destruct b end; lia. Qed.

(** [fko_set_spa_hmac] once the packet text is known. *)
Lemma set_spa_hmac_ok H k h c m : hashes_ok H -> hash_number H (c_htype c) h -> zlen k <= 136 -> crypt_bytes c = Some m ->
  set_spa_hmac H (Some k) c = Ok (FKO_SUCCESS, set_c_hmac (Some (mac_text h (c_htype c) k m)) c).
Proof.
  intros OK N L C. unfold set_spa_hmac, MAX_DIGEST_BLOCK_LEN. replace (zlen k >? 136) with false by lia.
  rewrite (proj2 (hash_of_number _ _ _) N), C, (hmac_of_rfc H _ h) by auto.
  rewrite ztake_all by (rewrite (rfc2104_len H (c_htype c)) by auto; lia).
  rewrite strip_text. fold (mac_text h (c_htype c) k m). rewrite (mac_text_len H) by auto. rewrite is_b64_len_of. reflexivity.
Qed.
Lemma set_spa_hmac_inv H k c e c' : hashes_ok H -> set_spa_hmac H (Some k) c = Ok (e, c') -> e = FKO_SUCCESS ->
  exists h m, hash_number H (c_htype c) h /\ zlen k <= 136 /\ crypt_bytes c = Some m /\
    c' = set_c_hmac (Some (mac_text h (c_htype c) k m)) c.
Proof.
  intros OK E S. unfold set_spa_hmac in E. destruct (zlen k >? MAX_DIGEST_BLOCK_LEN) eqn:L; [inversion E; subst; discriminate|].
  destruct (hash_of H (c_htype c)) as [h|] eqn:N; [|inversion E; subst; discriminate].
  destruct (crypt_bytes c) as [m|] eqn:C; [|discriminate].
  apply hash_of_number in N. rewrite (hmac_of_rfc H _ h) in E by auto.
  rewrite ztake_all in E by (rewrite (rfc2104_len H (c_htype c)) by auto; lia).
  rewrite strip_text in E. fold (mac_text h (c_htype c) k m) in E. rewrite (mac_text_len H), is_b64_len_of in E by auto.
  inversion E; subst. exists h, m. unfold MAX_DIGEST_BLOCK_LEN in L. repeat split; auto. lia.
Qed.
Lemma crypt_bytes_text c t : c_crypt c = Some t -> c_crypt_len c = zlen t -> crypt_bytes c = Some t.
Proof.
  intros T L. unfold crypt_bytes. rewrite T, L. replace (zlen t <=? zlen t + 1) with true by lia. f_equal. apply ztake_app. reflexivity.
Qed.

(** The packet text for a key and a plaintext. *)
Definition sealed (H : hashes) (mode : Z) (k salt pt : bytes) : bytes := b64_text (rij_encrypt H mode k salt pt).
Definition mac_part (H : hashes) (ht : Z) (hk : option bytes) (body mac : bytes) : Prop :=
  (ht = 0 /\ mac = []) \/
  (exists k h, hk = Some k /\ zlen k <= 136 /\ hash_number H ht h /\ mac = mac_text h ht k body).

Lemma encrypt_spec H key salt c c' : hashes_ok H -> inv H c -> encrypt_spa_data H key salt c = Ok (FKO_SUCCESS, c') ->
  inv H c' /\ c_dirty c' = false /\ c_etype c' = 1 /\
  exists k t h, key = Some k /\ zlen k <= 32 /\ c_enc c' = Some t /\ fresh H c' t /\ hash_of H (c_dtype c') = Some h /\
    c_crypt c' = Some (sealed H (c_mode c') k salt (plain t h)) /\
    c_crypt_len c' = zlen (sealed H (c_mode c') k salt (plain t h)) /\
    36 <= zlen (sealed H (c_mode c') k salt (plain t h)) < 1500 /\ zlen (plain t h) + 32 <= 1500.
Proof.
  intros OK I E0. assert (I' := encrypt_inv H _ _ _ _ _ I E0). revert E0. unfold encrypt_spa_data.
  destruct (if match c_enc c with Some _ => c_dirty c | None => true end then encode_spa_data H c else Ok (FKO_SUCCESS, c))
    as [[e1 c1]|] eqn:E; [|discriminate].
  destruct (negb (ok e1)) eqn:O; [intro X; inversion X; subst; discriminate|].
  destruct (negb (is_valid_encoded_msg_len (c_enc_len c1))); [discriminate|].
  destruct (c_etype c1 =? FKO_ENCRYPTION_RIJNDAEL) eqn:ET; [|destruct (c_etype c1 =? FKO_ENCRYPTION_GPG); discriminate].
  destruct key as [k|]; [|discriminate].
  assert (X : inv H c1 /\ c_dirty c1 = false /\ exists t, c_enc c1 = Some t).
  { destruct (match c_enc c with Some _ => c_dirty c | None => true end) eqn:Q.
    - destruct (encode_inv H c e1 c1 I E) as [A B]. split; auto. apply B. destruct e1; auto; discriminate.
    - inversion E; subst. split; auto. destruct (c_enc c1) as [t|]; [|discriminate]. eauto. }
  destruct X as (I1 & D & t & T). assert (F := iv_fresh _ _ I1 D t T). pose proof F as [F1 F2 F3 F4 (h & F5 & F6)].
  rewrite (rijndael_encrypt_cases H OK c1 t h k salt F T F5). cbv zeta.
  destruct (zlen k >? RIJNDAEL_MAX_KEYSIZE) eqn:KL; [discriminate|].
  unfold cipher_text. rewrite strip_text. fold (sealed H (c_mode c1) k salt (plain t h)). set (b := sealed _ _ _ _ _) in *.
  destruct (is_valid_encoded_msg_len (strnlen b MAX_SPA_ENCODED_MSG_SIZE)) eqn:V; [|discriminate].
  destruct (zlen (plain t h) + 32 >? MAX_SPA_ENCODED_MSG_SIZE) eqn:Z; [discriminate|]. intro X; inversion X; subst c'.
  split; auto. split; [exact D|]. split; [unfold crypt_set; ctx_simp; unfold FKO_ENCRYPTION_RIJNDAEL in ET; lia|].
  exists k, t, h. split; auto. split; [unfold RIJNDAEL_MAX_KEYSIZE in KL; lia|]. split; [exact T|].
  split. { apply (fresh_core H c1); auto. }
  split; [exact F5|]. unfold crypt_set. ctx_simp. fold b.
  unfold is_valid_encoded_msg_len, strnlen, MIN_SPA_ENCODED_MSG_SIZE, MAX_SPA_ENCODED_MSG_SIZE in *.
  split; auto. split; [lia|]. lia.
Qed.

Lemma final_spec H key hk salt c c' : hashes_ok H -> inv H c -> spa_data_final H key hk salt c = Ok (FKO_SUCCESS, c') ->
  c_etype c' = 1 /\
  exists k t h mac, key = Some k /\ zlen k <= 32 /\ c_enc c' = Some t /\ fresh H c' t /\ hash_of H (c_dtype c') = Some h /\
    mac_part H (c_htype c') hk (sealed H (c_mode c') k salt (plain t h)) mac /\
    c_crypt c' = Some (sealed H (c_mode c') k salt (plain t h) ++ mac) /\
    36 <= zlen (sealed H (c_mode c') k salt (plain t h)) < 1500 /\ zlen (plain t h) + 32 <= 1500.
Proof.
  intros OK I. unfold spa_data_final. destruct (encrypt_spa_data H key salt c) as [[e1 c1]|] eqn:E; [|discriminate].
  destruct (ok e1) eqn:O; cbn [andb]; [|intro X; inversion X; subst; discriminate].
  assert (e1 = FKO_SUCCESS) by (destruct e1; auto; discriminate). subst e1.
  destruct (encrypt_spec _ _ _ _ _ OK I E) as (I1 & D & ET & k & t & h & -> & KL & T & F & Hh & C & CL & R1 & R2).
  unfold FKO_HMAC_UNKNOWN. destruct (c_htype c1 =? 0) eqn:HT; cbn [negb].
  { intro X; inversion X; subst. split; auto. exists k, t, h, []. rewrite app_nil_r. repeat (split; auto). left. split; auto. lia. }
  destruct hk as [hk|]; [|discriminate].
  destruct (set_spa_hmac H (Some hk) c1) as [[e2 c2]|] eqn:S; [|discriminate].
  destruct (ok e2) eqn:O2; [|intro X; inversion X; subst; discriminate].
  apply set_spa_hmac_inv in S as (hf & m & N & L & CB & ->); auto; [|destruct e2; auto; discriminate].
  rewrite (crypt_bytes_text _ _ C CL) in CB. inversion CB; subst m; clear CB.
  ctx_simp. rewrite C. intro X; inversion X; subst; clear X. ctx_simp. split; auto.
  exists k, t, h, (mac_text hf (c_htype c1) hk (sealed H (c_mode c1) k salt (plain t h))).
  split; auto. split; auto. split; auto. split; [apply (fresh_core H c1); auto|]. split; auto. split.
  { right. eauto 6. }
  split; auto. f_equal. apply ztake_all. rewrite zlen_app. lia.
Qed.

Lemma final_no_fault H key hk salt c : hashes_ok H -> inv H c -> spa_data_final H key hk salt c <> Fault.
Proof.
  intros OK I. unfold spa_data_final. destruct (encrypt_spa_data H key salt c) as [[e1 c1]|] eqn:E;
    [|exfalso; revert E; apply encrypt_no_fault; auto].
  destruct (ok e1) eqn:O; cbn [andb]; [|discriminate].
  assert (e1 = FKO_SUCCESS) by (destruct e1; auto; discriminate). subst e1.
  destruct (encrypt_spec _ _ _ _ _ OK I E) as (I1 & D & ET & k & t & h & -> & KL & T & F & Hh & C & CL & R1 & R2).
  unfold FKO_HMAC_UNKNOWN. destruct (c_htype c1 =? 0) eqn:HT; cbn [negb]; [discriminate|].
  destruct hk as [hk|]; [|discriminate].
  destruct (set_spa_hmac H (Some hk) c1) as [[e2 c2]|] eqn:S.
  - destruct (ok e2) eqn:O2; [|discriminate].
    apply set_spa_hmac_inv in S as (hf & m & N & L & CB & ->); auto; [|destruct e2; auto; discriminate].
    ctx_simp. rewrite C. discriminate.
  - exfalso. unfold set_spa_hmac in S. destruct (_ >? _); [discriminate|]. destruct (hash_of H (c_htype c1)); [|discriminate].
    rewrite (crypt_bytes_text _ _ C CL) in S. destruct (hmac_of _ _ _ _); discriminate.
Qed.

(** Once the encoding works, everything else is known to work. *)
Lemma encode_succeeds H c r u v m t h : hashes_ok H -> inv H c -> c_rand c = Some r -> c_user c = Some u -> c_version c = Some v ->
  c_msg c = Some m -> encode_spa (spa_of r u v m c) = Some t -> hash_of H (c_dtype c) = Some h ->
  timeout_type (c_type c) (c_timeout c) = c_type c ->
  exists c', encode_spa_data H c = Ok (FKO_SUCCESS, c') /\ c_enc c' = Some t /\
    c_mode c' = c_mode c /\ c_etype c' = c_etype c /\ c_htype c' = c_htype c /\ c_dtype c' = c_dtype c.
Proof.
  intros OK I R U V M E Hh TT. unfold encode_spa_data. rewrite R, U, V, M.
  unfold encode_spa in E. apply obind_inv in E as (x1 & G1 & E). apply guard_inv in G1.
  apply obind_inv in E as (x2 & G2 & E). apply guard_inv in G2.
  apply obind_inv in E as (t' & T & E). apply obind_inv in E as (x3 & G3 & E). apply guard_inv in G3. injection E as ->.
  unfold spa_of in *. cbn [s_rand s_user s_time s_version s_type s_msg s_nat s_auth s_timeout] in *.
  apply andb_true_iff in G1 as [G1 G1b]. apply andb_true_iff in G1 as [G1 G1a]. rewrite G1. cbn [negb orb].
  unfold strnlen, MAX_SPA_VERSION_SIZE, MAX_SPA_MESSAGE_SIZE.
  replace (Z.min (zlen v) 8 =? 0) with false by lia. replace (Z.min (zlen m) 256 =? 0) with false by lia. cbn [orb].
  replace ((c_type c =? FKO_NAT_ACCESS_MSG) && match c_nat c with Some n => Z.min (zlen n) 256 =? 0 | None => true end) with false.
  2:{ destruct (c_type c =? FKO_NAT_ACCESS_MSG); [|reflexivity]. cbn [negb orb] in G2. destruct (c_nat c) as [n|]; [|discriminate]. cbn [andb]. lia. }
  rewrite T.
  assert (L : line t).
  { destruct (iv_rand _ _ I) as (r' & R' & RN). rewrite R in R'. inversion R'; subst r'.
    rewrite (iv_version _ _ I) in V. inversion V; subst v. apply encode_text_line in T; auto. intro X; repeat (destruct X as [X|X]; [discriminate|]); destruct X. }
  assert (SL : Z.min (zlen t) MAX_SPA_ENCODED_MSG_SIZE = zlen t) by (unfold MAX_SPA_ENCODED_MSG_SIZE; destruct L; lia).
  rewrite SL, G3. cbn [negb]. unfold set_client_timeout. pose proof (iv_tmo _ _ I) as TM. unfold tmo in TM.
  rewrite i32_small by lia. replace (c_timeout c <? 0) with false by lia. ctx_simp. unfold set_spa_digest. ctx_simp.
  unfold set_digest, strnlen. rewrite cstr_id by apply L. rewrite SL. replace (zlen t =? MAX_SPA_ENCODED_MSG_SIZE) with false
    by (unfold MAX_SPA_ENCODED_MSG_SIZE; destruct L; lia).
  rewrite Hh. cbn [ok]. eexists. split; [reflexivity|]. repeat split; reflexivity.
Qed.

Lemma rij_encrypt_len H mode m key salt pt : hashes_ok H -> api_mode mode m -> zlen salt = 8 ->
  zlen (rij_encrypt H mode key salt pt) = 16 + 16 * (zlen pt / 16 + 1).
Proof.
  intros OK A S. destruct (salted_format H mode m key salt pt OK (api_mode_of _ _ A) S)
    as (k & iv & padded & P & C & _ & _ & _ & PK & CU & _ & E & LC & _).
  rewrite E. rewrite !zlen_app, S. change (zlen ($ "Salted__")) with 8.
  assert (Q : zlen (concat C) = zlen padded) by (unfold zlen; lia). rewrite Q.
  destruct PK as (n & N & -> & D). assert (D' : zlen (pt ++ repeat (zb n) (Z.to_nat n)) mod 16 = 0).
  { apply cut_length in CU. unfold zlen. rewrite CU, Nat2Z.inj_mul, Z.mul_comm. apply Z_mod_mult. }
  rewrite zlen_app, zlen_repeat in *. clear - N D'. assert (zlen pt = 16 * (zlen pt / 16) + zlen pt mod 16) by lia. lia.
Qed.
Lemma sealed_len H mode m key salt pt : hashes_ok H -> api_mode mode m -> zlen salt = 8 ->
  zlen (sealed H mode key salt pt) = (4 * (16 + 16 * (zlen pt / 16 + 1)) + 2) / 3.
Proof. intros. unfold sealed. rewrite b64_text_len, (rij_encrypt_len H mode m) by auto. reflexivity. Qed.

Lemma sealed_chars H mode k salt pt : Forall is_b64_char (sealed H mode k salt pt).
Proof. unfold sealed. rewrite <- strip_text. apply b64_stripped_chars. Qed.

(** Every packet text starts with the ten characters that are dropped, and the eleventh is
    not the first of them. *)
Lemma sealed_prefix H mode k salt pt : 1 <= zlen salt -> exists x r, sealed H mode k salt pt = $ "U2FsdGVkX1" ++ x :: r /\ x <> "U"%byte.
Proof.
  intro S. destruct salt as [|s0 salt]; [rewrite zlen_nil in S; lia|].
  unfold sealed, rij_encrypt. destruct (rij_key_iv H mode k (s0 :: salt)) as (kk, iv).
  set (rest := block_encrypt _ _ _ _ _). clearbody rest. unfold b64_text.
  change ($ "Salted__" ++ (s0 :: salt) ++ rest) with ("S"%byte :: "a"%byte :: "l"%byte :: "t"%byte :: "e"%byte :: "d"%byte :: "_"%byte :: "_"%byte :: s0 :: salt ++ rest).
  cbn [rfc4648]. set (y := sextet_char (bv "_"%byte mod 16 * 4 + bv s0 / 64)).
  assert (Y : y = "8"%byte \/ y = "9"%byte \/ y = "+"%byte \/ y = "/"%byte).
  { unfold y. pose proof (bv_range s0). assert (Q : bv s0 / 64 = 0 \/ bv s0 / 64 = 1 \/ bv s0 / 64 = 2 \/ bv s0 / 64 = 3) by lia.
    destruct Q as [-> | [-> | [-> | ->]]]; auto. }
  set (z := sextet_char (bv s0 mod 64)). set (w := rfc4648 _).
  assert (NE : negb (beq y "="%byte) = true) by (destruct Y as [-> | [-> | [-> | ->]]]; reflexivity).
  clearbody y z w.
  exists y, (filter (fun c => negb (beq c "="%byte)) (z :: w)). split.
  - change (sextet_char (bv "S"%byte / 4)) with "U"%byte. cbn [filter]. rewrite NE. reflexivity.
  - destruct Y as [-> | [-> | [-> | ->]]]; discriminate.
Qed.
