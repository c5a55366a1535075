(** Proofs about the context interface: from sender to receiver. *)
From Verif Require Import Bytes M_base64 M_util M_message M_codec M_cipher M_ctx
  S_base64 S_text S_codec S_cipher S_ctx P_bytes P_base64 P_util P_message P_codec P_cipher P_ctx P_ctx2 P_ctx3 P_ctx4.
From Coq Require Import Init.Byte List ZArith Bool Lia.
Import ListNotations.
Open Scope Z_scope.

Definition hmac_settings (H : hashes) (ht : Z) (hk : option bytes) : Prop :=
  (ht = 0 /\ hk = None) \/ (exists k h, hk = Some k /\ 1 <= zlen k <= 136 /\ hash_number H ht h).

Lemma final_succeeds H c r u v ms t h k hk salt : hashes_ok H -> inv H c ->
  c_rand c = Some r -> c_user c = Some u -> c_version c = Some v -> c_msg c = Some ms ->
  encode_spa (spa_of r u v ms c) = Some t -> hash_of H (c_dtype c) = Some h ->
  timeout_type (c_type c) (c_timeout c) = c_type c -> c_etype c = 1 -> zlen k <= 32 ->
  36 <= zlen (sealed H (c_mode c) k salt (plain t h)) < 1500 -> zlen (plain t h) + 32 <= 1500 ->
  hmac_settings H (c_htype c) hk ->
  exists c' mac, spa_data_final H (Some k) hk salt c = Ok (FKO_SUCCESS, c') /\ c_etype c' = 1 /\
    mac_part H (c_htype c) hk (sealed H (c_mode c) k salt (plain t h)) mac /\
    c_crypt c' = Some (sealed H (c_mode c) k salt (plain t h) ++ mac).
Proof.
  intros OK I R U V M E Hh TT ET KL SL PL HS.
  assert (X : exists c1, (if match c_enc c with Some _ => c_dirty c | None => true end then encode_spa_data H c else Ok (FKO_SUCCESS, c))
      = Ok (FKO_SUCCESS, c1) /\ c_enc c1 = Some t /\ inv H c1 /\ c_dirty c1 = false /\
      c_mode c1 = c_mode c /\ c_etype c1 = c_etype c /\ c_htype c1 = c_htype c /\ c_dtype c1 = c_dtype c).
  { destruct (match c_enc c with Some _ => c_dirty c | None => true end) eqn:Q.
    - destruct (encode_succeeds H c r u v ms t h) as (c1 & E1 & T1 & F); auto. exists c1. rewrite E1. split; auto. split; auto.
      destruct (encode_inv H c _ c1 I E1) as [A B]. split; auto. split; auto. apply B; auto.
    - exists c. split; auto. destruct (c_enc c) as [t'|] eqn:T'; [|discriminate].
      assert (F := iv_fresh _ _ I Q t' T'). destruct F as [(r' & u' & v' & m' & F1 & F2 & F3 & F4 & F5) _ _ _ _].
      rewrite R in F1; rewrite U in F2; rewrite V in F3; rewrite M in F4. injection F1 as <-. injection F2 as <-. injection F3 as <-. injection F4 as <-.
      unfold encode_spa in E. apply obind_inv in E as (x1 & G1 & E). apply obind_inv in E as (x2 & G2 & E).
      apply obind_inv in E as (t2 & T2 & E). apply obind_inv in E as (x3 & G3 & E). injection E as ->.
      rewrite F5 in T2. injection T2 as ->. split; [reflexivity|]. split; [exact I|]. auto. }
  destruct X as (c1 & E1 & T & I1 & D & MD & ET1 & HT & DT). assert (F := iv_fresh _ _ I1 D t T).
  unfold spa_data_final, encrypt_spa_data. rewrite E1. cbn [ok negb].
  pose proof F as [F1 F2 F3 [F4 F4'] _]. rewrite F4, F4'. cbn [negb]. rewrite ET1, ET.
  change (1 =? FKO_ENCRYPTION_RIJNDAEL) with true. cbv iota.
  rewrite (rijndael_encrypt_cases H OK c1 t h k salt F T) by congruence. cbv zeta.
  unfold RIJNDAEL_MAX_KEYSIZE. replace (zlen k >? 32) with false by lia. cbv iota.
  unfold cipher_text. rewrite strip_text, MD. fold (sealed H (c_mode c) k salt (plain t h)). set (b := sealed _ _ _ _ _) in *.
  assert (VL : is_valid_encoded_msg_len (strnlen b MAX_SPA_ENCODED_MSG_SIZE) = true).
  { unfold is_valid_encoded_msg_len, strnlen, MIN_SPA_ENCODED_MSG_SIZE, MAX_SPA_ENCODED_MSG_SIZE. lia. }
  rewrite VL. replace (zlen (plain t h) + 32 >? MAX_SPA_ENCODED_MSG_SIZE) with false by (unfold MAX_SPA_ENCODED_MSG_SIZE; lia).
  cbn [ok andb]. set (c2 := crypt_set c1 b).
  assert (HT2 : c_htype c2 = c_htype c) by exact HT. rewrite HT2.
  assert (CC : c_crypt c2 = Some b) by reflexivity.
  assert (CL : c_crypt_len c2 = zlen b). { change (strnlen b MAX_SPA_ENCODED_MSG_SIZE = zlen b). unfold strnlen, MAX_SPA_ENCODED_MSG_SIZE. lia. }
  destruct HS as [[H0 ->]|(hkk & hf & -> & HL & N)].
  - rewrite H0. cbn [FKO_HMAC_UNKNOWN Z.eqb negb]. exists c2, []. split; [reflexivity|]. split; [rewrite <- ET; exact ET1|].
    split; [left; auto|]. rewrite app_nil_r. exact CC.
  - pose proof (hash_number_range _ _ _ N). unfold FKO_HMAC_UNKNOWN. replace (c_htype c =? 0) with false by lia. cbn [negb].
    rewrite (set_spa_hmac_ok H hkk hf c2 b) by (auto; try congruence; try lia; apply crypt_bytes_text; auto).
    cbn [ok]. ctx_simp. rewrite CC, CL, HT2. do 2 eexists. split; [reflexivity|]. ctx_simp. split; [rewrite <- ET; exact ET1|].
    split; [right; exists hkk, hf; repeat split; auto; lia|]. f_equal. apply ztake_all. rewrite zlen_app. lia.
Qed.

Lemma b64_chars_all l : Forall is_b64_char l -> b64_all l = true.
Proof. unfold b64_all. intro F. apply forallb_forall. rewrite Forall_forall in F. intros x I. specialize (F x I).
  unfold is_b64_char in F. destruct x; try reflexivity; exfalso; vm_compute in F; intuition discriminate. Qed.

(** The text starts with the random value and a colon. *)
Definition starts (p t : bytes) : Prop := exists r, t = p ++ r.
Lemma starts_cat p t s : zlen p <= 1023 -> starts p t -> starts p (cat1024 t s).
Proof.
  intros L (r & ->). unfold cat1024, FKO_ENCODE_TMP_BUF_SIZE. rewrite <- app_assoc. unfold ztake, zlen in *.
  rewrite firstn_app. rewrite firstn_all2 by lia. eexists. reflexivity.
Qed.
Lemma starts_b64 p t s t' : zlen p <= 1023 -> starts p t -> append_b64 t s = Some t' -> starts p t'.
Proof. unfold append_b64. intros L S. destruct (zlen s >=? _); [discriminate|]. intro E; inversion E. apply starts_cat; auto. Qed.
Lemma encode_text_starts m t : zlen (s_rand m) = 16 -> encode_text m = Some t -> starts (s_rand m ++ $ ":") t.
Proof.
  intros L. unfold encode_text. cbv zeta. rewrite ztake_all by (unfold FKO_ENCODE_TMP_BUF_SIZE; lia).
  assert (PL : zlen (s_rand m ++ $ ":") <= 1023) by (rewrite zlen_app, L; vm_compute; congruence).
  assert (S0 : starts (s_rand m ++ $ ":") (cat1024 (s_rand m) ($ ":"))).
  { exists []. rewrite app_nil_r. unfold cat1024, FKO_ENCODE_TMP_BUF_SIZE. apply ztake_all. lia. }
  revert S0. generalize (cat1024 (s_rand m) ($ ":")). intros t0 S0 E.
  apply obind_inv in E as (t1 & E1 & E). apply starts_b64 with (p := s_rand m ++ $ ":") in E1; auto.
  apply obind_inv in E as (t2 & E2 & E). apply starts_b64 with (p := s_rand m ++ $ ":") in E2; auto; [|repeat apply starts_cat; auto].
  apply obind_inv in E as (t3 & E3 & E).
  assert (S3 : starts (s_rand m ++ $ ":") t3).
  { destruct (s_nat m); [|inversion E3; subst; auto]. eapply starts_b64; [exact PL| |exact E3]. apply starts_cat; auto. }
  apply obind_inv in E as (t4 & E4 & E).
  assert (S4 : starts (s_rand m ++ $ ":") t4).
  { destruct (s_auth m); [|inversion E4; subst; auto]. eapply starts_b64; [exact PL| |exact E4]. apply starts_cat; auto. }
  inversion E. destruct (_ && _); auto. apply starts_cat; auto.
Qed.

Lemma api_mode_range mode m : api_mode mode m -> 1 <= mode <= 8 /\ mode <> 7.
Proof. destruct 1; lia. Qed.
Lemma not_prefixed x r : x <> "U"%byte -> is_prefix ($ "U2FsdGVkX1") (x :: r) = false.
Proof. intro N. destruct (is_prefix ($ "U2FsdGVkX1") (x :: r)) eqn:E; auto. apply is_prefix_app in E as (q & Q). inversion Q. congruence. Qed.

Lemma accept_sealed H mode md k salt t h m hk ht mac dt dg : hashes_ok H -> api_mode mode md -> zlen salt = 8 -> zlen k <= 32 ->
  decode_spa H (plain t h) = Some (m, dt, dg) -> all_digits (s_rand m) -> zlen (s_rand m) = 16 -> starts (s_rand m ++ $ ":") t ->
  36 <= zlen (plain t h) <= 271 -> hmac_settings H ht hk ->
  mac_part H ht hk (sealed H mode k salt (plain t h)) mac ->
  exists h2, fko_new_with_data H (Some (zdrop 10 (sealed H mode k salt (plain t h) ++ mac))) (Some k) mode hk ht = Ok (FKO_SUCCESS, h2) /\ shows h2 m.
Proof.
  intros OK A S8 KL DEC DIG R16 (rest & ST) PL HS MP.
  destruct (api_mode_range _ _ A) as [MR M7].
  assert (SLEN := sealed_len H mode md k salt (plain t h) OK A S8).
  assert (SCH := sealed_chars H mode k salt (plain t h)).
  assert (CLEN := rij_encrypt_len H mode md k salt (plain t h) OK A S8).
  assert (SDEC : b64_decode (sealed H mode k salt (plain t h)) = Some (rij_encrypt H mode k salt (plain t h))).
  { unfold sealed. rewrite <- strip_text. apply b64_round_trip_stripped. }
  assert (RDEC : rij_decrypt H mode k (rij_encrypt H mode k salt (plain t h)) = Ok (plain t h)).
  { destruct (salted_format H mode md k salt (plain t h) OK (api_mode_of _ _ A) S8) as (? & ? & ? & ? & ? & Q). apply Q. }
  destruct (sealed_prefix H mode k salt (plain t h) ltac:(lia)) as (x & r & SP & XU).
  set (sl := sealed H mode k salt (plain t h)) in *. set (ci := rij_encrypt H mode k salt (plain t h)) in *.
  assert (N : 48 <= zlen ci <= 288 /\ zlen ci mod 16 = 0 /\ zlen ci - 32 <= zlen (plain t h)).
  { rewrite CLEN. split; [|split]; Z.div_mod_to_equations; lia. }
  assert (SL : 64 <= zlen sl < 400) by (rewrite SLEN; rewrite <- CLEN; destruct N as [N _]; Z.div_mod_to_equations; lia).
  assert (BL : zlen (x :: r) = zlen sl - 10) by (rewrite SP, zlen_app; change (zlen ($ "U2FsdGVkX1")) with 10; lia).
  assert (DROP : zdrop 10 (sl ++ mac) = (x :: r) ++ mac) by (rewrite SP; reflexivity).
  assert (PFX : pfx ($ "U2FsdGVkX1") (x :: r) = sl) by (unfold pfx; rewrite not_prefixed by auto; auto).
  assert (WP : with_prefix mode (x :: r) = sl).
  { unfold with_prefix, prefix_of. replace (mode =? 7) with false by lia. exact PFX. }
  assert (BCH : b64_all (x :: r) = true).
  { apply b64_chars_all. rewrite SP in SCH. apply Forall_app in SCH. apply SCH. }
  assert (D1 : all_digits (ztake 16 (plain t h))).
  { unfold plain. rewrite ST, <- !app_assoc. rewrite ztake_app by lia. exact DIG. }
  assert (D2 : nth 16 (plain t h) x00 = ":"%byte).
  { unfold plain. rewrite ST, <- !app_assoc. rewrite app_nth2 by (unfold zlen in R16; lia). replace (16 - length (s_rand m))%nat with 0%nat by (unfold zlen in R16; lia). reflexivity. }
  rewrite DROP. unfold fko_new_with_data. cbv zeta.
  destruct HS as [[-> ->]|(hkk & hf & -> & HL & HN)].
  - destruct MP as [[_ ->]|(? & ? & ? & _)]; [|discriminate]. rewrite app_nil_r.
    assert (LN : strnlen (x :: r) MAX_SPA_ENCODED_MSG_SIZE = zlen (x :: r)) by (unfold strnlen, MAX_SPA_ENCODED_MSG_SIZE; lia).
    rewrite LN. assert (V : is_valid_encoded_msg_len (zlen (x :: r)) = true) by (unfold is_valid_encoded_msg_len, MIN_SPA_ENCODED_MSG_SIZE, MAX_SPA_ENCODED_MSG_SIZE; lia).
    rewrite V. cbn [negb]. unfold set_encryption_mode, FKO_LAST_ENC_MODE. replace ((mode <? 0) || (mode >=? 9)) with false by lia.
    cbn [ok negb]. unfold set_hmac_type. cbn [Z.ltb Z.geb Z.compare FKO_LAST_HMAC_MODE orb ok negb].
    set (c := set_c_htype 0 _).
    destruct (decrypt_new H k c (x :: r) eq_refl eq_refl ltac:(right; reflexivity) ltac:(discriminate) ltac:(lia) KL BCH ltac:(split; reflexivity)
      ci (plain t h) m dt dg) as (c' & E & SH); auto; try apply N.
    { rewrite PFX. exact SDEC. }
    rewrite E. cbn [ok]. eauto.
  - destruct MP as [[-> _]|(k2 & h2 & E2 & KL2 & N2 & ->)]; [inversion HN|]. injection E2 as <-.
    assert (h2 = hf). { apply hash_of_number in HN, N2. congruence. } subst h2. clear N2.
    set (mac := mac_text hf ht hkk sl). assert (ML : zlen mac = b64_len_of ht) by (apply (mac_text_len H); auto).
    pose proof (b64_len_of_range ht) as NR. pose proof (hash_number_range _ _ _ HN) as HTR.
    set (pk := (x :: r) ++ mac). assert (PKL : zlen pk = zlen (x :: r) + b64_len_of ht) by (unfold pk; rewrite zlen_app; lia).
    assert (LN : strnlen pk MAX_SPA_ENCODED_MSG_SIZE = zlen pk) by (unfold strnlen, MAX_SPA_ENCODED_MSG_SIZE; lia).
    rewrite LN. assert (V : is_valid_encoded_msg_len (zlen pk) = true) by (unfold is_valid_encoded_msg_len, MIN_SPA_ENCODED_MSG_SIZE, MAX_SPA_ENCODED_MSG_SIZE; lia).
    rewrite V. cbn [negb]. unfold set_encryption_mode, FKO_LAST_ENC_MODE. replace ((mode <? 0) || (mode >=? 9)) with false by lia.
    cbn [ok negb]. unfold set_hmac_type, FKO_LAST_HMAC_MODE. replace ((ht <? 0) || (ht >=? 8)) with false by lia. cbn [ok negb].
    destruct hkk as [|k0 hkk]; [rewrite zlen_nil in HL; lia|].
    change (set_c_htype ht (set_c_mode mode _)) with (received_ctx pk mode ht).
    assert (CUT : cut_off (b64_len_of ht) pk = x :: r).
    { unfold cut_off, pk. apply ztake_app. rewrite zlen_app. lia. }
    destruct (verify_new H pk mode ht (k0 :: hkk) OK ltac:(lia)) as [(e & c' & _ & _ & NO)|(hf' & HN' & _ & _ & _ & _ & E)]; cbv zeta in *.
    { exfalso. apply NO. exists hf. rewrite CUT, WP. repeat split; auto; lia. }
    assert (hf' = hf) by (apply hash_of_number in HN', HN; congruence). subst hf'.
    rewrite E, CUT, WP. cbn [ok negb]. set (c := set_c_hmac _ _).
    assert (CE : c_crypt c = Some sl /\ c_crypt_len c = zlen sl /\ c_mode c = mode /\ clean c).
    { unfold c, prefixed, prefix_of. replace (mode =? 7) with false by lia. rewrite not_prefixed by auto. cbn [negb].
      split; [ctx_simp; rewrite SP; reflexivity|]. split; [ctx_simp; rewrite SP, zlen_app; lia|]. split; [reflexivity|split; reflexivity]. }
    destruct CE as (C1 & C2 & C3 & C4).
    assert (ISP : is_prefix ($ "U2FsdGVkX1") sl = true) by (apply is_prefix_app; exists (x :: r); auto).
    destruct (decrypt_new H k c sl C1 C2 ltac:(destruct (c_salted c); auto) (fun _ => ISP) ltac:(lia) KL (b64_chars_all _ SCH) C4
      ci (plain t h) m dt dg) as (c' & E' & SH); auto; try apply N.
    { unfold pfx. rewrite ISP. exact SDEC. }
    { rewrite C3. exact RDEC. }
    rewrite E'. cbn [ok]. eauto.
Qed.

Lemma shows_spa c m : shows (Live c) m -> c_rand c = Some (s_rand m) /\ c_user c = Some (s_user m) /\ c_version c = Some (s_version m) /\
  c_msg c = Some (s_msg m) /\ spa_of (s_rand m) (s_user m) (s_version m) (s_msg m) c = m.
Proof.
  destruct m as [r u ti v ty ms na au to]. unfold shows, reads, get, fetch, fko_get_rand_value, fko_get_username, fko_get_timestamp, fko_get_version,
    fko_get_spa_message_type, fko_get_spa_message, fko_get_spa_nat_access, fko_get_spa_server_auth, fko_get_spa_client_timeout, getter, spa_of.
  cbn [option_map s_rand s_user s_time s_version s_type s_msg s_nat s_auth s_timeout].
  intros (A & B & C & D & E & F & G & I & J). inversion A. inversion B. inversion C. inversion D. inversion E. inversion F. inversion G. inversion I. inversion J.
  repeat split; auto; congruence.
Qed.
Lemma timeout_type_sendable m : sendable m -> timeout_type (s_type m) (s_timeout m) = s_type m.
Proof.
  intros [_ _ _ _ T _ _ _ [TR TT]]. unfold timeout_type, timed_type in *.
  assert (D : s_type m = 0 \/ s_type m = 1 \/ s_type m = 2 \/ s_type m = 3 \/ s_type m = 4 \/ s_type m = 5 \/ s_type m = 6) by lia.
  destruct (s_timeout m >? 0) eqn:G; repeat (destruct D as [D|D]; [rewrite D in *; try reflexivity; exfalso; lia|]); rewrite D in *; try reflexivity; exfalso; lia.
Qed.

Lemma end_to_end_inv H c m mode md dt hash ht key hk salt pt :
  hashes_ok H -> inv H c -> shows (Live c) m -> sendable m -> all_digits (s_rand m) ->
  reads (Live c) AEncType (VNum 1) -> reads (Live c) AMode (VNum mode) -> api_mode mode md ->
  reads (Live c) ADigestType (VNum dt) -> hash_number H dt hash -> plaintext_of H dt m = Some pt -> zlen pt <= 271 ->
  reads (Live c) AHmacType (VNum ht) -> hmac_settings H ht hk -> zlen key <= 32 -> zlen salt = 8 ->
  exists h1 pkt h2,
    run_call H (CFinal (Some key) hk salt) (Live c) = Ok (FKO_SUCCESS, h1) /\
    fko_get_spa_data h1 = Ok (FKO_SUCCESS, Some pkt) /\
    fko_new_with_data H (Some pkt) (Some key) mode hk ht = Ok (FKO_SUCCESS, h2) /\ shows h2 m /\
    exists mac, pkt = zdrop 10 (sealed H mode key salt pt ++ mac) /\ mac_part H ht hk (sealed H mode key salt pt) mac.
Proof.
  intros OK I SM SD DIG R1 R2 A R3 HN PT PTL R4 HS KL S8.
  destruct (shows_spa c m SM) as (F1 & F2 & F3 & F4 & F5).
  injection R1 as R1. injection R2 as R2. injection R3 as R3. injection R4 as R4.
  destruct (codec_round_trip' H dt hash m OK HN SD) as (t & t' & h' & ENC & PT' & DEC & _).
  rewrite PT in PT'. injection PT' as ->.
  assert (PL : plain t hash = t ++ ":"%byte :: b64_text (hash t)) by (unfold plain, digest_b64; rewrite strip_text; reflexivity).
  rewrite <- PL in *.
  assert (TL : 36 <= zlen (plain t hash)).
  { unfold decode_spa in DEC. apply obind_inv in DEC as (x & G & _). apply guard_inv in G. unfold is_valid_encoded_msg_len, MIN_SPA_ENCODED_MSG_SIZE in G. lia. }
  assert (CLEN := rij_encrypt_len H mode md key salt (plain t hash) OK A S8).
  assert (SLEN := sealed_len H mode md key salt (plain t hash) OK A S8).
  assert (SL : 64 <= zlen (sealed H mode key salt (plain t hash)) < 400).
  { rewrite SLEN. assert (16 + 16 * (zlen (plain t hash) / 16 + 1) <= 288 /\ 48 <= 16 + 16 * (zlen (plain t hash) / 16 + 1)) by (Z.div_mod_to_equations; lia).
    Z.div_mod_to_equations; lia. }
  destruct (final_succeeds H c (s_rand m) (s_user m) (s_version m) (s_msg m) t hash key hk salt) as (c' & mac & FIN & ET & MP & CR);
    auto; try congruence; try lia.
  { apply hash_of_number. rewrite R3. exact HN. }
  { assert (X := timeout_type_sendable m SD). rewrite <- F5 in X. exact X. }
  { rewrite R2. lia. }
  rewrite R2 in *. rewrite R4 in *.
  destruct (accept_sealed H mode md key salt t hash m hk ht mac t' (b64_text (hash t))) as (h2 & NEW & SH2); auto; try lia.
  { apply SD. }
  { apply encode_text_starts; [apply SD|]. unfold encode_spa in ENC. apply obind_inv in ENC as (x1 & G1 & E). apply obind_inv in E as (x2 & G2 & E).
    apply obind_inv in E as (t2 & T2 & E). apply obind_inv in E as (x3 & G3 & E). injection E as ->. exact T2. }
  exists (Live c'), (zdrop 10 (sealed H mode key salt (plain t hash) ++ mac)), h2.
  split; [unfold run_call, api, on_live; rewrite FIN; reflexivity|]. split; [|split; [exact NEW|split; [exact SH2|exists mac; auto]]].
  unfold fko_get_spa_data, get_spa_data. rewrite CR, ET.
  assert (ML : 0 <= zlen mac <= 86).
  { destruct MP as [[_ ->]|(? & hf & _ & _ & N & ->)]; [vm_compute; split; congruence|]. rewrite (mac_text_len H) by auto. pose proof (b64_len_of_range ht). lia. }
  assert (V : is_valid_encoded_msg_len (strnlen (sealed H mode key salt (plain t hash) ++ mac) MAX_SPA_ENCODED_MSG_SIZE) = true).
  { unfold is_valid_encoded_msg_len, strnlen, MIN_SPA_ENCODED_MSG_SIZE, MAX_SPA_ENCODED_MSG_SIZE. rewrite zlen_app. lia. }
  rewrite V. reflexivity.
Qed.
Theorem end_to_end H ks h0 m mode md dt hash ht key hk salt pt :
  hashes_ok H -> sender_history H ks h0 -> shows h0 m -> sendable m -> all_digits (s_rand m) ->
  reads h0 AEncType (VNum 1) -> reads h0 AMode (VNum mode) -> api_mode mode md ->
  reads h0 ADigestType (VNum dt) -> hash_number H dt hash -> plaintext_of H dt m = Some pt -> zlen pt <= 271 ->
  reads h0 AHmacType (VNum ht) -> hmac_settings H ht hk -> zlen key <= 32 -> zlen salt = 8 ->
  exists h1 pkt h2,
    run_call H (CFinal (Some key) hk salt) h0 = Ok (FKO_SUCCESS, h1) /\
    fko_get_spa_data h1 = Ok (FKO_SUCCESS, Some pkt) /\
    fko_new_with_data H (Some pkt) (Some key) mode hk ht = Ok (FKO_SUCCESS, h2) /\ shows h2 m.
Proof.
  intros OK SH. destruct (history_inv H ks h0 SH) as (c & -> & I). intros SM SD DIG R1 R2 A R3 HN PT PTL R4 HS KL S8.
  destruct (end_to_end_inv H c m mode md dt hash ht key hk salt pt OK I SM SD DIG R1 R2 A R3 HN PT PTL R4 HS KL S8) as (h1 & pkt & h2 & Q1 & Q2 & Q3 & Q4 & _).
  exists h1, pkt, h2. auto.
Qed.
