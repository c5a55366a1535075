(** Proofs about the context interface: the receiver. *)
From Verif Require Import Bytes M_base64 M_util M_message M_codec M_cipher M_ctx
  S_base64 S_text S_codec S_cipher S_ctx P_bytes P_base64 P_util P_message P_codec P_cipher P_ctx P_ctx2 P_ctx3.
From Coq Require Import Init.Byte List ZArith Bool Lia.
Import ListNotations.
Open Scope Z_scope.

(** ** Prefixes *)
Lemma prefix_take p (l : bytes) : zlen p <= zlen l -> (is_prefix p l = true <-> ztake (zlen p) l = p).
Proof.
  intro L. rewrite is_prefix_app. split.
  - intros (r & ->). apply ztake_app. reflexivity.
  - intro E. exists (zdrop (zlen p) l). rewrite <- E at 1. symmetry. apply ztake_zdrop.
Qed.
Definition b64_all (t : bytes) : bool := forallb b64_class t.
Lemma text_is_base64_all t : zlen t < 65536 -> text_is_base64 t (zlen t) = b64_all t.
Proof.
  intro L. unfold text_is_base64, is_base64, b64_all. pose proof (zlen_nonneg t).
  rewrite u16_small by lia. rewrite ztake_all by lia. replace (zlen t <=? zlen t) with true by lia. reflexivity.
Qed.
Definition pfx (p t : bytes) : bytes := if is_prefix p t then t else p ++ t.
Lemma add_prefix_spec p c t : c_crypt c = Some t -> c_crypt_len c = zlen t -> zlen p <= zlen t -> zlen t < 65536 ->
  add_prefix p c = if b64_all t then Ok (FKO_SUCCESS, if is_prefix p t then None else Some (p ++ t))
                   else Ok (FKO_ERROR_INVALID_DATA_ENCODE_NOTBASE64, None).
Proof.
  intros T L P M. unfold add_prefix. rewrite T, L, text_is_base64_all by auto.
  destruct (b64_all t); cbn [negb]; [|reflexivity]. pose proof (zlen_nonneg p).
  destruct (constant_runtime_cmp_spec t p (zlen p)) as (r & -> & I); [lia|lia|].
  rewrite (ztake_all (zlen p) p) in I by lia. rewrite <- (prefix_take p t) in I by lia.
  destruct (is_prefix p t) eqn:E.
  - destruct I as [_ I]. rewrite (I eq_refl). reflexivity.
  - destruct r; [destruct I as [I _]; specialize (I eq_refl); discriminate| |]; rewrite ztake_all by lia; reflexivity.
Qed.
(** State after the prefix has been taken care of. *)
Definition prefixed (p t : bytes) (salted : bool) (c : ctx) : ctx :=
  if is_prefix p t then c else
  (if salted then set_c_salted true else set_c_gpg true) (set_c_crypt_len (zlen t + zlen p) (set_c_crypt (Some (p ++ t)) c)).
Lemma prefixed_crypt p t s c : c_crypt c = Some t -> c_crypt_len c = zlen t ->
  c_crypt (prefixed p t s c) = Some (pfx p t) /\ c_crypt_len (prefixed p t s c) = zlen (pfx p t).
Proof.
  intros. unfold prefixed, pfx. destruct (is_prefix p t); [auto|]. rewrite zlen_app. destruct s; ctx_simp; split; auto; lia.
Qed.
Lemma add_salted_spec c t : c_crypt c = Some t -> c_crypt_len c = zlen t -> 10 <= zlen t -> zlen t < 65536 ->
  add_salted_str c = if b64_all t then Ok (FKO_SUCCESS, prefixed ($ "U2FsdGVkX1") t true c)
                     else Ok (FKO_ERROR_INVALID_DATA_ENCODE_NOTBASE64, c).
Proof.
  intros T L P M. unfold add_salted_str. rewrite (add_prefix_spec _ c t T L) by auto.
  change B64_RIJNDAEL_SALT with ($ "U2FsdGVkX1"). rewrite L. unfold prefixed.
  destruct (b64_all t); [|reflexivity]. destruct (is_prefix ($ "U2FsdGVkX1") t); reflexivity.
Qed.
Lemma add_gpg_spec c t : c_crypt c = Some t -> c_crypt_len c = zlen t -> 2 <= zlen t -> zlen t < 65536 ->
  add_gpg_prefix c = if b64_all t then Ok (FKO_SUCCESS, prefixed ($ "hQ") t false c)
                     else Ok (FKO_ERROR_INVALID_DATA_ENCODE_NOTBASE64, c).
Proof.
  intros T L P M. unfold add_gpg_prefix. rewrite (add_prefix_spec _ c t T L) by auto.
  change B64_GPG_PREFIX with ($ "hQ"). rewrite L. unfold prefixed.
  destruct (b64_all t); [|reflexivity]. destruct (is_prefix ($ "hQ") t); reflexivity.
Qed.

(** ** HMAC verification on a new context *)
Definition received_ctx (m : bytes) (mode ht : Z) : ctx :=
  set_c_htype ht (set_c_mode mode (set_c_crypt_len (zlen m) (set_c_crypt (Some m) empty_ctx))).
Definition cut_off (n : Z) (m : bytes) : bytes := ztake (zlen m - n) m.
Lemma prefix_of_len mode : zlen (prefix_of mode) <= 10.
Proof. unfold prefix_of. destruct (mode =? 7); vm_compute; congruence. Qed.

Lemma prefix_step c t mode : c_mode c = mode -> c_salted c = false -> c_gpg c = false ->
  c_crypt c = Some t -> c_crypt_len c = zlen t -> 36 <= zlen t -> zlen t < 65536 ->
  (if c_mode c =? FKO_ENC_MODE_ASYMMETRIC
   then if c_gpg c then Ok (FKO_SUCCESS, c) else add_gpg_prefix c
   else if c_salted c then Ok (FKO_SUCCESS, c) else add_salted_str c)
  = if b64_all t then Ok (FKO_SUCCESS, prefixed (prefix_of mode) t (negb (mode =? 7)) c)
    else Ok (FKO_ERROR_INVALID_DATA_ENCODE_NOTBASE64, c).
Proof.
  intros M S G T L A B. rewrite M, S, G. unfold FKO_ENC_MODE_ASYMMETRIC, prefix_of.
  destruct (mode =? 7); [apply add_gpg_spec; auto; lia|apply add_salted_spec; auto; lia].
Qed.

Lemma verify_new H m mode ht k : hashes_ok H -> zlen m < 1500 ->
  let c := received_ctx m mode ht in
  let n := b64_len_of ht in
  let body := cut_off n m in
  (exists e c', verify_hmac H (Some k) c = Ok (e, c') /\ e <> FKO_SUCCESS /\
     ~ (exists h, hash_number H ht h /\ zlen k <= 136 /\ 36 <= zlen body /\ b64_all body = true /\
          m = body ++ mac_text h ht k (with_prefix mode body))) \/
  (exists h, hash_number H ht h /\ zlen k <= 136 /\ 36 <= zlen body /\ b64_all body = true /\
     m = body ++ mac_text h ht k (with_prefix mode body) /\
     verify_hmac H (Some k) c = Ok (FKO_SUCCESS,
       set_c_hmac (Some (mac_text h ht k (with_prefix mode body)))
         (prefixed (prefix_of mode) body (negb (mode =? 7))
            (set_c_crypt_len (zlen body) (set_c_crypt (Some body) c))))).
Proof.
  intros OK L c n body. pose proof (b64_len_of_range ht) as NR. fold n in NR.
  assert (ML : forall h, hash_number H ht h -> forall x, zlen (mac_text h ht k x) = n)
    by (intros; apply (mac_text_len H); auto).
  assert (BL : 36 <= zlen body -> zlen body = zlen m - n).
  { unfold body, cut_off. intro. destruct (Z_le_dec n (zlen m)); [apply zlen_ztake; lia|].
    exfalso. unfold ztake in H0. replace (Z.to_nat (zlen m - n)) with O in H0 by lia. cbn in H0. unfold zlen in H0. cbn in H0. lia. }
  unfold verify_hmac. cbn [c_crypt_len c received_ctx set_c_htype set_c_mode set_c_crypt_len set_c_crypt c_htype c_crypt].
  destruct (is_valid_encoded_msg_len (zlen m)) eqn:V; cbn [negb].
  2:{ left. do 2 eexists. split; [reflexivity|]. split; [discriminate|]. intros (h & N & _ & B & _).
      specialize (BL B). unfold is_valid_encoded_msg_len, MIN_SPA_ENCODED_MSG_SIZE, MAX_SPA_ENCODED_MSG_SIZE in V. lia. }
  unfold MAX_DIGEST_BLOCK_LEN. destruct (zlen k >? 136) eqn:KL.
  { left. do 2 eexists. split; [reflexivity|]. split; [discriminate|]. intros (h & N & K & _). lia. }
  destruct ((ht <? 1) || (ht >? 7)) eqn:HR.
  { left. do 2 eexists. split; [reflexivity|]. split; [discriminate|]. intros (h & N & _). apply hash_number_range in N. lia. }
  fold n. unfold MIN_SPA_ENCODED_MSG_SIZE. destruct (zlen m - n <? 36) eqn:SZ.
  { left. do 2 eexists. split; [reflexivity|]. split; [discriminate|]. intros (h & N & _ & B & _). specialize (BL B). lia. }
  cbv zeta. assert (B36 : zlen body = zlen m - n) by (unfold body, cut_off; apply zlen_ztake; lia). clear BL.
  destruct (hash_of_range H ht ltac:(lia)) as (h & Hh). apply hash_of_number in Hh. specialize (ML h Hh).
  fold (cut_off n m). fold body. rewrite <- B36.
  set (c1 := set_c_crypt_len (zlen body) (set_c_crypt (Some body) _)).
  assert (P : prefixed (prefix_of mode) body (negb (mode =? 7)) c1 = prefixed (prefix_of mode) body (negb (mode =? 7)) (set_c_crypt_len (zlen body) (set_c_crypt (Some body) c))) by reflexivity.
  rewrite (prefix_step c1 body mode) by (reflexivity || lia).
  destruct (b64_all body) eqn:B64; cbn [ok negb].
  2:{ left. do 2 eexists. split; [reflexivity|]. split; [discriminate|]. intros (h' & N & _ & _ & B & _). discriminate. }
  set (c2 := prefixed _ _ _ c1) in *.
  destruct (prefixed_crypt (prefix_of mode) body (negb (mode =? 7)) c1 eq_refl eq_refl) as [C2 C2L]. fold c2 in C2, C2L.
  assert (HT : c_htype c2 = ht) by (unfold c2, prefixed; destruct (is_prefix _ _), (negb (mode =? 7)); reflexivity).
  change (pfx (prefix_of mode) body) with (with_prefix mode body) in *.
  rewrite (set_spa_hmac_ok H k h c2 (with_prefix mode body)); auto; [|congruence|lia|apply crypt_bytes_text; auto].
  rewrite HT. cbn [ok negb]. ctx_simp. set (mac := mac_text h ht k (with_prefix mode body)).
  destruct (constant_runtime_cmp_spec (ztake n (zdrop (zlen body) m) ++ [x00]) (mac ++ [x00]) n) as (r & R & I).
  { rewrite zlen_app, zlen_ztake; [change (zlen [x00]) with 1; lia|]. rewrite zlen_zdrop; lia. }
  { rewrite zlen_app. unfold mac. rewrite ML. change (zlen [x00]) with 1. lia. }
  rewrite R. rewrite ztake_app in I by (rewrite zlen_ztake; [lia|]; rewrite zlen_zdrop; lia).
  rewrite ztake_app in I by (unfold mac; rewrite ML; reflexivity).
  rewrite ztake_all in I by (rewrite zlen_zdrop; lia).
  assert (SPLIT : m = body ++ zdrop (zlen body) m).
  { unfold body at 1, cut_off. rewrite <- B36. symmetry. apply ztake_zdrop. }
  destruct r as [|p|p].
  - right. exists h. destruct I as [I _]. specialize (I eq_refl). split; [auto|]. split; [lia|]. split; [lia|]. split; [auto|].
    split; [etransitivity; [exact SPLIT|]; f_equal; exact I|reflexivity].
  - left. do 2 eexists. split; [reflexivity|]. split; [discriminate|]. intros (h' & N & _ & _ & _ & E).
    assert (h' = h). { apply hash_of_number in N, Hh. congruence. } subst h'.
    rewrite SPLIT in E at 1. apply app_inv_head in E. destruct I as [_ I]. specialize (I E). discriminate.
  - left. do 2 eexists. split; [reflexivity|]. split; [discriminate|]. intros (h' & N & _ & _ & _ & E).
    assert (h' = h). { apply hash_of_number in N, Hh. congruence. } subst h'.
    rewrite SPLIT in E at 1. apply app_inv_head in E. destruct I as [_ I]. specialize (I E). discriminate.
Qed.

(** ** Decoding into a context *)
Record clean (c : ctx) : Prop := { cl_nat : c_nat c = None; cl_auth : c_auth c = None; cl_timeout : c_timeout c = 0 }.
Lemma parse_into_fields s c : clean c ->
  match parse_fields s with
  | Some m => exists c', parse_into s c = (FKO_SUCCESS, c') /\ shows (Live c') m /\ c_dtype c' = c_dtype c /\ c_digest c' = c_digest c
  | None => exists e c', parse_into s c = (e, c') /\ e <> FKO_SUCCESS
  end.
Proof.
  intros [N A T]. unfold parse_fields, parse_into.
  destruct (parse_rand_val s) as [[r s1]|]; cbn [obind]; [|do 2 eexists; split; [reflexivity|discriminate]].
  destruct (parse_username s1) as [[u s2]|]; cbn [obind]; [|do 2 eexists; split; [reflexivity|discriminate]].
  destruct (parse_timestamp s2) as [[t s3]|]; cbn [obind]; [|do 2 eexists; split; [reflexivity|discriminate]].
  destruct (parse_version s3) as [[v s4]|]; cbn [obind]; [|do 2 eexists; split; [reflexivity|discriminate]].
  destruct (parse_msg_type s4) as [[ty s5]|]; cbn [obind]; [|do 2 eexists; split; [reflexivity|discriminate]].
  destruct (parse_msg ty s5) as [[ms s6]|]; cbn [obind]; [|do 2 eexists; split; [reflexivity|discriminate]].
  destruct (parse_nat_msg ty s6) as [[na s7]|]; cbn [obind]; [|do 2 eexists; split; [reflexivity|discriminate]].
  destruct (parse_server_auth ty s7) as [[au s8]|]; cbn [obind]; [|do 2 eexists; split; [reflexivity|discriminate]].
  destruct (parse_client_timeout ty s8) as [ct|] eqn:CT; cbn [obind]; [|do 2 eexists; split; [reflexivity|discriminate]].
  eexists. split; [reflexivity|]. unfold parse_client_timeout in CT.
  unfold shows, reads, get, fetch, fko_get_rand_value, fko_get_username, fko_get_timestamp, fko_get_version,
    fko_get_spa_message_type, fko_get_spa_message, fko_get_spa_nat_access, fko_get_spa_server_auth, fko_get_spa_client_timeout, getter.
  cbn [option_map s_rand s_user s_time s_version s_type s_msg s_nat s_auth s_timeout].
  destruct (is_timeout_type ty); [|injection CT as <-]; destruct na, au; ctx_simp; rewrite ?N, ?A, ?T; repeat split; reflexivity.
Qed.

Lemma decode_ctx H c buf : clean c -> c_enc c = Some buf -> c_enc_len c = zlen buf ->
  match decode_spa H buf with
  | Some (m, dt, dg) => exists c', decode_spa_data H c = Ok (FKO_SUCCESS, c') /\ shows (Live c') m /\ c_dtype c' = dt /\ c_digest c' = Some dg
  | None => exists e c', decode_spa_data H c = Ok (e, c') /\ e <> FKO_SUCCESS
  end.
Proof.
  intros CL E EL. unfold decode_spa, decode_spa_data. rewrite EL, E.
  destruct (is_valid_encoded_msg_len (zlen buf)); cbn [guard obind negb]; [|do 2 eexists; split; [reflexivity|discriminate]].
  destruct (forallb isprint (cstr buf)); cbn [guard obind negb orb]; [|do 2 eexists; split; [reflexivity|discriminate]].
  destruct (num_fields (cstr buf) <? 6); cbn [guard obind negb orb]; [do 2 eexists; split; [reflexivity|discriminate]|].
  cbv zeta. set (dg := zdrop (last_field (cstr buf)) (cstr buf)). set (ts := strnlen dg 87).
  destruct (digest_type_of_len ts) as [d0|]; cbn [obind]; [|do 2 eexists; split; [reflexivity|discriminate]].
  ctx_simp. rewrite EL. destruct (zlen buf - ts <? 0); cbn [guard obind negb]; [do 2 eexists; split; [reflexivity|discriminate]|].
  set (b' := ztake _ buf ++ _). destruct (verify_digest H d0 dg _ ts) as [dt|]; cbn [obind]; [|do 2 eexists; split; [reflexivity|discriminate]].
  match goal with |- context [parse_into (cstr b') ?c0] => assert (K : clean c0) by (destruct CL; split; assumption); pose proof (parse_into_fields (cstr b') c0 K) as P end.
  destruct (parse_fields (cstr b')) as [m|]; cbn [obind].
  - destruct P as (c' & P1 & P2 & P3 & P4). rewrite P1. exists c'. repeat split; auto; apply P2.
  - destruct P as (e & c' & P1 & P2). rewrite P1. eauto.
Qed.

(** ** Decryption of a new context *)
Lemma decrypt_new H k c t : c_crypt c = Some t -> c_crypt_len c = zlen t -> c_salted c = true \/ c_salted c = false ->
  (c_salted c = true -> is_prefix ($ "U2FsdGVkX1") t = true) ->
  36 <= zlen t < 400 -> zlen k <= 32 -> b64_all t = true -> clean c ->
  forall ci pt m dt dg, b64_decode (pfx ($ "U2FsdGVkX1") t) = Some ci -> zlen ci mod 16 = 0 ->
  rij_decrypt H (c_mode c) k ci = Ok pt -> zlen ci - 32 <= zlen pt -> all_digits (ztake 16 pt) -> nth 16 pt x00 = ":"%byte ->
  decode_spa H pt = Some (m, dt, dg) ->
  exists c', decrypt_spa_data H k c = Ok (FKO_SUCCESS, c') /\ shows (Live c') m.
Proof.
  intros C L _ SP R K B CL ci pt m dt dg D16 M16 RD SZ DG COL DEC.
  unfold decrypt_spa_data. rewrite C. cbv zeta.
  assert (ET : encryption_type (Some t) = FKO_ENCRYPTION_RIJNDAEL).
  { unfold encryption_type, strnlen, is_valid_encoded_msg_len, MIN_SPA_ENCODED_MSG_SIZE, MAX_SPA_ENCODED_MSG_SIZE, MIN_GNUPG_MSG_SIZE.
    rewrite Z.min_l by lia. replace (zlen t <? 36) with false by lia. replace (zlen t >=? 1500) with false by lia.
    replace (zlen t >=? 400) with false by lia. replace (zlen t <? 400) with true by lia. replace (zlen t >=? 36) with true by lia. reflexivity. }
  rewrite ET. change (FKO_ENCRYPTION_RIJNDAEL =? FKO_ENCRYPTION_GPG) with false. change (FKO_ENCRYPTION_RIJNDAEL =? FKO_ENCRYPTION_RIJNDAEL) with true.
  cbn [andb]. set (c0 := set_c_etype _ c). unfold rijndael_decrypt. unfold RIJNDAEL_MAX_KEYSIZE. replace (zlen k >? 32) with false by lia.
  assert (X : exists c1, (if c_salted c0 then Ok (FKO_SUCCESS, c0) else add_salted_str c0) = Ok (FKO_SUCCESS, c1) /\
     c_crypt c1 = Some (pfx ($ "U2FsdGVkX1") t) /\ clean c1 /\ c_mode c1 = c_mode c).
  { destruct (c_salted c0) eqn:S.
    - exists c0. split; auto. unfold pfx. rewrite SP by exact S. repeat split; auto; apply CL.
    - rewrite (add_salted_spec c0 t) by (auto || lia). rewrite B. eexists. split; [reflexivity|].
      split; [apply (prefixed_crypt ($ "U2FsdGVkX1") t true c0); auto|].
      unfold prefixed. destruct (is_prefix _ _); repeat split; auto; apply CL. }
  destruct X as (c1 & -> & C1 & CL1 & M1). cbn [ok negb]. rewrite C1, D16. unfold RIJNDAEL_BLOCKSIZE. rewrite M16. cbn [Z.eqb negb].
  rewrite M1, RD. cbv zeta.
  unfold decode_spa in DEC. pose proof DEC as DEC'. apply obind_inv in DEC' as (x & G & _). apply guard_inv in G. fold (decode_spa H pt) in DEC.
  assert (V := G). unfold is_valid_encoded_msg_len, MIN_SPA_ENCODED_MSG_SIZE in V.
  replace ((zlen pt <? zlen ci - 32) || (zlen pt <=? 0)) with false by lia.
  rewrite G. cbn [negb]. unfold FKO_RAND_VAL_SIZE. rewrite (proj2 (all_digits_forallb _) DG), COL. change (beq ":"%byte ":"%byte) with true. cbn [andb].
  set (c3 := set_c_enc_len _ _). assert (CL3 : clean c3) by (destruct CL1; split; auto).
  pose proof (decode_ctx H c3 pt CL3 eq_refl eq_refl) as Q. rewrite DEC in Q. destruct Q as (c' & Q & S & _). eauto.
Qed.
