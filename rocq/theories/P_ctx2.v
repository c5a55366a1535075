(** Proofs about the context interface: what a sender sends. *)
From Verif Require Import Bytes M_base64 M_util M_message M_codec M_cipher M_ctx
  S_base64 S_text S_codec S_cipher S_ctx P_bytes P_base64 P_util P_message P_codec P_cipher P_ctx.
From Coq Require Import Init.Byte List ZArith Bool Lia.
Import ListNotations.
Open Scope Z_scope.

(** ** The encoded text is a C string of at most 1023 characters *)
Lemma dec_go_no_nul f : forall n acc, no_nul acc -> no_nul (dec_go f n acc).
Proof.
  induction f; intros n acc A; cbn [dec_go]; auto.
  assert (N : no_nul (zb (48 + n mod 10) :: acc)).
  { apply no_nul_cons. split; auto. intro X. apply (f_equal bv) in X.
    pose proof (Z.mod_pos_bound n 10 ltac:(lia)). rewrite bv_zb_small in X by lia. change (bv x00) with 0 in X. lia. }
  destruct (n / 10 =? 0); auto.
Qed.
Lemma dec_no_nul n : no_nul (dec n). Proof. apply dec_go_no_nul, no_nul_nil. Qed.
Lemma dec_i_no_nul n : no_nul (dec_i n).
Proof. unfold dec_i. destruct (n <? 0); [apply no_nul_cons; split; [discriminate|]|]; apply dec_no_nul. Qed.
Lemma no_nul_ztake n l : no_nul l -> no_nul (ztake n l).
Proof.
  unfold no_nul. intros N I. apply N. rewrite <- (ztake_zdrop n l). apply in_or_app. auto.
Qed.
Lemma no_nul_zdrop n l : no_nul l -> no_nul (zdrop n l).
Proof.
  unfold no_nul. intros N I. apply N. rewrite <- (ztake_zdrop n l). apply in_or_app. auto.
Qed.
Definition line (t : bytes) : Prop := no_nul t /\ zlen t <= 1023.
Lemma line_cat t s : no_nul t -> no_nul s -> line (cat1024 t s).
Proof.
  intros A B. unfold cat1024. split; [apply no_nul_ztake, no_nul_app; auto|].
  unfold ztake, zlen. rewrite firstn_length. change FKO_ENCODE_TMP_BUF_SIZE with 1024. lia.
Qed.
Lemma b64_no_nul l : no_nul (strip_b64_eq (b64_encode l)).
Proof.
  intro I. pose proof (b64_stripped_chars l) as F. rewrite Forall_forall in F. specialize (F _ I).
  destruct (b64_char_ok _ F) as (_ & X & _). congruence.
Qed.
Lemma line_b64 t s t' : no_nul t -> append_b64 t s = Some t' -> line t'.
Proof. unfold append_b64. destruct (_ >=? _); [discriminate|]. intros N E; inversion E. apply line_cat; auto. apply b64_no_nul. Qed.
Lemma encode_text_line m t : no_nul (s_rand m) -> no_nul (s_version m) -> encode_text m = Some t -> line t.
Proof.
  intros R V. unfold encode_text. cbv zeta.
  set (d := dec (u32 (s_time m))). assert (ND : no_nul d) by apply dec_no_nul. clearbody d.
  set (d1 := dec_i (timeout_type _ _)). assert (ND1 : no_nul d1) by apply dec_i_no_nul. clearbody d1.
  set (d2 := dec_i (s_timeout m)). assert (ND2 : no_nul d2) by apply dec_i_no_nul. clearbody d2.
  assert (NC : forall x, no_nul x -> no_nul ($ ":" ++ x)) by (intros; apply no_nul_app; split; auto; intros [|[]]; discriminate).
  assert (C : no_nul ($ ":")) by (intros [|[]]; discriminate).
  intro E. apply obind_inv in E as (t1 & E1 & E). apply line_b64 in E1 as [L1 _]; [|apply line_cat; auto; apply no_nul_ztake; auto].
  apply obind_inv in E as (t2 & E2 & E).
  apply line_b64 in E2.
  2:{ apply line_cat; [|apply no_nul_app; split; auto; apply no_nul_app; auto].
      apply line_cat; [|auto]. apply line_cat; auto. apply no_nul_app; split; auto. apply no_nul_app; auto. }
  apply obind_inv in E as (t3 & E3 & E).
  assert (L3 : line t3).
  { destruct (s_nat m); [|inversion E3; subst; auto]. apply line_b64 in E3; auto. apply line_cat; auto. apply E2. }
  apply obind_inv in E as (t4 & E4 & E).
  assert (L4 : line t4).
  { destruct (s_auth m); [|inversion E4; subst; auto]. apply line_b64 in E4; auto. apply line_cat; auto. apply L3. }
  injection E as <-. destruct (_ && _); auto. apply line_cat; [apply L4|]. apply (NC d2 ND2).
Qed.

Lemma b64_len_of_hash H t h d : hashes_ok H -> hash_of H t = Some h -> zlen (digest_b64 h d) = b64_len_of t.
Proof.
  intros OK E. apply hash_of_number in E. rewrite (digest_b64_len H t) by auto.
  destruct E; reflexivity.
Qed.
Lemma hash_of_range H t : 1 <= t <= 7 -> exists h, hash_of H t = Some h.
Proof.
  intro R. unfold hash_of. destruct (t =? 1) eqn:?; [eauto|]. destruct (t =? 2) eqn:?; [eauto|].
  destruct (t =? 3) eqn:?; [eauto|]. destruct (t =? 4) eqn:?; [eauto|]. destruct (t =? 5) eqn:?; [eauto|].
  destruct (t =? 6) eqn:?; [eauto|]. destruct (t =? 7) eqn:?; [eauto|]. lia.
Qed.
Lemma timeout_type_idem t n : timeout_type (timeout_type t n) n = timeout_type t n.
Proof.
  unfold timeout_type, FKO_ACCESS_MSG, FKO_NAT_ACCESS_MSG, FKO_LOCAL_NAT_ACCESS_MSG, FKO_CLIENT_TIMEOUT_ACCESS_MSG,
    FKO_CLIENT_TIMEOUT_NAT_ACCESS_MSG, FKO_CLIENT_TIMEOUT_LOCAL_NAT_ACCESS_MSG.
  destruct (n >? 0).
  - destruct (t =? 1) eqn:A; [reflexivity|]. destruct (t =? 2) eqn:B; [reflexivity|]. destruct (t =? 5) eqn:C; [reflexivity|].
    rewrite A, B, C. reflexivity.
  - destruct (t =? 3) eqn:A; [reflexivity|]. destruct (t =? 4) eqn:B; [reflexivity|]. destruct (t =? 6) eqn:C; [reflexivity|].
    rewrite A, B, C. reflexivity.
Qed.
Lemma encode_text_type r u ti v ty ms na au n :
  encode_text (mkSpa r u ti v (timeout_type ty n) ms na au n) = encode_text (mkSpa r u ti v ty ms na au n).
Proof. unfold encode_text. cbn [s_type s_timeout s_rand s_user s_time s_version s_msg s_nat s_auth]. rewrite timeout_type_idem. reflexivity. Qed.

(** ** The invariant of a sending context *)
Section inv.
Variable H : hashes.
Hypothesis OK : hashes_ok H.

Definition spa_of (r u v m : bytes) (c : ctx) : spa :=
  mkSpa r u (c_time c) v (c_type c) m (c_nat c) (c_auth c) (c_timeout c).
Record fresh (c : ctx) (t : bytes) : Prop := {
  fr_text : exists r u v m, c_rand c = Some r /\ c_user c = Some u /\ c_version c = Some v /\ c_msg c = Some m /\
            encode_text (spa_of r u v m c) = Some t;
  fr_type : timeout_type (c_type c) (c_timeout c) = c_type c;
  fr_line : line t;
  fr_len : c_enc_len c = zlen t /\ is_valid_encoded_msg_len (zlen t) = true;
  fr_digest : exists h, hash_of H (c_dtype c) = Some h /\ c_digest c = Some (digest_b64 h t) /\
              c_digest_len c = b64_len_of (c_dtype c) }.
Record inv (c : ctx) : Prop := {
  iv_tmo : tmo c;
  iv_rand : exists r, c_rand c = Some r /\ no_nul r;
  iv_version : c_version c = Some FKO_PROTOCOL_VERSION;
  iv_user : exists u, c_user c = Some u;
  iv_dtype : 1 <= c_dtype c <= 7;
  iv_crypt : c_crypt c = None -> c_crypt_len c = 0;
  iv_fresh : c_dirty c = false -> forall t, c_enc c = Some t -> fresh c t }.

Lemma inv_dirty c : tmo c -> (exists r, c_rand c = Some r /\ no_nul r) -> c_version c = Some FKO_PROTOCOL_VERSION ->
  (exists u, c_user c = Some u) -> 1 <= c_dtype c <= 7 -> (c_crypt c = None -> c_crypt_len c = 0) -> c_dirty c = true -> inv c.
Proof. intros A B C D E G F. split; auto. congruence. Qed.

Lemma set_spa_digest_inv c e c' : inv c -> set_spa_digest H c = (e, c') -> inv c'.
Proof.
  intros I. pose proof I as [A B C D E G F]. unfold set_spa_digest. destruct (c_enc c) as [t|] eqn:N; [|intro X; inversion X; subst; exact I].
  unfold set_digest. destruct (_ =? _); [intro X; inversion X; subst; exact I|].
  destruct (hash_of_range H _ E) as (h & Hh). rewrite Hh. intro X; inversion X; subst; clear X.
  split; auto. intros Q t' T'. ctx_simp. rewrite N in T'. inversion T'; subst t'. specialize (F Q t eq_refl).
  destruct F as [F1 F2 F3 F4 (h' & F5 & F6 & F7)]. split; auto. ctx_simp. exists h. split; auto. split; auto.
  rewrite cstr_id by apply F3. reflexivity.
Qed.

Lemma encode_inv c e c' : inv c -> encode_spa_data H c = Ok (e, c') ->
  inv c' /\ (e = FKO_SUCCESS -> c_dirty c' = false /\ exists t, c_enc c' = Some t).
Proof.
  intros I. pose proof I as [A (r & R & RN) C (u & U) E G F]. unfold encode_spa_data.
  rewrite U, C, R. destruct (c_msg c) as [m|] eqn:M; [|intro X; inversion X; subst; split; [exact I|discriminate]].
  destruct (_ || _); [intro X; inversion X; subst; split; [exact I|discriminate]|].
  destruct (_ && _); [intro X; inversion X; subst; split; [exact I|discriminate]|].
  set (c1 := snd (set_client_timeout (c_timeout c) c)).
  assert (C1 : c1 = set_c_type (timeout_type (c_type c) (c_timeout c)) (set_c_dirty true (set_c_timeout (c_timeout c) c))).
  { unfold c1, set_client_timeout. unfold tmo in A. rewrite i32_small by lia. replace (c_timeout c <? 0) with false by lia. reflexivity. }
  clearbody c1. subst c1.
  destruct (encode_text _) as [t|] eqn:T.
  2:{ intro X; inversion X; subst. split; [apply inv_dirty; ctx_simp; eauto|discriminate]. }
  assert (L : line t) by (apply encode_text_line in T; auto; intro X; repeat (destruct X as [X|X]; [discriminate|]); destruct X).
  assert (SL : strnlen t MAX_SPA_ENCODED_MSG_SIZE = zlen t) by (unfold strnlen, MAX_SPA_ENCODED_MSG_SIZE; destruct L; lia).
  rewrite SL. destruct (is_valid_encoded_msg_len (zlen t)) eqn:V; cbn [negb].
  2:{ intro X; inversion X; subst. split; [apply inv_dirty; ctx_simp; eauto|discriminate]. }
  unfold set_spa_digest. ctx_simp. unfold set_digest.
  replace (strnlen (cstr t) MAX_SPA_ENCODED_MSG_SIZE =? MAX_SPA_ENCODED_MSG_SIZE) with false.
  2:{ rewrite cstr_id by apply L. rewrite SL. unfold MAX_SPA_ENCODED_MSG_SIZE. destruct L; lia. }
  destruct (hash_of_range H _ E) as (h & Hh). rewrite Hh. cbn [ok].
  intro X; inversion X; subst; clear X. split; [|intros _; ctx_simp; eauto].
  split; ctx_simp; eauto. intros _ t' X. inversion X; subst t'. split; ctx_simp; auto.
  - exists r, u, FKO_PROTOCOL_VERSION, m. repeat split; auto. unfold spa_of. ctx_simp. rewrite encode_text_type. exact T.
  - apply timeout_type_idem.
  - exists h. rewrite cstr_id by apply L. auto.
Qed.

Lemma encode_no_fault c : inv c -> encode_spa_data H c <> Fault.
Proof.
  intros [A (r & R & RN) C (u & U) E G F]. unfold encode_spa_data. rewrite U, C, R.
  destruct (c_msg c) as [m|] eqn:M; [|discriminate]. destruct (_ || _); [discriminate|]. destruct (_ && _); [discriminate|].
  destruct (encode_text _); [|discriminate]. destruct (negb _); [discriminate|].
  destruct (set_spa_digest H _) as (e3, c3). destruct (ok e3); discriminate.
Qed.

(** The plaintext and the text of the packet without HMAC. *)
Definition plain (t : bytes) (h : bytes -> bytes) : bytes := t ++ ":"%byte :: digest_b64 h t.
Definition cipher_text (c : ctx) (key salt pt : bytes) : bytes := strip_b64_eq (b64_encode (rij_encrypt H (c_mode c) key salt pt)).
Definition crypt_set (c : ctx) (b : bytes) : ctx := set_c_crypt_len (strnlen b MAX_SPA_ENCODED_MSG_SIZE) (set_c_crypt (Some b) c).

Lemma rijndael_encrypt_cases c t h key salt : fresh c t -> c_enc c = Some t -> hash_of H (c_dtype c) = Some h ->
  rijndael_encrypt H key salt c =
    let pt := plain t h in let b := cipher_text c key salt pt in
    if zlen key >? RIJNDAEL_MAX_KEYSIZE then Ok (FKO_ERROR_INVALID_KEY_LEN, c)
    else Ok (if is_valid_encoded_msg_len (strnlen b MAX_SPA_ENCODED_MSG_SIZE)
             then if zlen pt + 32 >? MAX_SPA_ENCODED_MSG_SIZE then FKO_ERROR_ZERO_OUT_DATA else FKO_SUCCESS
             else FKO_ERROR_INVALID_DATA_ENCRYPT_RESULT_MSGLEN_VALIDFAIL, crypt_set c b).
Proof.
  intros [F1 F2 F3 [F4 F4'] (h' & F5 & F6 & F7)] T Hh. rewrite Hh in F5. inversion F5; subst h'; clear F5.
  unfold rijndael_encrypt. destruct (_ >? _); [reflexivity|]. rewrite F4, F4'. cbn [negb].
  assert (BD : is_b64_digest_len (c_digest_len c) = true).
  { rewrite F7. unfold b64_len_of. repeat match goal with |- context [if ?b then _ else _] => destruct b end; reflexivity. }
  rewrite BD. cbn [negb]. rewrite T, F6. cbv zeta. rewrite cstr_id by apply F3. fold (plain t h).
  assert (L : zlen (plain t h) = zlen t + 1 + c_digest_len c).
  { unfold plain. rewrite zlen_app, zlen_cons, (b64_len_of_hash H (c_dtype c) h t OK Hh), F7. lia. }
  assert (R : 22 <= c_digest_len c <= 86).
  { rewrite F7. unfold b64_len_of. repeat match goal with |- context [if ?b then _ else _] => destruct b end; lia. }
  unfold RIJNDAEL_BLOCKSIZE. replace (zlen (plain t h) + 16 >? zlen t + c_digest_len c + 16 + 2) with false by lia.
  assert (V : is_valid_encoded_msg_len (zlen (plain t h)) = true).
  { destruct F3 as [_ ?]. unfold is_valid_encoded_msg_len, MIN_SPA_ENCODED_MSG_SIZE, MAX_SPA_ENCODED_MSG_SIZE in *. lia. }
  rewrite V. cbn [negb]. unfold cipher_text, crypt_set. set (b := strip_b64_eq _). clearbody b.
  destruct (is_valid_encoded_msg_len (strnlen b _)); reflexivity.
Qed.

Definition core c := (c_rand c, c_user c, c_time c, c_type c, c_msg c, c_nat c, c_auth c, c_timeout c,
  (c_dtype c, c_version c, c_digest c, c_digest_len c, c_enc c, c_enc_len c, c_dirty c)).
Lemma fresh_core c c' t : core c' = core c -> fresh c t -> fresh c' t.
Proof.
  intros E [F1 F2 F3 F4 F5]. unfold core in E. inversion E. split.
  - destruct F1 as (r & u & v & m & ? & ? & ? & ? & T). exists r, u, v, m. repeat split; try congruence.
    rewrite <- T. unfold spa_of. congruence.
  - congruence.
  - auto.
  - destruct F4. split; congruence.
  - destruct F5 as (h & ? & ? & ?). exists h. repeat split; congruence.
Qed.
Lemma inv_core c c' : core c' = core c -> (c_crypt c' = None -> c_crypt_len c' = 0) -> inv c -> inv c'.
Proof.
  intros E G' [A B C D E' G F]. pose proof E as E0. unfold core in E. inversion E. split.
  - unfold tmo in *. congruence.
  - destruct B as (r & ? & ?). exists r. split; congruence.
  - congruence.
  - destruct D as (u & ?). exists u. congruence.
  - lia.
  - auto.
  - intros Q t T. apply (fresh_core c); auto. apply F; congruence.
Qed.
Lemma rijndael_core key salt c e c' : rijndael_encrypt H key salt c = Ok (e, c') -> core c' = core c /\ (c' = c \/ c_crypt c' <> None).
Proof.
  unfold rijndael_encrypt.
  destruct (_ >? _); [intro X; inversion X; auto|]. destruct (negb _); [intro X; inversion X; auto|].
  destruct (negb _); [intro X; inversion X; auto|].
  destruct (c_enc c) as [t|] eqn:?; [|discriminate]. destruct (c_digest c) as [d|] eqn:?; [|discriminate].
  cbv zeta. destruct (_ >? _); [discriminate|]. destruct (negb _); [intro X; inversion X; auto|].
  set (b := strip_b64_eq _). clearbody b.
  destruct (negb _); intro X; inversion X; unfold core; ctx_simp; split; auto; right; discriminate.
Qed.
Lemma encrypt_inv key salt c e c' : inv c -> encrypt_spa_data H key salt c = Ok (e, c') -> inv c'.
Proof.
  intros I. unfold encrypt_spa_data.
  destruct (if match c_enc c with Some _ => c_dirty c | None => true end then encode_spa_data H c else Ok (FKO_SUCCESS, c))
    as [[e1 c1]|] eqn:E; [|discriminate].
  assert (I1 : inv c1).
  { destruct (match c_enc c with Some _ => c_dirty c | None => true end); [apply (encode_inv c e1); auto|inversion E; subst; auto]. }
  destruct (negb (ok e1)); [intro X; inversion X; subst; auto|].
  destruct (negb _); [intro X; inversion X; subst; auto|].
  destruct (_ =? _).
  - destruct key as [k|]; [|intro X; inversion X; subst; auto]. intro X. apply rijndael_core in X as [Q1 Q2].
    apply (inv_core c1); auto. destruct Q2 as [->|Q2]; [apply I1|intro; congruence].
  - destruct (_ =? _); intro X; inversion X; subst; auto.
Qed.
Lemma encrypt_no_fault key salt c : inv c -> encrypt_spa_data H key salt c <> Fault.
Proof.
  intros I. unfold encrypt_spa_data.
  destruct (if match c_enc c with Some _ => c_dirty c | None => true end then encode_spa_data H c else Ok (FKO_SUCCESS, c))
    as [[e1 c1]|] eqn:E.
  2:{ destruct (match c_enc c with Some _ => c_dirty c | None => true end); [|discriminate]. exfalso. revert E. apply encode_no_fault; auto. }
  destruct (negb (ok e1)) eqn:O; [discriminate|]. destruct (negb (is_valid_encoded_msg_len _)); [discriminate|].
  destruct (c_etype c1 =? FKO_ENCRYPTION_RIJNDAEL); [|destruct (c_etype c1 =? FKO_ENCRYPTION_GPG); discriminate]. destruct key as [k|]; [|discriminate].
  assert (X : inv c1 /\ c_dirty c1 = false /\ exists t, c_enc c1 = Some t).
  { destruct (match c_enc c with Some _ => c_dirty c | None => true end) eqn:Q.
    - destruct (encode_inv c e1 c1 I E) as [A B]. split; auto. apply B. destruct e1; auto; discriminate.
    - inversion E; subst. split; auto. destruct (c_enc c1) as [t|]; [|discriminate]. eauto. }
  destruct X as (I1 & D & t & T). destruct (iv_fresh _ I1 D t T) as [F1 F2 F3 F4 (h & F5 & F6)].
  rewrite (rijndael_encrypt_cases c1 t h k salt (iv_fresh _ I1 D t T) T F5). cbv zeta. destruct (_ >? _); discriminate.
Qed.
Lemma set_spa_hmac_core k c e c' : set_spa_hmac H k c = Ok (e, c') -> core c' = core c /\ c_crypt c' = c_crypt c /\ c_crypt_len c' = c_crypt_len c.
Proof.
  unfold set_spa_hmac. destruct k as [k|]; [|intro X; inversion X; auto].
  destruct (_ >? _); [intro X; inversion X; auto|]. destruct (hash_of H (c_htype c)); [|intro X; inversion X; auto].
  destruct (crypt_bytes c) as [bb|]; [|discriminate]. destruct (hmac_of H (c_htype c) k bb); intro X; inversion X; auto.
Qed.
Lemma final_inv key hk salt c e c' : inv c -> spa_data_final H key hk salt c = Ok (e, c') -> inv c'.
Proof.
  intro I. unfold spa_data_final. destruct (encrypt_spa_data H key salt c) as [[e1 c1]|] eqn:E; [|discriminate].
  assert (I1 := encrypt_inv _ _ _ _ _ I E).
  destruct (_ && _); [|intro X; inversion X; subst; auto].
  destruct hk as [hk|]; [|intro X; inversion X; subst; auto].
  destruct (set_spa_hmac H (Some hk) c1) as [[e2 c2]|] eqn:S; [|discriminate].
  apply set_spa_hmac_core in S as (S1 & S2 & S3).
  assert (I2 : inv c2) by (apply (inv_core c1); auto; rewrite S2, S3; apply I1).
  destruct (ok e2); [|intro X; inversion X; subst; auto].
  destruct (c_crypt c2) eqn:Q; [|discriminate]. destruct (c_hmac c2); [|discriminate].
  intro X; inversion X; subst. apply (inv_core c2); auto. ctx_simp. discriminate.
Qed.
Lemma call_inv k c e c' : inv c -> sender_call k -> on_live H k c = Ok (e, c') -> inv c'.
Proof.
  intros I S X. pose proof I as [A B C D E G F].
  destruct k; cbn [on_live sender_call] in *; try contradiction; try (inversion X as [Y]).
  - unfold set_rand_value in Y. cases; inversion Y; subst; auto. apply inv_dirty; ctx_simp; eauto.
  - unfold gen_rand_value in Y. cases; inversion Y; subst; auto. apply inv_dirty; ctx_simp; eauto.
    eexists; split; [reflexivity|]. unfold rand_digits.
    assert (G0 : forall f i v, no_nul v -> no_nul (rand_loop f rnd i v)).
    { clear. induction f; intros; cbn [rand_loop]; auto. destruct (_ <? _); auto. apply IHf, no_nul_ztake, no_nul_app. split; auto.
      apply no_nul_ztake, dec_no_nul. }
    apply G0, no_nul_ztake, dec_no_nul.
  - unfold set_username in Y. set (u := truncate_username _) in Y. destruct (validate_username u); inversion Y; subst; auto. apply inv_dirty; ctx_simp; eauto.
  - unfold set_timestamp in Y. cases; inversion Y; subst; auto. apply inv_dirty; ctx_simp; eauto.
  - unfold set_message_type in Y. cases; inversion Y; subst; auto. apply inv_dirty; ctx_simp; eauto.
  - unfold set_message in Y. cases; inversion Y; subst; auto; apply inv_dirty; ctx_simp; eauto.
  - unfold set_nat_access in Y. destruct m as [m|]; [|inversion Y; subst; auto].
    destruct (strnlen m MAX_SPA_NAT_ACCESS_SIZE =? 0); [inversion Y; subst; auto|].
    destruct (strnlen m MAX_SPA_NAT_ACCESS_SIZE =? MAX_SPA_NAT_ACCESS_SIZE); [inversion Y; subst; auto|].
    destruct (validate_nat_access_msg m); inversion Y; subst; auto. apply inv_dirty; ctx_simp; eauto.
  - unfold set_server_auth in Y. cases; inversion Y; subst; auto; apply inv_dirty; ctx_simp; eauto.
  - assert (T := call_tmo H (CSetTimeout n) c e c' X A).
    unfold set_client_timeout in Y. destruct (i32 n <? 0); inversion Y; subst; auto. apply inv_dirty; ctx_simp; eauto.
  - unfold set_digest_type, FKO_LAST_DIGEST_TYPE in Y. destruct ((t <? 1) || (t >=? 8)) eqn:Q; inversion Y; subst; auto. apply inv_dirty; ctx_simp; eauto. lia.
  - unfold set_raw_digest_type in Y. cases; inversion Y; subst; auto; apply inv_dirty; ctx_simp; eauto.
  - unfold set_encryption_type in Y. cases; inversion Y; subst; auto; apply inv_dirty; ctx_simp; eauto.
  - unfold set_encryption_mode in Y. cases; inversion Y; subst; auto; apply (inv_core c); auto.
  - unfold set_hmac_type in Y. cases; inversion Y; subst; auto; apply (inv_core c); auto.
  - eapply set_spa_digest_inv; eauto.
  - unfold set_raw_spa_digest in Y. cases; inversion Y; subst; auto; apply (inv_core c); auto; ctx_simp; congruence.
  - exact (proj1 (encode_inv c e c' I X)).
  - eapply encrypt_inv; eassumption.
  - apply set_spa_hmac_core in X as (X1 & X2 & X3). apply (inv_core c); auto. rewrite X2, X3. auto.
  - eapply final_inv; eauto.
Qed.
Lemma history_inv ks h : sender_history H ks h -> exists c, h = Live c /\ inv c.
Proof.
  induction 1 as [s r l n h E | ks h k e h' _ (c & -> & I) S R].
  - destruct (new_live _ _ _ _ _ E) as (c & u & -> & _ & _ & _ & _ & ->). eexists. split; [reflexivity|].
    apply inv_dirty; ctx_simp; eauto; try lia; try (unfold tmo; ctx_simp; lia).
    eexists; split; [reflexivity|]. unfold rand_digits.
    assert (G0 : forall f i v, no_nul v -> no_nul (rand_loop f r i v)).
    { clear. induction f; intros; cbn [rand_loop]; auto. destruct (_ <? _); auto. apply IHf, no_nul_ztake, no_nul_app. split; auto.
      apply no_nul_ztake, dec_no_nul. }
    apply G0, no_nul_ztake, dec_no_nul.
  - destruct (run_call_live' _ _ _ _ _ R) as (c' & -> & X). eexists; split; [reflexivity|]. eapply call_inv; eauto.
Qed.
End inv.
