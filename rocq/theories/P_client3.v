(** Proofs about the client: the sealed packet. *)
From Verif Require Import Bytes M_base64 M_util M_message M_codec M_cipher M_ctx M_accfile M_client S_base64 S_text S_codec S_cipher S_ctx S_conf S_cycle S_client
  P_bytes P_base64 P_util P_util2 P_message P_codec P_cycle P_ctx P_ctx2 P_ctx3 P_ctx4 P_ctx5 P_ctx6 P_client P_client2.
From Coq Require Import Init.Byte List ZArith Bool Lia.
Import ListNotations.
Open Scope Z_scope.

Local Ltac ands := repeat match goal with |- _ /\ _ => split end.

(** ** Type and timeout do not matter after the encoding *)
Definition blank_type (c : ctx) : ctx := set_c_type 0 (set_c_timeout 0 c).
Definition blank_res (x : outcome (err * ctx)) : outcome (err * ctx) := match x with Ok (e, c) => Ok (e, blank_type c) | Fault => Fault end.

Lemma rijndael_blank H k s c : rijndael_encrypt H k s (blank_type c) = blank_res (rijndael_encrypt H k s c).
Proof.
  unfold rijndael_encrypt. change (c_enc_len (blank_type c)) with (c_enc_len c). change (c_digest_len (blank_type c)) with (c_digest_len c).
  change (c_enc (blank_type c)) with (c_enc c). change (c_digest (blank_type c)) with (c_digest c). change (c_mode (blank_type c)) with (c_mode c).
  destruct (_ >? _); [reflexivity|]. destruct (negb _); [reflexivity|]. destruct (negb _); [reflexivity|].
  destruct (c_enc c) as [e|]; [|reflexivity]. destruct (c_digest c) as [d|]; [|reflexivity]. cbv zeta.
  destruct (_ >? _); [reflexivity|]. destruct (negb _); [reflexivity|]. destruct (negb _); reflexivity.
Qed.
Lemma hmac_blank H k c : set_spa_hmac H k (blank_type c) = blank_res (set_spa_hmac H k c).
Proof.
  unfold set_spa_hmac. destruct k as [k|]; [|reflexivity]. destruct (_ >? _); [reflexivity|].
  change (c_htype (blank_type c)) with (c_htype c). change (crypt_bytes (blank_type c)) with (crypt_bytes c).
  destruct (hash_of H (c_htype c)); [|reflexivity]. destruct (crypt_bytes c) as [m|]; [|reflexivity]. destruct (hmac_of H (c_htype c) k m); reflexivity.
Qed.
(** fko_spa_data_final after the encoding *)
Definition encrypt_rest (H : hashes) (key : option bytes) (salt : bytes) (c1 : ctx) : outcome (err * ctx) :=
  if negb (is_valid_encoded_msg_len (c_enc_len c1)) then Ok (FKO_ERROR_MISSING_ENCODED_DATA, c1)
  else if c_etype c1 =? FKO_ENCRYPTION_RIJNDAEL then
         match key with
         | None => Ok (FKO_ERROR_INVALID_KEY_LEN, c1)
         | Some k => rijndael_encrypt H k salt c1
         end
  else if c_etype c1 =? FKO_ENCRYPTION_GPG then Ok (FKO_ERROR_UNSUPPORTED_FEATURE, c1)
  else Ok (FKO_ERROR_INVALID_ENCRYPTION_TYPE, c1).
Definition final_rest (H : hashes) (hmac_key : option bytes) (x : outcome (err * ctx)) : outcome (err * ctx) :=
  match x with
  | Fault => Fault
  | Ok (e, c1) =>
      if ok e && negb (c_htype c1 =? FKO_HMAC_UNKNOWN) then
        match hmac_key with
        | None => Ok (FKO_ERROR_INVALID_KEY_LEN, c1)
        | Some _ =>
            match set_spa_hmac H hmac_key c1 with
            | Fault => Fault
            | Ok (e2, c2) =>
                if ok e2 then
                  match c_crypt c2, c_hmac c2 with
                  | Some t, Some h =>
                      let n := c_crypt_len c2 + 1 + zlen h + 1 in
                      Ok (e2, set_c_crypt_len n (set_c_crypt (Some (ztake (n - 1) (t ++ h))) c2))
                  | _, _ => Fault
                  end
                else Ok (e2, c2)
            end
        end
      else Ok (e, c1)
  end.
Lemma encrypt_rest_blank H k s c : encrypt_rest H k s (blank_type c) = blank_res (encrypt_rest H k s c).
Proof.
  unfold encrypt_rest. change (c_enc_len (blank_type c)) with (c_enc_len c). change (c_etype (blank_type c)) with (c_etype c).
  destruct (negb _); [reflexivity|]. destruct (_ =? _); [destruct k; [apply rijndael_blank|reflexivity]|]. destruct (_ =? _); reflexivity.
Qed.
Lemma final_rest_blank H hk x : final_rest H hk (blank_res x) = blank_res (final_rest H hk x).
Proof.
  destruct x as [[e c]|]; [|reflexivity]. cbn [blank_res final_rest]. change (c_htype (blank_type c)) with (c_htype c).
  destruct (_ && _); [|reflexivity]. destruct hk as [hk|]; [|reflexivity]. rewrite hmac_blank.
  destruct (set_spa_hmac H (Some hk) c) as [[e2 c2]|]; [|reflexivity]. cbn [blank_res]. destruct (ok e2); [|reflexivity].
  change (c_crypt (blank_type c2)) with (c_crypt c2). change (c_hmac (blank_type c2)) with (c_hmac c2). change (c_crypt_len (blank_type c2)) with (c_crypt_len c2).
  destruct (c_crypt c2), (c_hmac c2); reflexivity.
Qed.
Lemma final_split H key hk salt c : c_enc c = None ->
  spa_data_final H key hk salt c = final_rest H hk (match encode_spa_data H c with
    | Fault => Fault | Ok (e, c1) => if negb (ok e) then Ok (e, c1) else encrypt_rest H key salt c1 end).
Proof. intro N. unfold spa_data_final, encrypt_spa_data. rewrite N. reflexivity. Qed.

Definition coded (H : hashes) (t : bytes) (c : ctx) : ctx :=
  set_c_dirty false (snd (set_spa_digest H (set_c_enc_len (strnlen t MAX_SPA_ENCODED_MSG_SIZE) (set_c_enc (Some t) (blank_type c))))).
Lemma encode_blank H c c2 r u v m : c_rand c = Some r -> c_user c = Some u -> c_version c = Some v -> c_msg c = Some m ->
  encode_spa_data H c = Ok (FKO_SUCCESS, c2) ->
  exists t, encode_text (spa_of r u v m c) = Some t /\ blank_type c2 = coded H t c.
Proof.
  intros R U V M. unfold encode_spa_data. rewrite R, U, V, M.
  destruct (_ || _); [discriminate|]. destruct (_ && _); [discriminate|]. cbv zeta. unfold spa_of.
  destruct (encode_text _) as [t|]; [|discriminate]. destruct (negb _); [discriminate|].
  intro E. exists t. split; [reflexivity|]. revert E. unfold coded. set (n := strnlen t _).
  set (c1 := snd (set_client_timeout (c_timeout c) c)).
  assert (B : blank_type (set_c_enc_len n (set_c_enc (Some t) c1)) = set_c_enc_len n (set_c_enc (Some t) (blank_type (set_c_dirty (c_dirty c1) c)))).
  { unfold c1, set_client_timeout. destruct (i32 _ <? 0); [destruct c|]; reflexivity. }
  set (c3 := set_c_enc_len n (set_c_enc (Some t) c1)) in *.
  assert (D : c_dtype c3 = c_dtype c) by (unfold c3, c1, set_client_timeout; destruct (i32 _ <? 0); reflexivity).
  assert (EN : c_enc c3 = Some t) by reflexivity.
  unfold set_spa_digest. rewrite EN, D. cbn [c_enc set_c_enc_len set_c_enc c_dtype blank_type set_c_type set_c_timeout].
  assert (NS : set_digest H (cstr t) (c_dtype c) <> inl FKO_SUCCESS) by (unfold set_digest; destruct (_ =? _); [discriminate|]; destruct (hash_of _ _); discriminate).
  destruct (set_digest H (cstr t) (c_dtype c)) as [x|d]; [destruct x; intro E; try (inversion E; fail); contradiction|]. cbn [ok snd]. intro E. inversion E; subst c2. clear E.
  change (blank_type (set_c_dirty false (set_c_digest_len (b64_len_of (c_dtype c)) (set_c_digest (Some d) c3))))
    with (set_c_dirty false (set_c_digest_len (b64_len_of (c_dtype c)) (set_c_digest (Some d) (blank_type c3)))).
  rewrite B. reflexivity.
Qed.

Lemma same_packet H key hk salt c c' r u v m c1 c1' :
  c_enc c = None -> c_enc c' = None -> blank_type c = blank_type c' ->
  c_rand c = Some r -> c_user c = Some u -> c_version c = Some v -> c_msg c = Some m ->
  encode_text (spa_of r u v m c) = encode_text (spa_of r u v m c') ->
  spa_data_final H key hk salt c = Ok (FKO_SUCCESS, c1) -> spa_data_final H key hk salt c' = Ok (FKO_SUCCESS, c1') ->
  get_spa_data c1 = get_spa_data c1'.
Proof.
  intros N N' B R U V M T E E'. rewrite final_split in E, E' by auto.
  assert (SPL : forall x y, final_rest H hk (match x with Fault => Fault | Ok (e, c1) => if negb (ok e) then Ok (e, c1) else encrypt_rest H key salt c1 end) = Ok (FKO_SUCCESS, y) ->
    exists c2, x = Ok (FKO_SUCCESS, c2) /\ final_rest H hk (encrypt_rest H key salt c2) = Ok (FKO_SUCCESS, y)).
  { intros [[e c2]|] y; [|discriminate]. destruct e; cbn [ok negb]; try (cbn; intro X; inversion X; fail). eauto. }
  apply SPL in E as (c2 & E2 & E). apply SPL in E' as (c2' & E2' & E').
  assert (R' : c_rand c' = Some r /\ c_user c' = Some u /\ c_version c' = Some v /\ c_msg c' = Some m).
  { rewrite <- R, <- U, <- V, <- M. split; [|split; [|split]];
      [change (c_rand (blank_type c') = c_rand (blank_type c))|change (c_user (blank_type c') = c_user (blank_type c))
      |change (c_version (blank_type c') = c_version (blank_type c))|change (c_msg (blank_type c') = c_msg (blank_type c))]; rewrite B; reflexivity. }
  destruct R' as (R' & U' & V' & M').
  destruct (encode_blank H c c2 r u v m R U V M E2) as (t & T1 & B1).
  destruct (encode_blank H c' c2' r u v m R' U' V' M' E2') as (t' & T2 & B2).
  assert (t' = t) by congruence. subst t'.
  assert (BB : blank_type c2 = blank_type c2') by (rewrite B1, B2; unfold coded; rewrite B; reflexivity).
  assert (X : blank_res (Ok (FKO_SUCCESS, c1)) = blank_res (Ok (FKO_SUCCESS, c1'))).
  { rewrite <- E, <- E', <- !final_rest_blank, <- !encrypt_rest_blank, BB. reflexivity. }
  assert (Y : blank_type c1 = blank_type c1').
  { revert X. unfold blank_res. generalize (blank_type c1) (blank_type c1'). intros a b Q. injection Q as ->. reflexivity. }
  change (get_spa_data (blank_type c1) = get_spa_data (blank_type c1')). rewrite Y. reflexivity.
Qed.
