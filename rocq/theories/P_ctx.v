(** Proofs about the context interface. *)
From Verif Require Import Bytes M_base64 M_util M_message M_codec M_cipher M_ctx
  S_base64 S_text S_codec S_cipher S_ctx P_bytes P_base64 P_util P_message P_codec P_cipher.
From Coq Require Import Init.Byte List ZArith Bool Lia.
Import ListNotations.
Open Scope Z_scope.

(** ** Getters after setters *)

Ltac ctx_simp := cbn [c_rand c_user c_time c_type c_msg c_nat c_auth c_timeout c_dtype c_etype c_mode c_htype
  c_version c_digest c_digest_len c_raw c_raw_type c_enc c_enc_len c_crypt c_crypt_len c_hmac c_salted c_gpg c_dirty
  set_c_rand set_c_user set_c_time set_c_type set_c_msg set_c_nat set_c_auth set_c_timeout set_c_dtype set_c_etype
  set_c_mode set_c_htype set_c_version set_c_digest set_c_digest_len set_c_raw set_c_raw_type set_c_enc set_c_enc_len
  set_c_crypt set_c_crypt_len set_c_hmac set_c_salted set_c_gpg set_c_dirty fst snd ok negb] in *.

Lemma run_call_live H k h e h' : run_call H k h = Ok (e, h') -> e <> FKO_ERROR_CTX_NOT_INITIALIZED ->
  exists c c', h = Live c /\ h' = Live c' /\ on_live H k c = Ok (e, c').
Proof.
  unfold run_call, api. destruct h as [|c|]; [intro X; inversion X; congruence| |discriminate].
  destruct (on_live H k c) as [[e0 c0]|] eqn:E; [|discriminate]. intro X; inversion X; subst. eauto 6.
Qed.
Lemma run_call_live' H k c e h' : run_call H k (Live c) = Ok (e, h') ->
  exists c', h' = Live c' /\ on_live H k c = Ok (e, c').
Proof.
  unfold run_call, api.
  destruct (on_live H k c) as [[e0 c0]|] eqn:E; [|discriminate]. intro X; inversion X; subst. eauto 6.
Qed.

Ltac inv_ok := match goal with
  | X : Ok _ = Ok _ |- _ => inversion X; subst; clear X
  | X : (_, _) = (_, _) |- _ => inversion X; subst; clear X
  | X : Fault = Ok _ |- _ => discriminate
  end.
Ltac cases := repeat match goal with
  | X : context [match ?b with _ => _ end] |- _ => 
      match type of b with
      | bool => destruct b eqn:?
      | option _ => destruct b eqn:?
      | sum _ _ => destruct b eqn:?
      end; try discriminate; try (inv_ok; fail)
  end.

Theorem get_after_set H k h h' a v : run_call H k h = Ok (FKO_SUCCESS, h') -> sets k h a v -> reads h' a v.
Proof.
  intros R S. destruct (run_call_live _ _ _ _ _ R ltac:(discriminate)) as (c & c' & -> & -> & E). clear R.
  unfold reads. destruct S; cbn [on_live] in E; inversion E as [X]; clear E.
  - unfold set_rand_value in X. cases; inversion X; reflexivity.
  - unfold set_username in X. cases; inversion X; clear X. ctx_simp. cbn. do 5 f_equal.
    unfold truncate_username, strnlen, MAX_SPA_USERNAME_SIZE in *. destruct (Z.min (zlen (x :: u)) 64 =? 64) eqn:Q; [reflexivity|].
    symmetry. apply ztake_all. lia.
  - unfold set_timestamp in X. cases; inversion X; reflexivity.
  - unfold set_message_type in X. cases; inversion X; reflexivity.
  - unfold set_message in X. cases; inversion X; reflexivity.
  - unfold set_nat_access in X.
    destruct (strnlen m MAX_SPA_NAT_ACCESS_SIZE =? 0); [discriminate|].
    destruct (strnlen m MAX_SPA_NAT_ACCESS_SIZE =? MAX_SPA_NAT_ACCESS_SIZE); [discriminate|].
    destruct (validate_nat_access_msg m); [|discriminate]. inversion X. reflexivity.
  - unfold set_server_auth in X. cases; inversion X; reflexivity.
  - unfold set_client_timeout in X. rewrite i32_small in X by lia. destruct (n <? 0); inversion X; reflexivity.
  - unfold set_digest_type in X. cases; inversion X; reflexivity.
  - unfold set_raw_digest_type in X. cases; inversion X; reflexivity.
  - unfold set_encryption_type in X. cases; inversion X; reflexivity.
  - unfold set_encryption_mode in X. cases; inversion X; reflexivity.
  - unfold set_hmac_type in X. cases; inversion X; reflexivity.
Qed.

(** A failing setter changes nothing. *)
Theorem failed_setter H k h e h' : is_setter k = true -> run_call H k h = Ok (e, h') -> e <> FKO_SUCCESS -> h' = h.
Proof.
  intros S R E. destruct h as [|c|]; [cbn in R; inversion R; auto| |discriminate].
  destruct (run_call_live' _ _ _ _ _ R) as (c' & -> & X). f_equal. clear R.
  destruct k; try discriminate S; cbn [on_live] in X; inversion X as [Y]; clear X.
  - unfold set_rand_value in Y. cases; inversion Y; subst; congruence.
  - unfold gen_rand_value in Y. cases; inversion Y; subst; congruence.
  - unfold set_username in Y. set (u := truncate_username _) in Y. destruct (validate_username u); inversion Y; subst; congruence.
  - unfold set_timestamp in Y. cases; inversion Y; subst; congruence.
  - unfold set_message_type in Y. cases; inversion Y; subst; congruence.
  - unfold set_message in Y. cases; inversion Y; subst; congruence.
  - unfold set_nat_access in Y. destruct m as [m|]; [|inversion Y; auto].
    destruct (strnlen m MAX_SPA_NAT_ACCESS_SIZE =? 0); [inversion Y; auto|].
    destruct (strnlen m MAX_SPA_NAT_ACCESS_SIZE =? MAX_SPA_NAT_ACCESS_SIZE); [inversion Y; auto|].
    destruct (validate_nat_access_msg m); inversion Y; subst; congruence.
  - unfold set_server_auth in Y. cases; inversion Y; subst; congruence.
  - unfold set_client_timeout in Y. cases; inversion Y; subst; congruence.
  - unfold set_digest_type in Y. cases; inversion Y; subst; congruence.
  - unfold set_raw_digest_type in Y. cases; inversion Y; subst; congruence.
  - unfold set_encryption_type in Y. cases; inversion Y; subst; congruence.
  - unfold set_encryption_mode in Y. cases; inversion Y; subst; congruence.
  - unfold set_hmac_type in Y. cases; inversion Y; subst; congruence.
  - unfold set_spa_data in Y. cases; inversion Y; subst; congruence.
Qed.

(** ** Frame *)
Definition agree (l : list attr) (c c' : ctx) : Prop := forall a, ~ In a l -> get a (Live c') = get a (Live c).
Lemma agree_refl l c : agree l c c. Proof. intros a _. reflexivity. Qed.
Lemma agree_trans l c1 c2 c3 : agree l c1 c2 -> agree l c2 c3 -> agree l c1 c3.
Proof. intros A B a N. rewrite B, A; auto. Qed.
Lemma agree_incl l l' c c' : agree l c c' -> incl l l' -> agree l' c c'.
Proof. intros A I a N. apply A. intro. apply N, I. assumption. Qed.
Ltac frame := let a := fresh "a" in let N := fresh "N" in intros a N; destruct a; first [reflexivity | exfalso; apply N; cbn; tauto].

Lemma set_client_timeout_frame n c e c' : set_client_timeout n c = (e, c') -> agree [ATimeout; AType] c c'.
Proof. unfold set_client_timeout. destruct (i32 n <? 0); intro X; inversion X; frame. Qed.
Lemma set_spa_digest_frame H c e c' : set_spa_digest H c = (e, c') -> agree [ADigest] c c'.
Proof. unfold set_spa_digest. intro X. destruct (c_enc c) as [b|]; [|inversion X; frame]. destruct (set_digest H (cstr b) (c_dtype c)); inversion X; frame. Qed.
Lemma encode_frame H c e c' : 0 <= c_timeout c < 2147483648 -> encode_spa_data H c = Ok (e, c') -> agree [AEncoded; ADigest; AType] c c'.
Proof.
  intros T. unfold encode_spa_data. destruct (c_user c) as [u|], (c_version c) as [v|], (c_msg c) as [m|];
    try (intro X; inversion X; frame).
  destruct (_ || _); [intro X; inversion X; frame|].
  destruct (_ && _); [intro X; inversion X; frame|].
  destruct (c_rand c) as [r|]; [|discriminate].
  assert (F : agree [AType] c (snd (set_client_timeout (c_timeout c) c))).
  { unfold set_client_timeout. rewrite i32_small by lia. replace (c_timeout c <? 0) with false by lia. frame. }
  set (c1 := snd (set_client_timeout (c_timeout c) c)) in *. clearbody c1.
  assert (F1 : agree [AEncoded; ADigest; AType] c c1) by (apply (agree_incl _ _ _ _ F); intros a [<-|[]]; cbn; tauto).
  destruct (encode_text _) as [t|]; [|intro X; inversion X; subst; exact F1].
  set (c2 := set_c_enc_len _ _). assert (F2 : agree [AEncoded; ADigest; AType] c1 c2) by (subst c2; frame).
  assert (F3 := agree_trans _ _ _ _ F1 F2). clearbody c2.
  destruct (negb _); [intro X; inversion X; subst; exact F3|].
  destruct (set_spa_digest H c2) as (e3, c3) eqn:D. apply set_spa_digest_frame in D.
  assert (F4 : agree [AEncoded; ADigest; AType] c2 c3) by (apply (agree_incl _ _ _ _ D); intros a [<-|[]]; cbn; tauto).
  assert (F5 := agree_trans _ _ _ _ F3 F4).
  destruct (ok e3); intro X; inversion X; subst; [|exact F5].
  apply (agree_trans _ _ _ _ F5). frame.
Qed.
Lemma rijndael_encrypt_frame H k s c e c' : rijndael_encrypt H k s c = Ok (e, c') -> agree [] c c'.
Proof.
  unfold rijndael_encrypt.
  destruct (_ >? _); [intro X; inversion X; frame|]. destruct (negb _); [intro X; inversion X; frame|].
  destruct (negb _); [intro X; inversion X; frame|].
  destruct (c_enc c) as [t|]; [|discriminate]. destruct (c_digest c) as [d|]; [|discriminate].
  cbv zeta. destruct (_ >? _); [discriminate|]. destruct (negb _); [intro X; inversion X; frame|].
  set (b := strip_b64_eq _). clearbody b.
  destruct (negb _); intro X; inversion X; frame.
Qed.
Lemma agree_nil l c c' : agree [] c c' -> agree l c c'.
Proof. intro A. apply (agree_incl _ _ _ _ A). intros a []. Qed.
Lemma encrypt_frame H k s c e c' : 0 <= c_timeout c < 2147483648 ->
  encrypt_spa_data H k s c = Ok (e, c') -> agree [AEncoded; ADigest; AType] c c'.
Proof.
  intro T. unfold encrypt_spa_data.
  destruct (if match c_enc c with Some _ => c_dirty c | None => true end then encode_spa_data H c else Ok (FKO_SUCCESS, c))
    as [[e1 c1]|] eqn:E; [|discriminate].
  assert (F1 : agree [AEncoded; ADigest; AType] c c1).
  { destruct (match c_enc c with Some _ => c_dirty c | None => true end); [eapply encode_frame; eauto|inversion E; apply agree_refl]. }
  destruct (negb (ok e1)); [intro X; inversion X; subst; auto|].
  destruct (negb _); [intro X; inversion X; subst; auto|].
  destruct (_ =? _).
  - destruct k as [k|]; [|intro X; inversion X; subst; auto]. intro X. apply rijndael_encrypt_frame in X.
    apply (agree_trans _ _ _ _ F1). apply agree_nil. exact X.
  - destruct (_ =? _); intro X; inversion X; subst; auto.
Qed.
Lemma set_spa_hmac_frame H k c e c' : set_spa_hmac H k c = Ok (e, c') -> agree [AHmac] c c'.
Proof.
  unfold set_spa_hmac. destruct k as [k|]; [|intro X; inversion X; frame].
  destruct (_ >? _); [intro X; inversion X; frame|]. destruct (hash_of H (c_htype c)); [|intro X; inversion X; frame].
  destruct (crypt_bytes c) as [bb|]; [|discriminate]. destruct (hmac_of H (c_htype c) k bb); intro X; inversion X; frame.
Qed.
Lemma final_frame H k hk s c e c' : 0 <= c_timeout c < 2147483648 ->
  spa_data_final H k hk s c = Ok (e, c') -> agree [AEncoded; ADigest; AType; AHmac] c c'.
Proof.
  intro T. unfold spa_data_final. destruct (encrypt_spa_data H k s c) as [[e1 c1]|] eqn:E; [|discriminate].
  assert (F1 : agree [AEncoded; ADigest; AType; AHmac] c c1)
    by (apply (agree_incl _ _ _ _ (encrypt_frame _ _ _ _ _ _ T E)); intros a I; cbn in *; tauto).
  destruct (_ && _); [|intro X; inversion X; subst; auto].
  destruct hk as [hk|]; [|intro X; inversion X; subst; auto].
  destruct (set_spa_hmac H (Some hk) c1) as [[e2 c2]|] eqn:S; [|discriminate].
  assert (F2 : agree [AEncoded; ADigest; AType; AHmac] c1 c2)
    by (apply (agree_incl _ _ _ _ (set_spa_hmac_frame _ _ _ _ _ S)); intros a I; cbn in *; tauto).
  assert (F3 := agree_trans _ _ _ _ F1 F2).
  destruct (ok e2); [|intro X; inversion X; subst; auto].
  destruct (c_crypt c2); [|discriminate]. destruct (c_hmac c2); [|discriminate].
  intro X; inversion X; subst. apply (agree_trans _ _ _ _ F3). frame.
Qed.
Lemma add_prefix_frame p c e o (f : bytes -> ctx) : (forall t, agree [] c (f t)) -> add_prefix p c = Ok (e, o) ->
  agree [] c (match o with None => c | Some t => f t end).
Proof. intros F _. destruct o; [apply F|apply agree_refl]. Qed.
Lemma add_salted_frame c e c' : add_salted_str c = Ok (e, c') -> agree [] c c'.
Proof. unfold add_salted_str. destruct (add_prefix _ c) as [[e0 [t|]]|]; intro X; inversion X; frame. Qed.
Lemma add_gpg_frame c e c' : add_gpg_prefix c = Ok (e, c') -> agree [] c c'.
Proof. unfold add_gpg_prefix. destruct (add_prefix _ c) as [[e0 [t|]]|]; intro X; inversion X; frame. Qed.
Lemma verify_frame H k c e c' : verify_hmac H k c = Ok (e, c') -> agree [AHmac] c c'.
Proof.
  unfold verify_hmac. destruct k as [k|]; [|intro X; inversion X; frame].
  destruct (negb _); [intro X; inversion X; frame|]. destruct (_ >? _); [intro X; inversion X; frame|].
  destruct (_ || _); [intro X; inversion X; frame|]. cbv zeta. destruct (_ <? _); [intro X; inversion X; frame|].
  destruct (c_crypt c) as [t|]; [|discriminate].
  set (c1 := set_c_crypt_len _ _). assert (F1 : agree [AHmac] c c1) by (subst c1; frame). clearbody c1.
  set (r := if c_mode c1 =? _ then _ else _). destruct r as [[e2 c2]|] eqn:R; [|discriminate].
  assert (F2 : agree [AHmac] c1 c2).
  { apply agree_nil. subst r. destruct (_ =? _).
    - destruct (c_gpg c1); [inversion R; apply agree_refl|eapply add_gpg_frame; eauto].
    - destruct (c_salted c1); [inversion R; apply agree_refl|eapply add_salted_frame; eauto]. }
  assert (F3 := agree_trans _ _ _ _ F1 F2). clearbody r.
  destruct (negb (ok e2)); [intro X; inversion X; subst; auto|].
  destruct (set_spa_hmac H (Some k) c2) as [[e3 c3]|] eqn:S; [|discriminate].
  assert (F4 := agree_trans _ _ _ _ F3 (set_spa_hmac_frame _ _ _ _ _ S)).
  destruct (negb (ok e3)); [intro X; inversion X; subst; auto|].
  destruct (constant_runtime_cmp _ _ _) as [[| |]|]; intro X; inversion X; subst; auto.
Qed.
Definition decoded : list attr := [ARand; AUser; ATime; AType; AMsg; ANat; AAuth; ATimeout; ADigestType; ADigest; AEncType; AEncoded; AVersion].
Lemma parse_into_frame s c e c' : parse_into s c = (e, c') -> agree decoded c c'.
Proof.
  unfold parse_into. intro X.
  repeat match type of X with
  | context [match ?p with Some _ => _ | None => _ end] =>
      match p with context [set_c_rand] => fail 1 | context [match _ with _ => _ end] => fail 1 | _ => destruct p as [?|] eqn:? end
  | context [let '(_, _) := ?p in _] => destruct p eqn:?
  end; try (inversion X; frame).
  all: inversion X; subst; repeat match goal with |- context [match ?o with _ => _ end] => destruct o end; frame.
Qed.
Lemma decode_frame H c e c' : decode_spa_data H c = Ok (e, c') -> agree decoded c c'.
Proof.
  unfold decode_spa_data. destruct (negb _); [intro X; inversion X; frame|].
  destruct (c_enc c) as [b|]; [|discriminate]. cbv zeta. destruct (_ || _); [intro X; inversion X; frame|].
  destruct (digest_type_of_len _) as [d|]; [|intro X; inversion X; frame].
  destruct (_ <? _); [intro X; inversion X; frame|].
  match goal with |- match ?v with _ => _ end = _ -> _ => destruct v as [dt|]; [|intro X; inversion X; frame] end.
  intro X. inversion X as [Y]. apply parse_into_frame in Y. refine (agree_trans _ _ _ _ _ Y). frame.
Qed.
Lemma decrypt_frame H k c e c' : decrypt_spa_data H k c = Ok (e, c') -> agree decoded c c'.
Proof.
  unfold decrypt_spa_data. cbv zeta. destruct (_ && _); [intro X; inversion X; frame|].
  destruct (_ =? _); [|intro X; inversion X; frame].
  set (c0 := set_c_etype _ c). assert (F0 : agree decoded c c0) by (subst c0; frame). clearbody c0.
  intro X. refine (agree_trans _ _ _ _ F0 _). clear F0 c. revert X. unfold rijndael_decrypt.
  destruct (_ >? _); [intro X; inversion X; frame|].
  destruct (if c_salted c0 then Ok (FKO_SUCCESS, c0) else add_salted_str c0) as [[e1 c1]|] eqn:E; [|discriminate].
  assert (F1 : agree decoded c0 c1).
  { apply agree_nil. destruct (c_salted c0); [inversion E; apply agree_refl|eapply add_salted_frame; eauto]. }
  destruct (negb (ok e1)); [intro X; inversion X; subst; auto|].
  destruct (c_crypt c1) as [t|]; [|discriminate].
  destruct (b64_decode t) as [ci|]; [|intro X; inversion X; subst; auto].
  destruct (negb _); [intro X; inversion X; subst; auto|].
  destruct (rij_decrypt _ _ _ _) as [pt|]; [|discriminate]. cbv zeta.
  set (c2 := set_c_enc _ _). assert (F2 : agree decoded c0 c2) by (refine (agree_trans _ _ _ _ F1 _); subst c2; frame). clearbody c2.
  destruct (_ || _); [intro X; inversion X; subst; auto|].
  destruct (negb _); [intro X; inversion X; subst; auto|].
  set (c3 := set_c_enc_len _ _). assert (F3 : agree decoded c0 c3) by (refine (agree_trans _ _ _ _ F2 _); subst c3; frame). clearbody c3.
  destruct (_ && _); [|intro X; inversion X; subst; auto].
  intro X. apply decode_frame in X. eapply agree_trans; eauto.
Qed.

Definition good_timeout (h : handle) : Prop := forall n, reads h ATimeout (VNum n) -> 0 <= n < 2147483648.
(** Every call leaves the other attributes alone. *)
Theorem call_frame H k h e h' a : good_timeout h -> run_call H k h = Ok (e, h') -> ~ In a (touches k) -> get a h' = get a h.
Proof.
  intros T R N. destruct h as [|c|]; [cbn in R; inversion R; auto| |discriminate].
  destruct (run_call_live' _ _ _ _ _ R) as (c' & -> & X). clear R.
  specialize (T (c_timeout c) eq_refl).
  revert a N. change (agree (touches k) c c').
  destruct k; cbn [on_live touches] in *; try (inversion X as [Y]; clear X).
  - unfold set_rand_value in Y. cases; inversion Y; frame.
  - unfold gen_rand_value in Y. cases; inversion Y; frame.
  - unfold set_username in Y. set (u := truncate_username _) in Y. destruct (validate_username u); inversion Y; frame.
  - unfold set_timestamp in Y. cases; inversion Y; frame.
  - unfold set_message_type in Y. cases; inversion Y; frame.
  - unfold set_message in Y. cases; inversion Y; frame.
  - unfold set_nat_access in Y. destruct m as [m|]; [|inversion Y; frame].
    destruct (strnlen m MAX_SPA_NAT_ACCESS_SIZE =? 0); [inversion Y; frame|].
    destruct (strnlen m MAX_SPA_NAT_ACCESS_SIZE =? MAX_SPA_NAT_ACCESS_SIZE); [inversion Y; frame|].
    destruct (validate_nat_access_msg m); inversion Y; frame.
  - unfold set_server_auth in Y. cases; inversion Y; frame.
  - apply set_client_timeout_frame in Y. exact Y.
  - unfold set_digest_type in Y. cases; inversion Y; frame.
  - unfold set_raw_digest_type in Y. cases; inversion Y; frame.
  - unfold set_encryption_type in Y. cases; inversion Y; frame.
  - unfold set_encryption_mode in Y. cases; inversion Y; frame.
  - unfold set_hmac_type in Y. cases; inversion Y; frame.
  - apply set_spa_digest_frame in Y. exact Y.
  - unfold set_raw_spa_digest in Y. cases; inversion Y; frame.
  - eapply encode_frame; eauto.
  - eapply encrypt_frame; eauto.
  - eapply set_spa_hmac_frame; eauto.
  - eapply final_frame; eauto.
  - unfold set_spa_data in Y. cases; inversion Y; frame.
  - eapply verify_frame; eauto.
  - eapply decrypt_frame; eauto.
Qed.

(** ** The client timeout stays a non-negative int *)
Definition tmo (c : ctx) : Prop := 0 <= c_timeout c < 2147483648.
Lemma agree_tmo l c c' : ~ In ATimeout l -> agree l c c' -> tmo c -> tmo c'.
Proof. intros N A. specialize (A ATimeout N). cbn in A. inversion A as [E]. unfold tmo. rewrite E. auto. Qed.
Lemma parse_client_timeout_range ty s v : parse_client_timeout ty s = Some v -> 0 <= v < 2147483648.
Proof.
  unfold parse_client_timeout. destruct (is_timeout_type ty); [|intro X; inversion X; lia].
  destruct (guard (negb _ && negb _)); cbn [obind]; [|discriminate].
  destruct (guard (forallb isdigit s)); cbn [obind]; [|discriminate].
  destruct (strtol_wrapper s 0 65536) as (w, er) eqn:E.
  destruct (strtol_ok er) eqn:O; cbn [guard obind]; [|discriminate]. intro X; inversion X; subst. clear X.
  destruct er; try discriminate. destruct (strtol_wrapper_range _ _ _ _ E) as (A & B & C).
  rewrite u32_small by lia. lia.
Qed.
Lemma parse_into_tmo s c e c' : parse_into s c = (e, c') -> tmo c -> tmo c'.
Proof.
  unfold parse_into. intros X T.
  repeat match type of X with
  | context [match ?p with Some _ => _ | None => _ end] =>
      match p with context [set_c_rand] => fail 1 | context [match _ with _ => _ end] => fail 1 | _ => destruct p as [?|] eqn:? end
  | context [let '(_, _) := ?p in _] => destruct p eqn:?
  end; try (inversion X; subst; exact T).
  all: match goal with Q : parse_client_timeout _ _ = _ |- _ => try (apply parse_client_timeout_range in Q) end.
  all: inversion X; subst; repeat match goal with |- context [match ?o with _ => _ end] => destruct o end; unfold tmo in *; ctx_simp; lia.
Qed.
Lemma decode_tmo H c e c' : decode_spa_data H c = Ok (e, c') -> tmo c -> tmo c'.
Proof.
  unfold decode_spa_data. destruct (negb _); [intro X; inversion X; subst; auto|].
  destruct (c_enc c) as [b|]; [|discriminate]. cbv zeta. destruct (_ || _); [intro X; inversion X; subst; auto|].
  destruct (digest_type_of_len _) as [d|]; [|intro X; inversion X; subst; auto].
  destruct (_ <? _); [intro X; inversion X; subst; auto|].
  match goal with |- match ?v with _ => _ end = _ -> _ => destruct v as [dt|]; [|intro X; inversion X; subst; auto] end.
  intros X T. inversion X as [Y]. apply parse_into_tmo in Y; [exact Y|exact T].
Qed.
Lemma decrypt_tmo H k c e c' : decrypt_spa_data H k c = Ok (e, c') -> tmo c -> tmo c'.
Proof.
  unfold decrypt_spa_data. cbv zeta. destruct (_ && _); [intro X; inversion X; subst; auto|].
  destruct (_ =? _); [|intro X; inversion X; subst; auto].
  set (c0 := set_c_etype _ c). intros X T. change (tmo c0) in T. clearbody c0. clear c. revert X. unfold rijndael_decrypt.
  destruct (_ >? _); [intro X; inversion X; subst; auto|].
  destruct (if c_salted c0 then Ok (FKO_SUCCESS, c0) else add_salted_str c0) as [[e1 c1]|] eqn:E; [|discriminate].
  assert (T1 : tmo c1).
  { destruct (c_salted c0); [inversion E; subst; auto|]. apply (agree_tmo [] c0); [intros []|eapply add_salted_frame; eauto|auto]. }
  destruct (negb (ok e1)); [intro X; inversion X; subst; auto|].
  destruct (c_crypt c1) as [t|]; [|discriminate].
  destruct (b64_decode t) as [ci|]; [|intro X; inversion X; subst; auto].
  destruct (negb _); [intro X; inversion X; subst; auto|].
  destruct (rij_decrypt _ _ _ _) as [pt|]; [|discriminate]. cbv zeta.
  destruct (_ || _); [intro X; inversion X; subst; auto|].
  destruct (negb _); [intro X; inversion X; subst; auto|].
  destruct (_ && _); [|intro X; inversion X; subst; auto].
  intro X. apply decode_tmo in X; auto.
Qed.
Lemma call_tmo H k c e c' : on_live H k c = Ok (e, c') -> tmo c -> tmo c'.
Proof.
  intros X T. assert (G : good_timeout (Live c)).
  { intros n Y. cbn in Y. inversion Y; subst. exact T. }
  assert (R : run_call H k (Live c) = Ok (e, Live c')) by (unfold run_call, api; rewrite X; reflexivity).
  destruct (in_dec (fun a b : attr => ltac:(decide equality) : {a = b} + {a <> b}) ATimeout (touches k)) as [I|I].
  - destruct k; cbn in I; repeat (destruct I as [I|I]; try discriminate I); try (destruct I; fail).
    + cbn in X. inversion X as [Y]. unfold set_client_timeout in Y. pose proof (i32_range n).
      destruct (i32 n <? 0) eqn:Q; inversion Y; subst; auto. unfold tmo. ctx_simp. lia.
    + cbn in X. eapply decrypt_tmo; eauto.
  - apply (call_frame H k _ _ _ _ G R) in I. cbn in I. inversion I as [Q]. unfold tmo. rewrite Q. exact T.
Qed.
Lemma new_live s r l n h : fko_new s r l n = (FKO_SUCCESS, h) -> exists c u, h = Live c /\ s = true /\
  u = truncate_username (login_name l) /\ validate_username u = true /\ 0 <= n /\
  c = mkCtx (Some (rand_digits r)) (Some u) n 1 None None None 0 3 1 2 0 (Some FKO_PROTOCOL_VERSION) None 0 None 0 None 0 None 0 None false false true.
Proof.
  unfold fko_new, gen_rand_value. destruct s; [|discriminate]. cbn [ok negb].
  unfold set_username. destruct (validate_username (truncate_username (login_name l))) eqn:V; [|discriminate]. cbn [ok negb].
  unfold set_timestamp. rewrite Z.add_0_r. destruct (n <? 0) eqn:N; [discriminate|]. cbn [ok negb].
  intro X. exists (match h with Live c => c | _ => empty_ctx end), (truncate_username (login_name l)).
  inversion X; subst. cbn. do 4 (split; auto). split; [lia|reflexivity].
Qed.
Lemma verify_tmo H k c e c' : verify_hmac H k c = Ok (e, c') -> tmo c -> tmo c'.
Proof. intros X. apply (agree_tmo [AHmac]); [intros [I|[]]; discriminate|eapply verify_frame; eauto]. Qed.
Lemma history_tmo H h : history H h -> exists c, h = Live c /\ tmo c.
Proof.
  induction 1 as [s r l n h E | msg dk mode hk ht h E | h k e h' _ (c & -> & T) R | h e h' _ (c & -> & T) R].
  - destruct (new_live _ _ _ _ _ E) as (c & u & -> & _ & _ & _ & _ & ->). eexists. split; [reflexivity|]. unfold tmo. ctx_simp. lia.
  - unfold fko_new_with_data in E. destruct msg as [m|]; [|inversion E]. destruct (negb _); [inversion E|].
    unfold set_encryption_mode in E. destruct (_ || _); [inversion E|]. cbn [ok negb] in E.
    unfold set_hmac_type in E. destruct (_ || _); [inversion E|]. cbn [ok negb] in E.
    set (c := set_c_htype _ _) in E. assert (T : tmo c) by (unfold tmo; cbn; lia). clearbody c.
    destruct (match hk with Some (x :: r) => verify_hmac H (Some (x :: r)) c | _ => Ok (FKO_SUCCESS, c) end) as [[e1 c1]|] eqn:Q; [|discriminate].
    assert (T1 : tmo c1). { destruct hk as [[|]|]; try (inversion Q; subst; exact T). eapply verify_tmo; eauto. }
    destruct (negb (ok e1)) eqn:O; [inversion E; subst; discriminate|].
    destruct dk as [k|]; [|inversion E; eauto].
    destruct (decrypt_spa_data H k c1) as [[e2 c2]|] eqn:D; [|discriminate].
    destruct (ok e2) eqn:O2; inversion E; subst; [|discriminate]. eexists; split; [reflexivity|]. eapply decrypt_tmo; eauto.
  - destruct (run_call_live' _ _ _ _ _ R) as (c' & -> & X). eexists; split; [reflexivity|]. eapply call_tmo; eauto.
  - unfold fko_decode_spa_data, api in R. destruct (decode_spa_data H c) as [[e1 c1]|] eqn:X; [|discriminate].
    inversion R; subst. eexists; split; [reflexivity|]. eapply decode_tmo; eauto.
Qed.
Theorem history_frame H k h e h' a : history H h -> run_call H k h = Ok (e, h') -> ~ In a (touches k) -> get a h' = get a h.
Proof.
  intros X. apply call_frame. destruct (history_tmo _ _ X) as (c & -> & T). intros n Y. cbn in Y. inversion Y; subst. exact T.
Qed.
