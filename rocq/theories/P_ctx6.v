(** Proofs about the context interface: what the receiver accepts, what the sender sends,
    memory safety. *)
From Verif Require Import Bytes M_base64 M_util M_message M_codec M_cipher M_ctx
  S_base64 S_text S_codec S_cipher S_ctx P_bytes P_base64 P_util P_message P_codec P_cipher P_ctx P_ctx2 P_ctx3 P_ctx4 P_ctx5.
From Coq Require Import Init.Byte List ZArith Bool Lia.
Import ListNotations.
Open Scope Z_scope.

(** ** The constructor with an HMAC key *)
Lemma strnlen_valid m : is_valid_encoded_msg_len (strnlen m MAX_SPA_ENCODED_MSG_SIZE) = true ->
  strnlen m MAX_SPA_ENCODED_MSG_SIZE = zlen m /\ 36 <= zlen m < 1500.
Proof. unfold is_valid_encoded_msg_len, strnlen, MIN_SPA_ENCODED_MSG_SIZE, MAX_SPA_ENCODED_MSG_SIZE. lia. Qed.

Definition authentic (H : hashes) (mode ht : Z) (hk m : bytes) : Prop :=
  exists h body, hash_number H ht h /\ 36 <= zlen body /\
    m = body ++ b64_text (rfc2104 h (hash_block ht) hk (with_prefix mode body)).

Definition start_ctx (m : bytes) (mode ht : Z) : ctx := received_ctx m mode ht.
Lemma new_cases H m dk mode hk ht :
  (exists e, e <> FKO_SUCCESS /\ forall dk hk, fko_new_with_data H (Some m) dk mode hk ht = Ok (e, Null)) \/
  (36 <= zlen m < 1500 /\ 0 <= mode <= 8 /\ 0 <= ht <= 7 /\
   fko_new_with_data H (Some m) dk mode hk ht =
     match (match hk with Some (x :: r) => verify_hmac H (Some (x :: r)) (received_ctx m mode ht) | _ => Ok (FKO_SUCCESS, received_ctx m mode ht) end) with
     | Fault => Fault
     | Ok (e, c) => if negb (ok e) then Ok (e, Null) else
         match dk with
         | None => Ok (FKO_SUCCESS, Live c)
         | Some k => match decrypt_spa_data H k c with
                     | Fault => Fault
                     | Ok (e, c) => if ok e then Ok (FKO_SUCCESS, Live c) else Ok (e, Null)
                     end
         end
     end).
Proof.
  unfold fko_new_with_data. cbv zeta.
  destruct (is_valid_encoded_msg_len (strnlen m MAX_SPA_ENCODED_MSG_SIZE)) eqn:V; cbn [negb].
  2:{ left. eexists. split; [|reflexivity]. discriminate. }
  destruct (strnlen_valid m V) as [SL R]. rewrite SL.
  unfold set_encryption_mode, FKO_LAST_ENC_MODE. destruct ((mode <? 0) || (mode >=? 9)) eqn:M; cbn [ok negb].
  { left. eexists. split; [|reflexivity]. discriminate. }
  unfold set_hmac_type, FKO_LAST_HMAC_MODE. destruct ((ht <? 0) || (ht >=? 8)) eqn:T; cbn [ok negb].
  { left. eexists. split; [|reflexivity]. discriminate. }
  right. split; auto. split; [lia|]. split; [lia|]. reflexivity.
Qed.

Lemma hmac_first H m mode hk ht : hashes_ok H -> hk <> [] ->
  authentic H mode ht hk m \/
  (exists e, e <> FKO_SUCCESS /\ forall dk, fko_new_with_data H (Some m) dk mode (Some hk) ht = Ok (e, Null)).
Proof.
  intros OK NE. destruct (new_cases H m None mode (Some hk) ht) as [(e & N & E)|(R & MR & TR & _)].
  { right. exists e. split; auto. }
  destruct hk as [|x hk]; [congruence|].
  destruct (verify_new H m mode ht (x :: hk) OK ltac:(lia)) as [(e & c' & E & N & _)|(h & HN & KL & B & BC & EQ & E)]; cbv zeta in *.
  - right. exists e. split; auto. intro dk.
    destruct (new_cases H m dk mode (Some (x :: hk)) ht) as [(e' & N' & E')|(_ & _ & _ & Q)].
    + exfalso. pose proof (E' None (Some [])) as Z0.
      destruct (new_cases H m None mode (Some []) ht) as [(e2 & N2 & E2)|(_ & _ & _ & Q2)].
      * destruct (new_cases H m None mode (Some (x :: hk)) ht) as [(e3 & N3 & E3)|(_ & _ & _ & Q3)].
        -- clear -R MR TR N3 E3. specialize (E3 None None). unfold fko_new_with_data in E3. cbv zeta in E3.
           assert (V : is_valid_encoded_msg_len (strnlen m MAX_SPA_ENCODED_MSG_SIZE) = true)
             by (unfold is_valid_encoded_msg_len, strnlen, MIN_SPA_ENCODED_MSG_SIZE, MAX_SPA_ENCODED_MSG_SIZE; lia).
           rewrite V in E3. unfold set_encryption_mode, set_hmac_type, FKO_LAST_ENC_MODE, FKO_LAST_HMAC_MODE in E3.
           replace ((mode <? 0) || (mode >=? 9)) with false in E3 by lia. replace ((ht <? 0) || (ht >=? 8)) with false in E3 by lia.
           discriminate.
        -- specialize (E' None None). unfold fko_new_with_data in E'. cbv zeta in E'.
           assert (V : is_valid_encoded_msg_len (strnlen m MAX_SPA_ENCODED_MSG_SIZE) = true)
             by (unfold is_valid_encoded_msg_len, strnlen, MIN_SPA_ENCODED_MSG_SIZE, MAX_SPA_ENCODED_MSG_SIZE; lia).
           rewrite V in E'. unfold set_encryption_mode, set_hmac_type, FKO_LAST_ENC_MODE, FKO_LAST_HMAC_MODE in E'.
           replace ((mode <? 0) || (mode >=? 9)) with false in E' by lia. replace ((ht <? 0) || (ht >=? 8)) with false in E' by lia.
           discriminate.
      * rewrite Q2 in Z0. discriminate.
    + rewrite Q, E. assert (O : ok e = false) by (destruct e; try reflexivity; congruence). rewrite O. reflexivity.
  - left. exists h, (cut_off (b64_len_of ht) m). auto.
Qed.

Lemma accepted_authentic H m dk mode hk ht h : hashes_ok H -> hk <> [] ->
  fko_new_with_data H (Some m) dk mode (Some hk) ht = Ok (FKO_SUCCESS, h) -> authentic H mode ht hk m.
Proof.
  intros OK NE E. destruct (hmac_first H m mode hk ht OK NE) as [A|(e & N & X)]; auto. rewrite X in E. congruence.
Qed.

Lemma body_prefix p body tail : zlen p <= zlen body -> is_prefix p (body ++ tail) = is_prefix p body.
Proof.
  intro L. destruct (is_prefix p body) eqn:E.
  - apply is_prefix_app in E as (r & ->). apply is_prefix_app. exists (r ++ tail). rewrite app_assoc. reflexivity.
  - destruct (is_prefix p (body ++ tail)) eqn:F; auto. apply prefix_take in F; [|rewrite zlen_app; pose proof (zlen_nonneg tail); lia].
    assert (is_prefix p body = true); [|congruence]. apply prefix_take; auto. rewrite <- F at 2. unfold ztake. rewrite firstn_app.
    replace (Z.to_nat (zlen p) - length body)%nat with 0%nat by (unfold zlen in *; lia). rewrite app_nil_r. reflexivity.
Qed.

Lemma not_malleable H mode ht hk p1 p2 dk1 dk2 h1 h2 : hashes_ok H -> hk <> [] ->
  fko_new_with_data H (Some p1) dk1 mode (Some hk) ht = Ok (FKO_SUCCESS, h1) ->
  fko_new_with_data H (Some p2) dk2 mode (Some hk) ht = Ok (FKO_SUCCESS, h2) ->
  is_prefix (prefix_of mode) p1 = false -> is_prefix (prefix_of mode) p2 = false -> p1 <> p2 ->
  exists h b1 b2, hash_number H ht h /\ b1 <> b2 /\
    p1 = b1 ++ b64_text (rfc2104 h (hash_block ht) hk (prefix_of mode ++ b1)) /\
    p2 = b2 ++ b64_text (rfc2104 h (hash_block ht) hk (prefix_of mode ++ b2)).
Proof.
  intros OK NE A1 A2 N1 N2 D. apply accepted_authentic in A1 as (h & b1 & HN & L1 & E1); auto. apply accepted_authentic in A2 as (h' & b2 & HN' & L2 & E2); auto.
  assert (h' = h) by (apply hash_of_number in HN, HN'; congruence). subst h'.
  pose proof (prefix_of_len mode).
  assert (W1 : with_prefix mode b1 = prefix_of mode ++ b1). { unfold with_prefix. rewrite E1, body_prefix in N1 by lia. rewrite N1. reflexivity. }
  assert (W2 : with_prefix mode b2 = prefix_of mode ++ b2). { unfold with_prefix. rewrite E2, body_prefix in N2 by lia. rewrite N2. reflexivity. }
  rewrite W1 in E1. rewrite W2 in E2. exists h, b1, b2. repeat split; auto. intro Q. subst b2. congruence.
Qed.

(** ** The receiver never touches memory it does not own, as long as there is no padding
    character in the packet *)
Lemma b64_all_body t : b64_all t = true -> ~ In "="%byte t -> Forall is_b64_char t.
Proof.
  unfold b64_all. rewrite forallb_forall. intros A N. apply Forall_forall. intros x I. specialize (A x I).
  apply b64cb_iff. destruct x; try reflexivity; try (vm_compute in A; discriminate). exfalso; auto.
Qed.
Lemma body_of_chars t : Forall is_b64_char t -> b64_body t t.
Proof. induction 1 as [|x l X F IH]; constructor; auto; apply b64_char_ok in X; tauto. Qed.

Lemma rijndael_decrypt_no_fault H k c t : c_crypt c = Some t -> c_crypt_len c = zlen t -> ~ In "="%byte t -> clean c ->
  36 <= zlen t < 1500 -> (c_salted c = true -> b64_all t = true) -> rijndael_decrypt H k c <> Fault.
Proof.
  intros C L NE CL R SA. unfold rijndael_decrypt. destruct (_ >? _); [discriminate|].
  assert (X : exists e c1, (if c_salted c then Ok (FKO_SUCCESS, c) else add_salted_str c) = Ok (e, c1) /\
     (ok e = true -> exists t', c_crypt c1 = Some t' /\ 36 <= zlen t' /\ ~ In "="%byte t' /\ clean c1 /\ b64_all t' = true)).
  { destruct (c_salted c).
    - exists FKO_SUCCESS, c. split; auto. intros _. exists t. repeat (split; auto; try lia).
    - rewrite (add_salted_spec c t) by (auto || lia). destruct (b64_all t) eqn:B.
      + do 2 eexists. split; [reflexivity|]. intros _. exists (pfx ($ "U2FsdGVkX1") t).
        split; [apply (prefixed_crypt ($ "U2FsdGVkX1") t true c); auto|]. unfold pfx, prefixed. destruct (is_prefix _ t) eqn:P.
        * repeat (split; auto; try lia).
        * split; [rewrite zlen_app; change (zlen ($ "U2FsdGVkX1")) with 10; lia|]. split.
          { intro I. apply in_app_or in I as [I|I]; [cbn in I; intuition discriminate|auto]. }
          split; [destruct CL; split; auto|]. unfold b64_all in *. rewrite forallb_app, B. reflexivity.
      + do 2 eexists. split; [reflexivity|]. discriminate. }
  destruct X as (e & c1 & -> & F). destruct (ok e); cbn [negb]; [|discriminate]. destruct (F eq_refl) as (t' & C1 & L1 & N1 & CL1 & B1). rewrite C1.
  unfold b64_decode. pose proof (decode_go_spec t' 0 0 t' ltac:(lia) (body_of_chars _ (b64_all_body _ B1 N1))) as D.
  destruct (b64_decode_go 0 0 t') as [ci okk]. destruct okk; [|discriminate]. destruct D as [_ D].
  destruct (negb (zlen ci mod RIJNDAEL_BLOCKSIZE =? 0)) eqn:M; [discriminate|]. unfold RIJNDAEL_BLOCKSIZE in M.
  assert (32 <= zlen ci). { destruct (zlen ci mod 16 =? 0) eqn:M'; [|discriminate]. clear -D L1 M'. change ((0 + 3) / 4) with 0 in D. Z.div_mod_to_equations; lia. }
  unfold rij_decrypt. destruct (rij_key_iv H (c_mode c1) k _) as (kk, iv). unfold RIJNDAEL_BLOCKSIZE. replace (zlen ci <? 2 * 16) with false by lia.
  set (pt := unpad _). clearbody pt. cbv zeta. destruct (_ || _); [discriminate|]. destruct (negb (is_valid_encoded_msg_len _)); [discriminate|].
  destruct (forallb isdigit _ && _); [|discriminate].
  set (c3 := set_c_enc_len _ _). assert (CL3 : clean c3) by (destruct CL1; split; auto).
  pose proof (decode_ctx H c3 pt CL3 eq_refl eq_refl) as Q. destruct (decode_spa H pt) as [[[m dt] dg]|].
  - destruct Q as (c' & Q & _). rewrite Q. discriminate.
  - destruct Q as (e' & c' & Q & _). rewrite Q. discriminate.
Qed.

Lemma encryption_type_range t : encryption_type (Some t) = FKO_ENCRYPTION_RIJNDAEL -> 36 <= zlen t < 400.
Proof.
  unfold encryption_type, strnlen, is_valid_encoded_msg_len, MIN_SPA_ENCODED_MSG_SIZE, MAX_SPA_ENCODED_MSG_SIZE, MIN_GNUPG_MSG_SIZE.
  pose proof (zlen_nonneg t).
  repeat match goal with |- context [if ?b then _ else _] => destruct b eqn:? end; try discriminate; intros _; lia.
Qed.

(** The state in which decryption starts. *)
Lemma after_hmac H m mode hk ht e c : hashes_ok H -> 36 <= zlen m < 1500 ->
  match hk with Some (x :: r) => verify_hmac H (Some (x :: r)) (received_ctx m mode ht) | _ => Ok (FKO_SUCCESS, received_ctx m mode ht) end = Ok (e, c) ->
  ok e = true -> exists t, c_crypt c = Some t /\ c_crypt_len c = zlen t /\ clean c /\ (c_salted c = true -> b64_all t = true) /\
    c_mode c = mode /\ c_htype c = ht /\ (~ In "="%byte m -> ~ In "="%byte t) /\
    (c_salted c = true -> is_prefix ($ "U2FsdGVkX1") t = true).
Proof.
  intros OK R E O.
  assert (D : (hk = None \/ hk = Some []) \/ exists x r, hk = Some (x :: r)) by (destruct hk as [[|x r]|]; eauto).
  destruct D as [D|(x & r & ->)].
  { assert (E' : c = received_ctx m mode ht) by (destruct D as [-> | ->]; inversion E; auto). subst c. exists m.
    repeat (split; [first [reflexivity | split; reflexivity | discriminate | auto]|]). discriminate. }
  destruct (verify_new H m mode ht (x :: r) OK ltac:(lia)) as [(e' & c' & V & N & _)|(h & HN & KL & B & BC & EQ & V)]; cbv zeta in *; rewrite V in E; inversion E; subst.
  { exfalso. destruct e; try discriminate. congruence. }
  set (body := cut_off (b64_len_of ht) m) in *. set (c0 := set_c_crypt_len (zlen body) (set_c_crypt (Some body) (received_ctx m mode ht))).
  destruct (prefixed_crypt (prefix_of mode) body (negb (mode =? 7)) c0 eq_refl eq_refl) as [P1 P2].
  exists (pfx (prefix_of mode) body). split; [exact P1|]. split; [exact P2|].
  unfold prefixed, pfx. destruct (is_prefix (prefix_of mode) body) eqn:IP.
  - split; [split; reflexivity|]. split; [discriminate|]. split; [reflexivity|]. split; [reflexivity|]. split; [|discriminate].
    intros N I. apply N. rewrite EQ. apply in_or_app. auto.
  - split; [destruct (negb _); split; reflexivity|]. split; [|split; [destruct (negb _); reflexivity|split; [destruct (negb _); reflexivity|split]]].
    + intros _. unfold b64_all in *. rewrite forallb_app, BC. unfold prefix_of. destruct (mode =? 7); reflexivity.
    + intros N I. apply in_app_or in I as [I|I].
      * unfold prefix_of in I. destruct (mode =? 7); cbn in I; intuition discriminate.
      * apply N. rewrite EQ. apply in_or_app. auto.
    + unfold prefix_of. destruct (mode =? 7); cbn [negb]; [discriminate|]. intros _. apply is_prefix_app. eauto.
Qed.
Lemma verify_new_no_fault H m mode hk ht : hashes_ok H -> 36 <= zlen m < 1500 ->
  match hk with Some (x :: r) => verify_hmac H (Some (x :: r)) (received_ctx m mode ht) | _ => Ok (FKO_SUCCESS, received_ctx m mode ht) end <> Fault.
Proof.
  intros OK R. destruct hk as [[|x r]|]; try discriminate.
  destruct (verify_new H m mode ht (x :: r) OK ltac:(lia)) as [(e' & c' & V & N & _)|(h & HN & KL & B & BC & EQ & V)]; cbv zeta in *; rewrite V; discriminate.
Qed.

Theorem new_no_fault H m dk mode hk ht : hashes_ok H -> ~ In "="%byte m ->
  fko_new_with_data H (Some m) dk mode hk ht <> Fault.
Proof.
  intros OK NE. destruct (new_cases H m dk mode hk ht) as [(e & N & E)|(R & MR & TR & E)]; rewrite E; [discriminate|].
  pose proof (verify_new_no_fault H m mode hk ht OK R) as NF.
  destruct (match hk with Some (x :: r) => verify_hmac H (Some (x :: r)) (received_ctx m mode ht) | _ => Ok (FKO_SUCCESS, received_ctx m mode ht) end)
    as [[e c]|] eqn:V; [|congruence].
  destruct (ok e) eqn:O; cbn [negb]; [|discriminate]. destruct dk as [k|]; [|discriminate].
  destruct (after_hmac H m mode hk ht e c OK R V O) as (t & C & L & CL & SA & _ & _ & EQ & _).
  unfold decrypt_spa_data. rewrite C. cbv zeta.
  destruct (_ && _); [discriminate|]. destruct (encryption_type (Some t) =? FKO_ENCRYPTION_RIJNDAEL) eqn:ET; [|discriminate].
  assert (TR' := encryption_type_range t ltac:(lia)).
  pose proof (rijndael_decrypt_no_fault H k (set_c_etype FKO_ENCRYPTION_RIJNDAEL c) t C L (EQ NE) ltac:(destruct CL; split; auto) ltac:(lia) SA) as Q.
  destruct (rijndael_decrypt H k (set_c_etype FKO_ENCRYPTION_RIJNDAEL c)) as [[e1 c1]|]; [|congruence]. destruct (ok e1); discriminate.
Qed.

(** ** What an accepted packet shows *)
Theorem new_sound H m k mode hk ht h : hashes_ok H ->
  fko_new_with_data H (Some m) (Some k) mode hk ht = Ok (FKO_SUCCESS, h) ->
  exists t ci pt sp dt dg, 36 <= zlen t < 410 /\ zlen k <= 32 /\ b64_decode t = Some ci /\ zlen ci mod 16 = 0 /\
    is_prefix ($ "U2FsdGVkX1") t = true /\
    rij_decrypt H mode k ci = Ok pt /\ all_digits (ztake 16 pt) /\ decode_spa H pt = Some (sp, dt, dg) /\ shows h sp.
Proof.
  intros OK E. destruct (new_cases H m (Some k) mode hk ht) as [(e & N & E')|(R & MR & TR & E')]; rewrite E' in E; [congruence|]. clear E'.
  destruct (match hk with Some (x :: r) => verify_hmac H (Some (x :: r)) (received_ctx m mode ht) | _ => Ok (FKO_SUCCESS, received_ctx m mode ht) end)
    as [[e c]|] eqn:V; [|discriminate].
  destruct (ok e) eqn:O; cbn [negb] in E; [|inversion E; subst; discriminate].
  destruct (after_hmac H m mode hk ht e c OK R V O) as (t & C & L & CL & SA & MD & _ & _ & SPX).
  unfold decrypt_spa_data in E. rewrite C in E. cbv zeta in E.
  destruct (_ && _) eqn:G; [discriminate|]. destruct (encryption_type (Some t) =? FKO_ENCRYPTION_RIJNDAEL) eqn:ET; [|discriminate].
  assert (TRt := encryption_type_range t ltac:(lia)). set (c0 := set_c_etype FKO_ENCRYPTION_RIJNDAEL c) in *.
  unfold rijndael_decrypt in E. destruct (zlen k >? RIJNDAEL_MAX_KEYSIZE) eqn:KL; [discriminate|].
  assert (X : forall e1 c1, (if c_salted c0 then Ok (FKO_SUCCESS, c0) else add_salted_str c0) = Ok (e1, c1) -> ok e1 = true ->
     c_crypt c1 = Some (pfx ($ "U2FsdGVkX1") t) /\ clean c1 /\ c_mode c1 = mode).
  { intros e1 c1 Q O1. destruct (c_salted c0) eqn:S.
    - inversion Q; subst. unfold pfx. rewrite SPX by exact S. repeat split; auto; apply CL.
    - rewrite (add_salted_spec c0 t) in Q by (auto || lia). destruct (b64_all t) eqn:B; [|inversion Q; subst; discriminate].
      assert (Q' : c1 = prefixed ($ "U2FsdGVkX1") t true c0) by congruence. rewrite Q'.
      split; [apply (prefixed_crypt ($ "U2FsdGVkX1") t true c0); auto|].
      unfold prefixed. destruct (is_prefix _ _); repeat split; auto; apply CL. }
  destruct (if c_salted c0 then Ok (FKO_SUCCESS, c0) else add_salted_str c0) as [[e1 c1]|]; [|discriminate].
  destruct (ok e1) eqn:O1; cbn [negb] in E; [|rewrite O1 in E; inversion E; subst; discriminate].
  destruct (X e1 c1 eq_refl O1) as (C1 & CL1 & M1). clear X. rewrite C1, M1 in E.
  destruct (b64_decode _) as [ci|] eqn:D; [|discriminate].
  destruct (negb (zlen ci mod _ =? 0)) eqn:M16; [discriminate|]. destruct (rij_decrypt H mode k ci) as [pt|] eqn:RD; [|discriminate]. cbv zeta in E.
  destruct (_ || _); [discriminate|]. destruct (negb (is_valid_encoded_msg_len (zlen pt))); [discriminate|].
  destruct (forallb isdigit _ && _) eqn:DG; [|discriminate].
  set (c3 := set_c_enc_len _ _) in *. assert (CL3 : clean c3) by (destruct CL1; split; auto).
  pose proof (decode_ctx H c3 pt CL3 eq_refl eq_refl) as Q. destruct (decode_spa H pt) as [[[sp dt] dg]|] eqn:DEC.
  - destruct Q as (c' & Q & SH & _). rewrite Q in E. cbn [ok] in E. inversion E; subst h; clear E.
    exists (pfx ($ "U2FsdGVkX1") t), ci, pt, sp, dt, dg.
    assert (PL : is_prefix ($ "U2FsdGVkX1") (pfx ($ "U2FsdGVkX1") t) = true).
    { unfold pfx. destruct (is_prefix ($ "U2FsdGVkX1") t) eqn:P; [exact P|]. apply is_prefix_app. exists t. reflexivity. }
    apply andb_true_iff in DG as [DG _]. unfold RIJNDAEL_BLOCKSIZE, RIJNDAEL_MAX_KEYSIZE in *.
    split. { unfold pfx. destruct (is_prefix _ t); [lia|]. rewrite zlen_app. change (zlen ($ "U2FsdGVkX1")) with 10. lia. }
    split; [lia|]. split; [exact D|]. split; [destruct (zlen ci mod 16 =? 0) eqn:Q16; [lia|discriminate]|]. split; [exact PL|]. split; [exact RD|].
    split; [apply all_digits_forallb; exact DG|]. split; auto.
  - destruct Q as (e' & c' & Q & N). rewrite Q in E. destruct (ok e') eqn:O'; [|inversion E; subst; discriminate]. destruct e'; try discriminate. congruence.
Qed.

(** ** What finalisation sends *)
Lemma live_shows c r u v m : c_rand c = Some r -> c_user c = Some u -> c_version c = Some v -> c_msg c = Some m ->
  shows (Live c) (spa_of r u v m c).
Proof.
  intros A B C D. unfold shows, reads, get, fetch, fko_get_rand_value, fko_get_username, fko_get_timestamp, fko_get_version,
    fko_get_spa_message_type, fko_get_spa_message, fko_get_spa_nat_access, fko_get_spa_server_auth, fko_get_spa_client_timeout, getter, spa_of.
  cbn [option_map s_rand s_user s_time s_version s_type s_msg s_nat s_auth s_timeout]. rewrite A, B, C, D. repeat split; reflexivity.
Qed.
Theorem final_sends H ks h key hk salt h' pkt : hashes_ok H -> sender_history H ks h ->
  run_call H (CFinal key hk salt) h = Ok (FKO_SUCCESS, h') -> fko_get_spa_data h' = Ok (FKO_SUCCESS, Some pkt) ->
  exists k m mode dt hash ht text mac, key = Some k /\ zlen k <= 32 /\
    shows h' m /\ reads h' AMode (VNum mode) /\ reads h' ADigestType (VNum dt) /\ reads h' AHmacType (VNum ht) /\
    hash_number H dt hash /\ encode_text m = Some text /\
    (ht = 0 /\ mac = [] \/
     exists hkey mh, hk = Some hkey /\ hash_number H ht mh /\
       mac = b64_text (rfc2104 mh (hash_block ht) hkey (b64_text (rij_encrypt H mode k salt (text ++ ":"%byte :: b64_text (hash text)))))) /\
    pkt = zdrop 10 (b64_text (rij_encrypt H mode k salt (text ++ ":"%byte :: b64_text (hash text))) ++ mac) /\
    (forall a, ~ In a [AEncoded; ADigest; AType; AHmac] -> get a h' = get a h).
Proof.
  intros OK SH E PK.
  assert (FR : forall a, ~ In a [AEncoded; ADigest; AType; AHmac] -> get a h' = get a h).
  { intros a N. apply (history_frame H (CFinal key hk salt) h FKO_SUCCESS h'); auto.
    clear -SH. induction SH; [eapply hi_new; eauto|eapply hi_call; eauto]. }
  destruct (history_inv H ks h SH) as (c & -> & I).
  destruct (run_call_live' _ _ _ _ _ E) as (c' & -> & F). cbn [on_live] in F.
  destruct (final_spec H key hk salt c c' OK I F) as (ET & k & t & hash & mac & -> & KL & T & FRE & HO & MP & CR & R1 & R2).
  destruct FRE as [(r & u & v & ms & F1 & F2 & F3 & F4 & F5) _ _ _ _].
  assert (PL : plain t hash = t ++ ":"%byte :: b64_text (hash t)) by (unfold plain, digest_b64; rewrite strip_text; reflexivity).
  rewrite PL in *. unfold sealed in *.
  exists k, (spa_of r u v ms c'), (c_mode c'), (c_dtype c'), hash, (c_htype c'), t, mac.
  split; auto. split; auto. split; [apply live_shows; auto|]. do 3 (split; [reflexivity|]).
  split; [apply hash_of_number; auto|]. split; auto. split.
  { destruct MP as [MP|(hkey & mh & -> & _ & N & ->)]; auto. right. exists hkey, mh. auto. }
  split; auto. unfold fko_get_spa_data, get_spa_data in PK. rewrite CR, ET in PK.
  destruct (negb _); [discriminate|]. inversion PK. reflexivity.
Qed.

(** ** Sender calls do not fault *)
Theorem sender_no_fault H ks h k : hashes_ok H -> sender_history H ks h -> sender_call k ->
  (forall key, k <> CSetHmac key) -> run_call H k h <> Fault.
Proof.
  intros OK SH SC NH. destruct (history_inv H ks h SH) as (c & -> & I). unfold run_call, api.
  assert (X : on_live H k c <> Fault).
  { destruct k; cbn [on_live]; try discriminate.
    - apply encode_no_fault; auto.
    - apply encrypt_no_fault; auto.
    - exfalso. eapply NH. reflexivity.
    - apply final_no_fault; auto.
    - destruct SC.
    - destruct SC. }
  destruct (on_live H k c) as [[e c']|]; congruence.
Qed.

(** ** Random values and keys *)
Lemma In_firstn {A} n (x : A) l : In x (firstn n l) -> In x l.
Proof. revert l; induction n; intros [|y l]; cbn; try tauto. intros [X|X]; auto. Qed.
Lemma rand_loop_spec rnd : (forall i, 0 <= rnd i < 10 ^ 20) -> forall f i v, all_digits v -> zlen v <= 16 -> 16 <= zlen v + Z.of_nat f ->
  all_digits (rand_loop f rnd i v) /\ zlen (rand_loop f rnd i v) = 16.
Proof.
  intros R f. induction f as [|f IH]; intros i v D L G; cbn [rand_loop]; [split; auto; lia|].
  unfold strnlen, FKO_RAND_VAL_SIZE. destruct (Z.min (zlen v) (16 + 1) <? 16) eqn:B; [|split; auto; lia].
  destruct (dec_spec (rnd i) (R i)) as (D1 & _ & L1 & _).
  assert (D2 : all_digits (v ++ ztake (16 - 1) (dec (rnd i)))).
  { apply Forall_app. split; auto. unfold ztake. apply Forall_forall. intros x X. apply In_firstn in X. unfold all_digits in D1. rewrite Forall_forall in D1. auto. }
  assert (L2 : 1 <= zlen (ztake (16 - 1) (dec (rnd i)))).
  { unfold ztake, zlen in *. rewrite firstn_length. lia. }
  apply IH.
  - unfold ztake. apply Forall_forall. intros x X. apply In_firstn in X. unfold all_digits in D2. rewrite Forall_forall in D2. auto.
  - unfold ztake, zlen. rewrite firstn_length. lia.
  - assert (zlen (ztake 16 (v ++ ztake (16 - 1) (dec (rnd i)))) = Z.min 16 (zlen v + zlen (ztake (16 - 1) (dec (rnd i))))).
    { unfold ztake at 1. unfold zlen. rewrite firstn_length, app_length. lia. }
    lia.
Qed.
Theorem rand_value_digits rnd : (forall i, 0 <= rnd i < 10 ^ 20) -> all_digits (rand_digits rnd) /\ zlen (rand_digits rnd) = 16.
Proof.
  intro R. unfold rand_digits. destruct (dec_spec (rnd O) (R O)) as (D1 & _ & L1 & _).
  apply rand_loop_spec; auto.
  - unfold ztake. apply Forall_forall. intros x X. apply In_firstn in X. unfold all_digits in D1. rewrite Forall_forall in D1. auto.
  - unfold ztake, zlen, FKO_RAND_VAL_SIZE. rewrite firstn_length. lia.
  - unfold FKO_RAND_VAL_SIZE. pose proof (zlen_nonneg (ztake (16 - 1) (dec (rnd 0%nat)))). lia.
Qed.
