(** Proofs: when a stanza lets a packet act. *)
From Verif Require Import Bytes P_bytes M_base64 S_base64 S_text S_codec S_cipher S_ctx S_access S_cycle M_util M_message M_codec M_cipher M_ctx M_access
  M_replay M_cycle M_incoming S_incoming P_util P_util2 P_codec P_access P_replay P_cycle P_ctx P_ctx2 P_ctx3 P_ctx4 P_ctx6 P_incoming.
From Coq Require Import Init.Byte List ZArith Bool Lia.
Import ListNotations.
Open Scope Z_scope.

(** ** Switches, addresses, expiration *)
Lemma tolower_y c : beq (tolower c) "y"%byte = true <-> c = "y"%byte \/ c = "Y"%byte.
Proof. destruct c; split; intro E; try (vm_compute in E; discriminate); auto; destruct E as [E|E]; try discriminate; reflexivity. Qed.
Lemma tolower_n c : beq (tolower c) "n"%byte = true <-> c = "n"%byte \/ c = "N"%byte.
Proof. destruct c; split; intro E; try (vm_compute in E; discriminate); auto; destruct E as [E|E]; try discriminate; reflexivity. Qed.
Lemma yes_on s : yes s = true <-> on s.
Proof.
  unfold yes, on. destruct s as [|c r].
  - split; [discriminate|]. intros (r & [E|E]); discriminate.
  - rewrite tolower_y. split; [intros [-> | ->]; eauto|]. intros (r' & [E|E]); inversion E; auto.
Qed.
Lemma no_off s : no s = true <-> off s.
Proof.
  unfold no, off. destruct s as [|c r].
  - split; [discriminate|]. intros (r & [E|E]); discriminate.
  - rewrite tolower_n. split; [intros [-> | ->]; eauto|]. intros (r' & [E|E]); inversion E; auto.
Qed.
Lemma in_nets_iff l ip : compare_addr_list l ip = true <-> in_nets l ip.
Proof.
  unfold in_nets. induction l as [|n l IH]; cbn [compare_addr_list].
  - split; [discriminate|]. intros (n & [] & _).
  - destruct (Z.eqb_spec (Z.land ip (net_mask n)) (Z.land (net_maddr n) (net_mask n))) as [E|E].
    + split; auto. intros _. exists n. split; [left|]; auto.
    + rewrite IH. split; intros (x & I & Q); exists x; split; auto; [right; auto|]. destruct I as [<-|]; [contradiction|auto].
Qed.
Lemma addressed_iff a p : src_dst_check a (k_info p) = true <-> addressed a p.
Proof.
  unfold src_dst_check, addressed. rewrite andb_true_iff, in_nets_iff. split; intros [A B]; split; auto.
  - intros l E. rewrite E in B. apply in_nets_iff; auto.
  - destruct (a_dest a) as [l|]; [|auto]. apply in_nets_iff. auto.
Qed.
Lemma expired_iff now a : check_stanza_expiration now a = (true, a) <-> ~ expired now a.
Proof.
  unfold check_stanza_expiration, expired. destruct (a_expire a >? 0) eqn:E.
  - destruct (a_expired a) eqn:X.
    + split; [discriminate|]. intro N. exfalso. apply N. split; [lia|auto].
    + destruct (now >? a_expire a) eqn:F.
      * split; [discriminate|]. intro N. exfalso. apply N. split; [lia|right; lia].
      * split; auto. intros _ [_ [Q|Q]]; [discriminate|lia].
  - split; auto. intros _ [Q _]. lia.
Qed.

(** ** Opening the data *)
Lemma enc_type data : 36 <= zlen data < 1500 -> encryption_type (Some data) = if 400 <=? zlen data then FKO_ENCRYPTION_GPG else FKO_ENCRYPTION_RIJNDAEL.
Proof.
  intro R. unfold encryption_type, strnlen, is_valid_encoded_msg_len, MIN_SPA_ENCODED_MSG_SIZE, MAX_SPA_ENCODED_MSG_SIZE, MIN_GNUPG_MSG_SIZE.
  rewrite Z.min_l by lia. replace (zlen data <? 36) with false by lia. replace (zlen data >=? 1500) with false by lia. cbn [orb negb].
  destruct (400 <=? zlen data) eqn:E.
  - replace (zlen data >=? 400) with true by lia. reflexivity.
  - replace (zlen data >=? 400) with false by lia. replace (zlen data <? 400) with true by lia. replace (zlen data >=? 36) with true by lia. reflexivity.
Qed.

Lemma parse_into_etype s c e c' : parse_into s c = (e, c') -> c_etype c' = c_etype c.
Proof.
  unfold parse_into.
  repeat match goal with |- context [match ?x with Some _ => _ | None => _ end] => destruct x as [[? ?]|] || destruct x end;
    try (intro X; inversion X; subst; repeat destruct (is_timeout_type _); reflexivity).
Qed.
Lemma decode_etype H c e c' : decode_spa_data H c = Ok (e, c') -> c_etype c' = c_etype c.
Proof.
  unfold decode_spa_data. destruct (negb _); [intro X; inversion X; reflexivity|].
  destruct (c_enc c) as [b|]; [|discriminate]. cbv zeta. destruct (_ || _); [intro X; inversion X; reflexivity|].
  destruct (digest_type_of_len _) as [d|]; [|intro X; inversion X; reflexivity].
  destruct (_ <? _); [intro X; inversion X; reflexivity|].
  match goal with |- match ?v with _ => _ end = _ -> _ => destruct v as [dt|]; [|intro X; inversion X; reflexivity] end.
  intro X. inversion X as [Y]. apply parse_into_etype in Y. rewrite Y. reflexivity.
Qed.
Lemma decrypt_etype H k c c' : decrypt_spa_data H k c = Ok (FKO_SUCCESS, c') -> c_etype c' = FKO_ENCRYPTION_RIJNDAEL.
Proof.
  unfold decrypt_spa_data. cbv zeta. destruct (_ && _); [discriminate|]. destruct (_ =? _); [|discriminate].
  unfold rijndael_decrypt. destruct (_ >? _); [discriminate|]. set (c0 := set_c_etype _ c).
  assert (X : forall e1 c1, (if c_salted c0 then Ok (FKO_SUCCESS, c0) else add_salted_str c0) = Ok (e1, c1) -> c_etype c1 = FKO_ENCRYPTION_RIJNDAEL).
  { intros e1 c1. destruct (c_salted c0); [intro E; inversion E; reflexivity|]. unfold add_salted_str.
    destruct (add_prefix _ c0) as [[e [t|]]|]; intro E; inversion E; reflexivity. }
  destruct (if c_salted c0 then Ok (FKO_SUCCESS, c0) else add_salted_str c0) as [[e1 c1]|]; [|discriminate]. specialize (X e1 c1 eq_refl).
  destruct (ok e1) eqn:O; cbn [negb]; [|destruct e1; discriminate]. destruct (c_crypt c1) as [t|]; [|discriminate].
  destruct (b64_decode t) as [ci|]; [|discriminate]. destruct (negb _); [discriminate|].
  destruct (rij_decrypt H (c_mode c1) k ci) as [pt|]; [|discriminate]. cbv zeta.
  destruct (_ || _); [discriminate|]. destruct (negb _); [discriminate|]. destruct (_ && _); [|discriminate].
  intro D. apply decode_etype in D. rewrite D. exact X.
Qed.

(** The context after the HMAC has been checked. *)
Lemma b64_all_app a b : b64_all (a ++ b) = b64_all a && b64_all b.
Proof. apply forallb_app. Qed.
Lemma after_hmac2 H m mode hk ht e c : hashes_ok H -> 36 <= zlen m < 1500 ->
  match hk with Some (x :: r) => verify_hmac H (Some (x :: r)) (received_ctx m mode ht) | _ => Ok (FKO_SUCCESS, received_ctx m mode ht) end = Ok (e, c) ->
  ok e = true -> exists t, auth_text H mode hk ht m t /\ c_crypt c = Some t /\ c_crypt_len c = zlen t /\ clean c /\
    c_mode c = mode /\ (c_gpg c = true -> is_prefix ($ "hQ") t = true) /\ (b64_all m = true -> b64_all t = true) /\
    36 <= zlen t < 1500.
Proof.
  intros OK R E O.
  assert (D : (hk = None \/ hk = Some []) \/ exists x r, hk = Some (x :: r)) by (destruct hk as [[|x r]|]; eauto).
  destruct D as [D|(x & r & ->)].
  { assert (E' : c = received_ctx m mode ht) by (destruct D as [-> | ->]; inversion E; auto). subst c. exists m.
    split; [destruct D as [-> | ->]; reflexivity|].
    split; [reflexivity|]. split; [reflexivity|]. split; [split; reflexivity|]. split; [reflexivity|]. split; [discriminate|]. split; [auto|exact R]. }
  destruct (verify_new H m mode ht (x :: r) OK ltac:(lia)) as [(e' & c' & V & N & _)|(h & HN & KL & B & BC & EQ & V)]; cbv zeta in *; rewrite V in E; inversion E; subst.
  { exfalso. destruct e; try discriminate. congruence. }
  set (body := cut_off (b64_len_of ht) m) in *. set (c0 := set_c_crypt_len (zlen body) (set_c_crypt (Some body) (received_ctx m mode ht))).
  destruct (prefixed_crypt (prefix_of mode) body (negb (mode =? 7)) c0 eq_refl eq_refl) as [P1 P2].
  exists (pfx (prefix_of mode) body). split. { exists h, body. split; [exact HN|]. split; [exact EQ|reflexivity]. }
  split; [exact P1|]. split; [exact P2|].
  assert (RG : 36 <= zlen (pfx (prefix_of mode) body) < 1500).
  { pose proof (f_equal zlen EQ) as LE. rewrite zlen_app in LE. pose proof (prefix_of_len mode).
    assert (20 <= zlen (mac_text h ht (x :: r) (with_prefix mode body))).
    { rewrite (mac_text_len H ht h (x :: r) (with_prefix mode body) OK HN). clear -HN. inversion HN; vm_compute; congruence. }
    unfold pfx. destruct (is_prefix _ body); [lia|]. rewrite zlen_app. pose proof (zlen_nonneg (prefix_of mode)). lia. }
  unfold prefixed, pfx in *. destruct (is_prefix (prefix_of mode) body) eqn:IP.
  - split; [split; reflexivity|]. split; [reflexivity|]. split; [discriminate|]. split; [intros _; exact BC|exact RG].
  - split; [destruct (negb _); split; reflexivity|]. split; [destruct (negb _); reflexivity|]. split; [|split; [|exact RG]].
    + unfold prefix_of. destruct (mode =? 7); cbn [negb]; [|discriminate]. intros _. apply is_prefix_app. eauto.
    + intros _. rewrite b64_all_app, BC. unfold prefix_of. destruct (mode =? 7); reflexivity.
Qed.

(** Decoding a text that is followed by more bytes. *)
Lemma split_texts s pt ts : no_nul s -> 6 <= num_fields s -> ts = strnlen (zdrop (last_field s) s) 87 -> digest_type_of_len ts <> None ->
  (exists t, pt = s ++ t) ->
  let b := ztake (last_field s - 1) pt ++ repeat x00 (Z.to_nat ts) ++ zdrop (last_field s - 1 + ts) pt in
  ztake (zlen s - (ts + 1)) b = ztake (last_field s - 1) s /\ cstr b = ztake (last_field s - 1) s /\ 0 <= zlen s - ts.
Proof.
  intros NN NF -> DT (t & ->). rewrite num_fields_spec in NF.
  destruct (last_field_cut 11 s ltac:(lia) ltac:(lia)) as (body & ES & LF). fold (last_field s) in ES, LF.
  set (dg := zdrop (last_field s) s) in *.
  destruct (digest_type_of_len (strnlen dg 87)) as [d0|] eqn:D0; [|congruence].
  pose proof (digest_type_of_len_inv _ _ D0) as (_ & _ & TB).
  assert (TS : strnlen dg 87 = zlen dg) by (unfold strnlen in *; lia). rewrite TS in *.
  rewrite LF. replace (zlen body + 1 - 1) with (zlen body) by lia.
  assert (LS : zlen s = zlen body + 1 + zlen dg) by (rewrite ES, zlen_app, zlen_cons; lia).
  pose proof (zlen_nonneg body).
  assert (B1 : ztake (zlen body) (s ++ t) = body) by (rewrite ES, <- app_assoc; apply ztake_app; reflexivity).
  assert (B2 : ztake (zlen body) s = body) by (rewrite ES at 1; apply ztake_app; reflexivity).
  rewrite B1, B2. cbv zeta. split; [|split; [|lia]].
  - replace (zlen s - (zlen dg + 1)) with (zlen body) by lia. apply ztake_app. reflexivity.
  - replace (Z.to_nat (zlen dg)) with (S (Z.to_nat (zlen dg - 1))) by lia. cbn [repeat app].
    apply cstr_app_nul. rewrite ES in NN. apply no_nul_app in NN. tauto.
Qed.
Lemma decode_cstr H c pt : clean c -> c_enc c = Some pt -> c_enc_len c = zlen (cstr pt) ->
  match decode_spa H (cstr pt) with
  | Some (m, dt, dg) => exists c', decode_spa_data H c = Ok (FKO_SUCCESS, c') /\ shows (Live c') m
  | None => exists e c', decode_spa_data H c = Ok (e, c') /\ e <> FKO_SUCCESS
  end.
Proof.
  intros CL E EL. unfold decode_spa, decode_spa_data. rewrite EL, E.
  rewrite (cstr_id (cstr pt)) by apply cstr_no_nul.
  destruct (cstr_prefix pt) as (t & EB & _). assert (NN : no_nul (cstr pt)) by apply cstr_no_nul.
  set (s := cstr pt) in *. clearbody s.
  destruct (is_valid_encoded_msg_len (zlen s)); cbn [guard obind negb]; [|do 2 eexists; split; [reflexivity|discriminate]].
  destruct (forallb isprint s); cbn [guard obind negb orb]; [|do 2 eexists; split; [reflexivity|discriminate]].
  destruct (num_fields s <? 6) eqn:NF; cbn [guard obind negb orb]; [do 2 eexists; split; [reflexivity|discriminate]|].
  cbv zeta. remember (strnlen (zdrop (last_field s) s) 87) as ts eqn:TS.
  destruct (digest_type_of_len ts) as [d0|] eqn:D0; cbn [obind]; [|do 2 eexists; split; [reflexivity|discriminate]].
  ctx_simp. rewrite EL. destruct (zlen s - ts <? 0) eqn:Z0; cbn [guard obind negb]; [do 2 eexists; split; [reflexivity|discriminate]|].
  destruct (split_texts s s ts NN ltac:(lia) TS ltac:(congruence) ltac:(exists []; rewrite app_nil_r; reflexivity)) as (A1 & A2 & _).
  destruct (split_texts s pt ts NN ltac:(lia) TS ltac:(congruence) ltac:(eauto)) as (B1 & B2 & _).
  rewrite A1, A2, B1, B2.
  destruct (verify_digest H d0 _ _ ts) as [dt|]; cbn [obind]; [|do 2 eexists; split; [reflexivity|discriminate]].
  match goal with |- context [parse_into ?b ?c0] => assert (K : clean c0) by (destruct CL; split; assumption); pose proof (parse_into_fields b c0 K) as P end.
  destruct (parse_fields _) as [m|]; cbn [obind].
  - destruct P as (c' & P1 & P2 & _). rewrite P1. exists c'. split; [reflexivity|exact P2].
  - destruct P as (e & c' & P1 & P2). rewrite P1. eauto.
Qed.

Lemma shows_unique h m m' : shows h m -> shows h m' -> m = m'.
Proof.
  unfold shows, reads. intros (A1 & A2 & A3 & A4 & A5 & A6 & A7 & A8 & A9) (B1 & B2 & B3 & B4 & B5 & B6 & B7 & B8 & B9).
  destruct m as [m1 m2 m3 m4 m5 m6 m7 m8 m9], m' as [n1 n2 n3 n4 n5 n6 n7 n8 n9]. cbn [s_rand s_user s_time s_version s_type s_msg s_nat s_auth s_timeout] in *. congruence.
Qed.
Lemma new_live H m dk mode hk ht h : fko_new_with_data H (Some m) dk mode hk ht = Ok (FKO_SUCCESS, h) ->
  (exists c, h = Live c) /\ 36 <= zlen m < 1500.
Proof.
  intro E. destruct (new_cases H m dk mode hk ht) as [(e & N & E')|(R & MR & TR & E')]; rewrite E' in E; [congruence|]. clear E'. split; [|exact R].
  destruct (match hk with Some (x :: r) => verify_hmac H (Some (x :: r)) (received_ctx m mode ht) | _ => Ok (FKO_SUCCESS, received_ctx m mode ht) end)
    as [[e c]|] eqn:V; [|discriminate]. destruct (ok e) eqn:O; cbn [negb] in E; [|inversion E; subst; discriminate].
  destruct dk as [k|]; [|inversion E; eauto]. destruct (decrypt_spa_data H k c) as [[e1 c1]|]; [|discriminate].
  destruct (ok e1) eqn:O1; inversion E; subst; [eauto|discriminate].
Qed.
Lemma new_key H m k mode hk ht c : hashes_ok H -> fko_new_with_data H (Some m) (Some k) mode hk ht = Ok (FKO_SUCCESS, Live c) ->
  c_etype c = FKO_ENCRYPTION_RIJNDAEL /\ exists sp, shows (Live c) sp /\ received sp.
Proof.
  intros OK E. split.
  - destruct (new_cases H m (Some k) mode hk ht) as [(e & N & E')|(R & MR & TR & E')]; rewrite E' in E; [congruence|]. clear E'.
    destruct (match hk with Some (x :: r) => verify_hmac H (Some (x :: r)) (received_ctx m mode ht) | _ => Ok (FKO_SUCCESS, received_ctx m mode ht) end)
      as [[e c1]|] eqn:V; [|discriminate]. destruct (ok e) eqn:O; cbn [negb] in E; [|inversion E; subst; discriminate].
    destruct (decrypt_spa_data H k c1) as [[e1 c2]|] eqn:D; [|discriminate]. destruct (ok e1) eqn:O1; [|inversion E].
    inversion E; subst c2. destruct e1; try discriminate. exact (decrypt_etype _ _ _ _ D).
  - destruct (new_sound H m k mode hk ht (Live c) OK E) as (t & ci & pt & sp & dt & dg & _ & _ & _ & _ & _ & _ & _ & D & SH).
    exists sp. split; [exact SH|]. destruct (decode_spa_sound' H pt sp dt dg OK D) as (_ & b & ex & h & _ & _ & _ & _ & _ & R & _). exact R.
Qed.
Lemma new_none H data mode hk ht h : hashes_ok H -> fko_new_with_data H (Some data) None mode hk ht = Ok (FKO_SUCCESS, h) ->
  exists c t, h = Live c /\ auth_text H mode hk ht data t /\ c_crypt c = Some t /\ c_crypt_len c = zlen t /\ clean c /\
    c_mode c = mode /\ (c_gpg c = true -> is_prefix ($ "hQ") t = true) /\ (b64_all data = true -> b64_all t = true) /\ 36 <= zlen t < 1500 /\
    forall k, fko_new_with_data H (Some data) (Some k) mode hk ht =
      match decrypt_spa_data H k c with
      | Fault => Fault
      | Ok (e, c') => if ok e then Ok (FKO_SUCCESS, Live c') else Ok (e, Null)
      end.
Proof.
  intros OK E0. pose proof E0 as E. destruct (new_cases H data None mode hk ht) as [(e & N & E')|(R & MR & TR & E')]; rewrite E' in E; [congruence|]. clear E'.
  destruct (match hk with Some (x :: r) => verify_hmac H (Some (x :: r)) (received_ctx data mode ht) | _ => Ok (FKO_SUCCESS, received_ctx data mode ht) end)
    as [[e c]|] eqn:V; [|discriminate]. destruct (ok e) eqn:O; cbn [negb] in E; [|inversion E; subst; discriminate]. inversion E; subst h.
  destruct (after_hmac2 H data mode hk ht e c OK R V O) as (t & A & C & L & CL & M & G & B & RT).
  exists c, t. split; [reflexivity|]. do 8 (split; [assumption|]). intro k.
  destruct (new_cases H data (Some k) mode hk ht) as [(e' & N & E')|(_ & _ & _ & E')].
  - exfalso. rewrite (E' None hk) in E0. congruence.
  - rewrite E', V, O. reflexivity.
Qed.

(** ** GnuPG *)
Definition gpg_message (H : hashes) (G : gpg) (a : stanza) (t : bytes) : option (spa * option gpg_sig) :=
  match b64_decode (with_prefix 7 t) with
  | None => None
  | Some cipher => match gpgme_decrypt G a cipher with
                   | None => None
                   | Some (pt, sg) => match decode_spa H (cstr pt) with None => None | Some (m, _, _) => Some (m, sg) end
                   end
  end.
Lemma gpg_path H G a c t : c_crypt c = Some t -> c_crypt_len c = zlen t -> clean c -> c_mode c = 7 ->
  (c_gpg c = true -> is_prefix ($ "hQ") t = true) -> b64_all t = true -> 400 <= zlen t < 1500 ->
  match gpg_message H G a t with
  | Some (m, sg) => exists c', gpg_decrypt_spa_data H G a c = Ok (FKO_SUCCESS, c', sg) /\ shows (Live c') m /\ c_etype c' = FKO_ENCRYPTION_GPG
  | None => exists e c' sg, gpg_decrypt_spa_data H G a c = Ok (e, c', sg) /\ e <> FKO_SUCCESS
  end.
Proof.
  intros C L CL M GP B R. unfold gpg_decrypt_spa_data. cbv zeta.
  assert (ET : (encryption_type (c_crypt c) =? FKO_ENCRYPTION_GPG) && (c_mode c =? FKO_ENC_MODE_ASYMMETRIC) = true).
  { rewrite C, M, enc_type by lia. replace (400 <=? zlen t) with true by lia. reflexivity. }
  rewrite ET. set (c0 := set_c_etype FKO_ENCRYPTION_GPG c).
  assert (X : exists c1, (if c_gpg c0 then Ok (FKO_SUCCESS, c0) else add_gpg_prefix c0) = Ok (FKO_SUCCESS, c1) /\
     c_crypt c1 = Some (with_prefix 7 t) /\ clean c1 /\ c_etype c1 = FKO_ENCRYPTION_GPG).
  { destruct (c_gpg c0) eqn:G0.
    - exists c0. split; [reflexivity|]. split; [|split; [destruct CL; split; auto|reflexivity]].
      unfold with_prefix. change (prefix_of 7) with ($ "hQ"). rewrite GP by exact G0. exact C.
    - rewrite (add_gpg_spec c0 t) by (auto || lia). rewrite B. eexists. split; [reflexivity|].
      split; [apply (prefixed_crypt ($ "hQ") t false c0 C L)|].
      unfold prefixed. destruct (is_prefix ($ "hQ") t); split; (destruct CL; split; auto) || reflexivity. }
  destruct X as (c1 & -> & C1 & CL1 & E1). rewrite C1. unfold gpg_message.
  destruct (b64_decode (with_prefix 7 t)) as [cipher|]; [|do 3 eexists; split; [reflexivity|discriminate]].
  destruct (gpgme_decrypt G a cipher) as [[pt sg]|]; [|do 3 eexists; split; [reflexivity|discriminate]].
  destruct (is_valid_encoded_msg_len (strnlen (cstr pt) MAX_SPA_ENCODED_MSG_SIZE)) eqn:V; cbn [negb].
  - assert (SL : strnlen (cstr pt) MAX_SPA_ENCODED_MSG_SIZE = zlen (cstr pt)).
    { unfold is_valid_encoded_msg_len, strnlen, MIN_SPA_ENCODED_MSG_SIZE, MAX_SPA_ENCODED_MSG_SIZE in *. lia. }
    rewrite SL. set (c2 := set_c_enc_len _ _).
    assert (CL2 : clean c2) by (destruct CL1; split; auto).
    pose proof (decode_cstr H c2 pt CL2 eq_refl eq_refl) as D. destruct (decode_spa H (cstr pt)) as [[[m dt] dg]|].
    + destruct D as (c' & D & SH). rewrite D. exists c'. split; [reflexivity|]. split; [exact SH|]. rewrite (decode_etype _ _ _ _ D). exact E1.
    + destruct D as (e & c' & D & N). rewrite D. do 3 eexists. split; [reflexivity|exact N].
  - assert (NV : decode_spa H (cstr pt) = None).
    { unfold decode_spa. replace (is_valid_encoded_msg_len (zlen (cstr pt))) with false; [reflexivity|].
      unfold is_valid_encoded_msg_len, strnlen, MIN_SPA_ENCODED_MSG_SIZE, MAX_SPA_ENCODED_MSG_SIZE in *. lia. }
    rewrite NV. do 3 eexists. split; [reflexivity|discriminate].
Qed.
Lemma sig_sound G a cipher pt sg c : gpgme_decrypt G a cipher = Some (pt, sg) ->
  handle_gpg_sigs a FKO_ENCRYPTION_GPG c sg = Ok true -> exists sigs, g_open G a cipher = Some (pt, sigs) /\ signed a sigs.
Proof.
  unfold gpgme_decrypt, handle_gpg_sigs, signed. destruct (g_open G a cipher) as [[pt0 sigs]|]; [|discriminate].
  change (FKO_ENCRYPTION_GPG =? FKO_ENCRYPTION_GPG) with true. destruct (a_gpg_require_sig a); cbn [andb].
  - destruct sigs as [|s r]; [discriminate|]. intro E.
    assert (Q : (a_gpg_ignore_sig_error a = true \/ (sg_good s = true /\ 3 <= sg_validity s)) /\ pt = pt0 /\ sg = Some s).
    { destruct (a_gpg_ignore_sig_error a); [inversion E; auto|]. destruct (sg_good s); cbn [negb orb] in E; [|discriminate].
      destruct (sg_validity s <? 3) eqn:V; [discriminate|]. inversion E. split; auto. right. split; auto. lia. }
    destruct Q as (Q & -> & ->). destruct (c_etype c =? FKO_ENCRYPTION_GPG); cbn [negb]; [|discriminate]. destruct (sg_fpr s) as [fpr|] eqn:F; [|discriminate].
    destruct (zlen fpr <? 8) eqn:L8; [discriminate|]. intro K. injection K as K1. apply andb_true_iff in K1 as [K1 K2].
    exists (s :: r). split; [reflexivity|]. intros _. exists s, r, fpr. split; [reflexivity|]. split; [exact Q|]. split; [exact F|]. split; [lia|]. split.
    + intros l E1. rewrite E1 in K1. apply existsb_exists in K1 as (x & I & X). apply bseq_eq in X. subst x. exact I.
    + intros l E1. rewrite E1 in K2. apply existsb_exists in K2 as (x & I & X). apply bseq_eq in X. subst x.
      exists (ztake (zlen fpr - 8) fpr), (zdrop (zlen fpr - 8) fpr). split; [symmetry; apply ztake_zdrop|]. split; [|exact I].
      rewrite zlen_zdrop by lia. lia.
  - intros E _. inversion E. subst. exists sigs. split; [reflexivity|]. discriminate.
Qed.
Lemma sig_complete G a cipher pt sigs c : g_open G a cipher = Some (pt, sigs) -> signed a sigs -> c_etype c = FKO_ENCRYPTION_GPG ->
  exists sg, gpgme_decrypt G a cipher = Some (pt, sg) /\ handle_gpg_sigs a FKO_ENCRYPTION_GPG c sg = Ok true.
Proof.
  unfold gpgme_decrypt, handle_gpg_sigs, signed. intros -> S ET. rewrite ET. change (FKO_ENCRYPTION_GPG =? FKO_ENCRYPTION_GPG) with true. destruct (a_gpg_require_sig a); cbn [andb negb]; [|eauto].
  destruct (S eq_refl) as (s & r & fpr & -> & Q & F & L8 & A & B). exists (Some s). split.
  - destruct Q as [-> | [-> V]]; [reflexivity|]. destruct (a_gpg_ignore_sig_error a); [reflexivity|]. cbn [negb orb]. replace (sg_validity s <? 3) with false by lia. reflexivity.
  - rewrite F. replace (zlen fpr <? 8) with false by lia. f_equal. apply andb_true_iff. split.
    + destruct (a_gpg_fprs a) as [l|]; [|reflexivity]. apply existsb_exists. exists fpr. split; [auto|apply bseq_refl].
    + destruct (a_gpg_ids a) as [l|]; [|reflexivity]. destruct (B l eq_refl) as (q & id & -> & L & I).
      apply existsb_exists. exists id. split; [exact I|]. apply bseq_eq. rewrite zlen_app.
      replace (zlen q + zlen id - 8) with (zlen q) by lia. symmetry. apply zdrop_app. reflexivity.
Qed.

(** ** Opening *)
Lemma hash_number_fun H t h h' : hash_number H t h -> hash_number H t h' -> h = h'.
Proof. intros A B. inversion A; subst; inversion B; reflexivity. Qed.
Lemma auth_text_unique H mode hk ht data t t' : hashes_ok H -> auth_text H mode hk ht data t -> auth_text H mode hk ht data t' -> t = t'.
Proof.
  intro OK. unfold auth_text. destruct hk as [[|x r]|]; try congruence.
  intros (h & b & HN & E & ->) (h' & b' & HN' & E' & ->).
  assert (h = h') by (apply (hash_number_fun H ht); auto). subst h'.
  assert (b = b'); [|congruence].
  assert (L : zlen (mac_text h ht (x :: r) (with_prefix mode b)) = zlen (mac_text h ht (x :: r) (with_prefix mode b'))).
  { rewrite !(mac_text_len H ht h) by auto. reflexivity. }
  rewrite E in E'. pose proof (f_equal zlen E') as LE. rewrite !zlen_app in LE.
  apply (app_eq_len b _ b' _ E'). unfold mac_text in L. lia.
Qed.

Definition gpg_branch (H : hashes) (G : gpg) (a : stanza) (data : bytes) : outcome (option (ctx * option gpg_sig)) :=
  if a_gpg a && (encryption_type (Some data) =? FKO_ENCRYPTION_GPG) && a_gpg_pw a then
    match fko_new_with_data H (Some data) None FKO_ENC_MODE_ASYMMETRIC (a_hmac_key a) (a_hmac_type a) with
    | Fault => Fault
    | Ok (FKO_SUCCESS, Live c) =>
        if negb (g_params G a) then Ok None
        else match gpg_decrypt_spa_data H G a c with
             | Fault => Fault
             | Ok (FKO_SUCCESS, c, sg) => Ok (Some (c, sg))
             | Ok _ => Ok None
             end
    | Ok _ => Ok None
    end
  else Ok None.
Lemma decrypt_cases H G a data : stanza_ok a ->
  (exists k c, a_rijndael a = true /\ (zlen data < 400 \/ a_cmd a = true) /\ a_key a = Some k /\ 36 <= zlen data < 1500 /\
     fko_new_with_data H (Some data) (Some k) (a_mode a) (a_hmac_key a) (a_hmac_type a) = Ok (FKO_SUCCESS, Live c) /\
     decrypt_packet H G a data = Ok (Some (c, None))) \/
  ((forall m, ~ key_opens H a data m) /\ decrypt_packet H G a data = gpg_branch H G a data) \/
  ((forall m, ~ key_opens H a data m) /\ decrypt_packet H G a data = Fault).
Proof.
  intro SO. unfold decrypt_packet. cbv zeta. fold (gpg_branch H G a data).
  assert (TYPE : 36 <= zlen data < 1500 -> ((encryption_type (Some data) =? FKO_ENCRYPTION_RIJNDAEL) || a_cmd a = true <-> zlen data < 400 \/ a_cmd a = true)).
  { intro R. rewrite enc_type by auto. rewrite orb_true_iff. destruct (400 <=? zlen data) eqn:Q.
    - split; intros [X|X]; auto; [discriminate|lia].
    - split; intros [X|X]; auto; left; lia. }
  destruct (a_rijndael a && ((encryption_type (Some data) =? FKO_ENCRYPTION_RIJNDAEL) || a_cmd a)) eqn:RJ.
  - apply andb_true_iff in RJ as [RJ TY]. destruct (a_key a) as [k|] eqn:K; [|exfalso; apply SO; auto].
    assert (NK : forall r, fko_new_with_data H (Some data) (Some k) (a_mode a) (a_hmac_key a) (a_hmac_type a) = r ->
       (forall c, r <> Ok (FKO_SUCCESS, Live c)) -> forall m, ~ key_opens H a data m).
    { intros r E N m (_ & _ & k' & h & K' & E' & _). rewrite K in K'. inversion K'; subst k'. destruct (new_live _ _ _ _ _ _ _ E') as [(c & ->) _].
      apply (N c). congruence. }
    destruct (fko_new_with_data H (Some data) (Some k) (a_mode a) (a_hmac_key a) (a_hmac_type a)) as [[e h]|] eqn:N.
    2:{ right. right. split; [|reflexivity]. apply (NK Fault eq_refl). discriminate. }
    assert (D : (e = FKO_SUCCESS /\ exists c0, h = Live c0) \/ ~ (e = FKO_SUCCESS /\ exists c0, h = Live c0)).
    { destruct e; try (right; intros [X _]; discriminate). destruct h; try (right; intros (_ & x & X); discriminate). left. eauto. }
    destruct D as [(-> & c0 & ->)|D].
    + left. destruct (new_live _ _ _ _ _ _ _ N) as [_ R]. exists k, c0. repeat split; auto; try lia. apply TYPE; auto.
    + right. left. split.
      * apply (NK _ eq_refl). intros c X. inversion X; subst. apply D. eauto.
      * destruct e; try reflexivity. destruct h; try reflexivity. exfalso. apply D. eauto.
  - right. left. split; [|reflexivity]. intros m (R1 & TY & k & h & K & E & _). destruct (new_live _ _ _ _ _ _ _ E) as [_ R].
    rewrite R1, (proj2 (TYPE R) TY) in RJ. discriminate.
Qed.

(** Rijndael with the asymmetric mode never decrypts anything. *)
Lemma add_salted_mode c e c' : add_salted_str c = Ok (e, c') -> c_mode c' = c_mode c.
Proof.
  unfold add_salted_str. destruct (add_prefix B64_RIJNDAEL_SALT c) as [[e0 [t|]]|]; [| |discriminate]; intro E; injection E as <- <-; reflexivity.
Qed.
Lemma unpad_zeros n : unpad (repeat x00 n) = repeat x00 n.
Proof.
  unfold unpad. assert (L : last (repeat x00 n) x00 = x00).
  { induction n as [|n IH]; [reflexivity|]. cbn [repeat]. destruct n; [reflexivity|]. exact IH. }
  rewrite L. change (bv x00) with 0. change (0 <=? RIJNDAEL_BLOCKSIZE) with true. rewrite Z.sub_0_r.
  destruct (forallb _ _); [|reflexivity]. apply ztake_all. lia.
Qed.
Lemma asymmetric_never H key c c' : c_mode c = 7 -> decrypt_spa_data H key c <> Ok (FKO_SUCCESS, c').
Proof.
  intros M. unfold decrypt_spa_data. cbv zeta. destruct (_ && _); [discriminate|]. destruct (_ =? FKO_ENCRYPTION_RIJNDAEL); [|discriminate].
  unfold rijndael_decrypt. destruct (_ >? _); [discriminate|]. set (c0 := set_c_etype FKO_ENCRYPTION_RIJNDAEL c).
  destruct (if c_salted c0 then Ok (FKO_SUCCESS, c0) else add_salted_str c0) as [[e c1]|] eqn:A; [|discriminate].
  assert (M1 : c_mode c1 = 7). { destruct (c_salted c0); [injection A as <- <-; exact M|]. apply add_salted_mode in A. rewrite A. exact M. }
  destruct (ok e) eqn:OE; cbn [negb]; [|intro Q; injection Q as -> _; discriminate].
  destruct (c_crypt c1) as [t|]; [|discriminate]. destruct (b64_decode t) as [cipher|]; [|discriminate].
  destruct (negb _); [discriminate|]. unfold rij_decrypt. rewrite M1. destruct (rij_key_iv _ _ _ _) as [k iv]. destruct (_ <? _); [discriminate|].
  change (rij_mode 7) with 7. unfold block_decrypt. cbn [Z.eqb Pos.eqb FKO_ENC_MODE_ECB FKO_ENC_MODE_CBC FKO_ENC_MODE_CFB FKO_ENC_MODE_OFB FKO_ENC_MODE_CTR].
  rewrite unpad_zeros. set (n := length _). destruct ((zlen (repeat x00 n) <? zlen cipher - 32) || (zlen (repeat x00 n) <=? 0)) eqn:Z0; [discriminate|].
  destruct (negb _); [discriminate|]. destruct n as [|n]; [rewrite orb_true_r in Z0; discriminate|]. discriminate.
Qed.

Lemma gpg_branch_sound H G a data c sg : hashes_ok H -> b64_all data = true ->
  gpg_branch H G a data = Ok (Some (c, sg)) -> handle_gpg_sigs a (encryption_type (Some data)) c sg = Ok true ->
  exists m, gpg_opens H G a data m /\ shows (Live c) m /\ received m.
Proof.
  intros OK BA. unfold gpg_branch.
  destruct (a_gpg a && (encryption_type (Some data) =? FKO_ENCRYPTION_GPG) && a_gpg_pw a) eqn:GB; [|discriminate].
  apply andb_true_iff in GB as [GB PW]. apply andb_true_iff in GB as [AG ET].
  destruct (fko_new_with_data H (Some data) None FKO_ENC_MODE_ASYMMETRIC (a_hmac_key a) (a_hmac_type a)) as [[e h]|] eqn:N; [|discriminate].
  destruct e; try discriminate. destruct h as [|c0|]; try discriminate.
  destruct (new_live _ _ _ _ _ _ _ N) as [_ R]. assert (ET2 := ET). rewrite enc_type in ET2 by lia.
  destruct (400 <=? zlen data) eqn:L4; [|discriminate]. clear ET2. apply Z.eqb_eq in ET. rewrite ET.
  destruct (g_params G a) eqn:GP; cbn [negb]; [|discriminate].
  destruct (new_none _ _ _ _ _ _ OK N) as (c1 & t & E1 & AT & C & L & CL & M & GG & BT & RT & DEC). inversion E1; subst c1.
  destruct (Z_le_gt_dec 400 (zlen t)) as [T4|T4].
  - pose proof (gpg_path H G a c0 t C L CL M GG (BT BA) ltac:(lia)) as P. unfold gpg_message in P.
    destruct (b64_decode (with_prefix 7 t)) as [cipher|] eqn:B; [|destruct P as (e & c' & sg' & P & NE); rewrite P; destruct e; try discriminate; congruence].
    destruct (gpgme_decrypt G a cipher) as [[pt sg0]|] eqn:GD; [|destruct P as (e & c' & sg' & P & NE); rewrite P; destruct e; try discriminate; congruence].
    destruct (decode_spa H (cstr pt)) as [[[m dt] dg]|] eqn:D; [|destruct P as (e & c' & sg' & P & NE); rewrite P; destruct e; try discriminate; congruence].
    destruct P as (c' & P & SH & ETc). rewrite P. intro E; inversion E; subst c' sg0. intro S.
    destruct (sig_sound _ _ _ _ _ _ GD S) as (sigs & GO & SG). exists m. split; [|split; [exact SH|]].
    + split; [exact AG|]. split; [exact PW|]. split; [exact GP|]. split; [lia|]. split; [eexists; exact N|].
      exists t, cipher, pt, sigs, dt, dg. auto 10.
    + destruct (decode_spa_sound' H _ m dt dg OK D) as (_ & b & ex & h & _ & _ & _ & _ & _ & RC & _). exact RC.
  - assert (E2 : gpg_decrypt_spa_data H G a c0 = match decrypt_spa_data H [] c0 with Fault => Fault | Ok (e, c) => Ok (e, c, None) end).
    { unfold gpg_decrypt_spa_data. cbv zeta. rewrite C, enc_type by lia. replace (400 <=? zlen t) with false by lia. reflexivity. }
    rewrite E2. pose proof (fun x => asymmetric_never H [] c0 x M) as NV. destruct (decrypt_spa_data H [] c0) as [[e c2]|]; [|discriminate].
    destruct e; try discriminate. exfalso. apply (NV c2). reflexivity.
Qed.
Lemma open_sound H G a data c sg : hashes_ok H -> b64_all data = true -> stanza_ok a ->
  decrypt_packet H G a data = Ok (Some (c, sg)) -> handle_gpg_sigs a (encryption_type (Some data)) c sg = Ok true ->
  exists m, opens H G a data m /\ shows (Live c) m /\ received m.
Proof.
  intros OK BA SO E S. destruct (decrypt_cases H G a data SO) as [(k & c0 & RJ & TY & K & R & N & D)|[(NK & D)|(NK & D)]]; rewrite D in E; [| |discriminate].
  - inversion E; subst c0 sg. destruct (new_key _ _ _ _ _ _ _ OK N) as (ET & m & SH & RC). exists m. split; [|auto]. left. split.
    + split; [exact RJ|]. split; [exact TY|]. exists k, (Live c). auto.
    + intro L. rewrite enc_type in S by lia. replace (400 <=? zlen data) with true in S by lia.
      unfold handle_gpg_sigs in S. destruct (a_gpg_require_sig a); [|reflexivity]. rewrite ET in S. discriminate.
  - destruct (gpg_branch_sound _ _ _ _ _ _ OK BA E S) as (m & O & SH & RC). exists m. split; [|auto]. right. auto.
Qed.
Lemma open_complete H G a data m : hashes_ok H -> b64_all data = true -> stanza_ok a -> opens H G a data m ->
  exists c sg, (decrypt_packet H G a data = Fault \/ decrypt_packet H G a data = Ok (Some (c, sg))) /\
    handle_gpg_sigs a (encryption_type (Some data)) c sg = Ok true /\ shows (Live c) m /\ received m.
Proof.
  intros OK BA SO [(KO & RS)|(NK & GO)].
  - pose proof KO as (RJ & TY & k & h & K & N & SH). destruct (new_live _ _ _ _ _ _ _ N) as [(c & ->) R].
    destruct (new_key _ _ _ _ _ _ _ OK N) as (ET & m' & SH' & RC). rewrite <- (shows_unique _ _ _ SH SH') in RC.
    destruct (decrypt_cases H G a data SO) as [(k0 & c0 & _ & _ & K0 & _ & N0 & D)|[(NK & D)|(NK & D)]]; [|destruct (NK m KO)|destruct (NK m KO)].
    exists c, None. split; [right; congruence|]. split; [|auto]. unfold handle_gpg_sigs. rewrite enc_type by lia.
    destruct (400 <=? zlen data) eqn:L; [|reflexivity]. rewrite RS by lia. reflexivity.
  - assert (D : decrypt_packet H G a data = Fault \/ decrypt_packet H G a data = gpg_branch H G a data).
    { destruct (decrypt_cases H G a data SO) as [(k0 & c0 & RJ0 & TY0 & K0 & _ & N0 & D)|[(_ & D)|(_ & D)]]; auto.
      exfalso. destruct (new_key _ _ _ _ _ _ _ OK N0) as (_ & m' & SH' & _). apply (NK m'). split; [exact RJ0|]. split; [exact TY0|]. eauto. }
    assert (X : exists c sg, gpg_branch H G a data = Ok (Some (c, sg)) /\
       handle_gpg_sigs a (encryption_type (Some data)) c sg = Ok true /\ shows (Live c) m /\ received m).
    { destruct GO as (AG & PW & GP & L4 & (h & N) & t & cipher & pt & sigs & dt & dg & AT & T4 & B & GO & SG & DS).
      - destruct (new_live _ _ _ _ _ _ _ N) as [_ R].
        destruct (new_none _ _ _ _ _ _ OK N) as (c0 & t0 & E1 & AT0 & C & L & CL & M & GG & BT & RT & DEC). subst h.
        rewrite <- (auth_text_unique _ _ _ _ _ _ _ OK AT AT0) in *.
        pose proof (gpg_path H G a c0 t C L CL M GG (BT BA) ltac:(lia)) as P. unfold gpg_message in P. rewrite B in P.
        destruct (sig_complete G a cipher pt sigs (set_c_etype FKO_ENCRYPTION_GPG empty_ctx) GO SG eq_refl) as (sg & GD & HS).
        rewrite GD, DS in P. destruct P as (c' & P & SH & ETc). exists c', sg. rewrite enc_type by lia. replace (400 <=? zlen data) with true by lia.
        split; [|split; [|split; [exact SH|]]].
        + unfold gpg_branch. rewrite AG, PW, enc_type by lia. replace (400 <=? zlen data) with true by lia.
          change (FKO_ENCRYPTION_GPG =? FKO_ENCRYPTION_GPG) with true. cbn [andb]. unfold FKO_ENC_MODE_ASYMMETRIC. rewrite N, GP. cbn [negb]. rewrite P. reflexivity.
        + unfold handle_gpg_sigs in *. rewrite ETc. exact HS.
        + destruct (decode_spa_sound' H _ m dt dg OK DS) as (_ & b & ex & h & _ & _ & _ & _ & _ & RC & _). exact RC. }
    destruct X as (c & sg & X1 & X2 & X3 & X4). exists c, sg. split; [|auto]. destruct D as [D|D]; [auto|right; congruence].
Qed.
