(** Proofs: the daemon stays within its memory. *)
From Verif Require Import Bytes P_bytes M_base64 S_base64 S_text S_codec S_cipher S_ctx S_access S_replay S_cycle M_util M_message M_codec M_cipher M_ctx M_access
  M_replay M_cycle M_incoming S_incoming P_base64 P_util P_util2 P_codec P_access P_replay P_cycle P_ctx P_ctx2 P_ctx4 P_ctx6 P_incoming P_incoming2 P_incoming3 P_incoming4
  P_incoming5 P_incoming6 P_incoming7 P_incoming8 S_safe.
From Coq Require Import Init.Byte List ZArith Bool Lia.
Import ListNotations.
Open Scope Z_scope.

(** ** Command templates *)
Lemma dollars_cons c t : dollars (c :: t) = (if beq c "$"%byte then 1 else 0) + dollars t.
Proof. unfold dollars. cbn [filter]. destruct (beq c "$"%byte); [rewrite zlen_cons|]; lia. Qed.
Lemma dollars_nonneg t : 0 <= dollars t.
Proof. apply zlen_nonneg. Qed.
Lemma find_var_in vars s n v : find_var vars s = Some (n, v) -> In (n, v) vars.
Proof.
  induction vars as [|[n' v'] r IH]; cbn [find_var]; [discriminate|]. destruct (is_prefix n' s).
  - intro E. injection E as <- <-. left. reflexivity.
  - intro E. right. auto.
Qed.
Lemma put_terminated buf i c : terminated buf -> 0 <= i <= 255 -> exists b, put buf i c = Ok b /\ (i <= 254 -> terminated b).
Proof.
  intros (b & -> & L) R. unfold put. rewrite zlen_app. change (zlen [x00]) with 1.
  replace ((0 <=? i) && (i <? zlen b + 1)) with true by (symmetry; apply andb_true_iff; split; [apply Z.leb_le|apply Z.ltb_lt]; lia).
  eexists. split; [reflexivity|]. intro R2. exists (ztake i b ++ c :: zdrop (i + 1) b). split.
  - rewrite <- app_assoc. cbn [app]. unfold ztake, zdrop. rewrite firstn_app, skipn_app.
    replace (Z.to_nat i - length b)%nat with 0%nat by (unfold zlen in *; lia).
    replace (Z.to_nat (i + 1) - length b)%nat with 0%nat by (unfold zlen in *; lia). cbn [firstn skipn]. rewrite app_nil_r. reflexivity.
  - rewrite zlen_app, zlen_cons, zlen_ztake, zlen_zdrop by lia. lia.
Qed.
Lemma build_safe vars : Forall (fun nv => zlen (snd nv) <= 19) vars -> forall s i skip buf idx, terminated buf -> 0 <= idx ->
  idx + zlen s + 18 * dollars s <= 256 -> build_loop vars s i skip buf idx <> Fault.
Proof.
  intro F. induction s as [|c s IH]; intros i skip buf idx T N L; cbn [build_loop]; [discriminate|].
  rewrite zlen_cons, dollars_cons in L. pose proof (zlen_nonneg s) as Z1. pose proof (dollars_nonneg s) as Z2.
  destruct (_ >=? _); [discriminate|]. destruct (skip >? 0). { apply IH; auto. destruct (beq c "$"%byte); lia. }
  destruct (beq c "$"%byte).
  - destruct (find_var vars s) as [[n v]|] eqn:FV.
    + apply find_var_in in FV. rewrite Forall_forall in F. specialize (F _ FV). cbn [snd] in F. pose proof (zlen_nonneg v).
      apply IH; [apply strlcat_terminated; auto|lia|lia].
    + apply IH; auto. lia.
  - destruct (put_terminated buf idx c T ltac:(lia)) as (b & -> & T2). unfold CMD_CYCLE_BUFSIZE. destruct (idx + 1 =? 256) eqn:Q; [discriminate|].
    apply IH; [apply T2; lia|lia|lia].
Qed.
Lemma ztake_len {A} n (l : list A) : 0 <= n -> zlen (ztake n l) <= n.
Proof. intro N. unfold ztake, zlen. rewrite firstn_length. lia. Qed.
Lemma build_cmd_safe d t timer : roomy t -> zlen (d_use d) <= 19 -> zlen (d_pkt_src d) <= 19 -> zlen (d_pkt_dst d) <= 19 -> build_cmd d t timer <> Fault.
Proof.
  intros R A B C. unfold build_cmd. destruct (expand_acc_port_list (d_remain d)) as [[|pp r]|]; try discriminate.
  assert (V : Forall (fun nv => zlen (snd nv) <= 19) (cycle_vars d timer pp)).
  { unfold cycle_vars, snprintf, MAX_PORT_STR_LEN, MAX_PROTO_STR_LEN.
    assert (K : forall k (s : bytes), 0 <= k <= 19 -> zlen (ztake k s) <= 19) by (intros k s Q; pose proof (ztake_len k s); lia).
    repeat (apply Forall_cons; [cbn [snd]; first [assumption | apply K; lia]|]). apply Forall_nil. }
  pose proof (build_safe _ V t 0 0 (repeat x00 256) 0) as Q. destruct (build_loop _ _ _ _ _ _) as [[b|]|]; try discriminate.
  exfalso. apply Q; [|lia|unfold roomy in R; lia|reflexivity]. exists (repeat x00 255). split; [reflexivity|]. rewrite zlen_repeat. reflexivity.
Qed.

(** ** The library *)
Definition quiet (H : hashes) (a : stanza) (data : bytes) : Prop := ~ In "="%byte data \/ unauthenticated H a data.
Lemma unauth_not H a data mode hk : a_hmac_key a = Some hk -> hk <> [] ->
  (forall t, ~ auth_text H mode (Some hk) (a_hmac_type a) data t) -> ~ authentic H mode (a_hmac_type a) hk data.
Proof.
  intros E N U (h & body & HN & _ & D). destruct hk as [|x r]; [congruence|]. apply (U (with_prefix mode body)). exists h, body. auto.
Qed.
Lemma new_safe H a data dk mode : hashes_ok H -> quiet H a data -> mode = a_mode a \/ mode = 7 ->
  fko_new_with_data H (Some data) dk mode (a_hmac_key a) (a_hmac_type a) <> Fault.
Proof.
  intros OK [NE|(hk & E & N & U)] M; [apply new_no_fault; auto|]. rewrite E.
  destruct (hmac_first H data mode hk (a_hmac_type a) OK N) as [A|(e & _ & X)]; [|rewrite X; discriminate].
  exfalso. apply (unauth_not H a data mode hk E N); auto.
Qed.
Lemma gpg_safe H G a data c : hashes_ok H -> quiet H a data -> b64_all data = true ->
  fko_new_with_data H (Some data) None 7 (a_hmac_key a) (a_hmac_type a) = Ok (FKO_SUCCESS, Live c) -> gpg_decrypt_spa_data H G a c <> Fault.
Proof.
  intros OK Q BA N. destruct (new_none _ _ _ _ _ _ OK N) as (c0 & t & E & AT & C & L & CL & M & GP & BT & RT & DEC). injection E as <-.
  destruct (Z.le_gt_cases 400 (zlen t)) as [T4|T4].
  - pose proof (gpg_path H G a c t C L CL M GP (BT BA) ltac:(lia)) as P. destruct (gpg_message H G a t) as [[m sg]|].
    + destruct P as (c' & -> & _). discriminate.
    + destruct P as (e & c' & sg & -> & _). discriminate.
  - unfold gpg_decrypt_spa_data. cbv zeta. rewrite C, enc_type by lia. replace (400 <=? zlen t) with false by lia.
    change ((FKO_ENCRYPTION_RIJNDAEL =? FKO_ENCRYPTION_GPG) && (c_mode c =? FKO_ENC_MODE_ASYMMETRIC)) with false. cbv iota.
    pose proof (new_safe H a data (Some []) 7 OK Q (or_intror eq_refl)) as NF. rewrite DEC in NF.
    destruct (decrypt_spa_data H [] c) as [[e c1]|]; [discriminate|congruence].
Qed.
Lemma decrypt_safe H G a data : hashes_ok H -> quiet H a data -> b64_all data = true -> decrypt_packet H G a data <> Fault.
Proof.
  intros OK Q BA. unfold decrypt_packet. cbv zeta. fold (gpg_branch H G a data).
  assert (GB : gpg_branch H G a data <> Fault).
  { unfold gpg_branch. destruct (_ && _ && _); [|discriminate]. unfold FKO_ENC_MODE_ASYMMETRIC.
    pose proof (new_safe H a data None 7 OK Q (or_intror eq_refl)) as NF.
    destruct (fko_new_with_data H (Some data) None 7 (a_hmac_key a) (a_hmac_type a)) as [[e h]|] eqn:N; [|congruence].
    destruct e; try discriminate. destruct h as [|c|]; try discriminate. destruct (negb _); [discriminate|].
    pose proof (gpg_safe H G a data c OK Q BA N) as GS. destruct (gpg_decrypt_spa_data H G a c) as [[[e c1] sg]|]; [|congruence].
    destruct e; discriminate. }
  destruct (a_rijndael a && _).
  - pose proof (new_safe H a data (a_key a) (a_mode a) OK Q (or_introl eq_refl)) as NF.
    destruct (fko_new_with_data H (Some data) (a_key a) (a_mode a) (a_hmac_key a) (a_hmac_type a)) as [[e h]|]; [|congruence].
    destruct e; try exact GB. destruct h; try exact GB. discriminate.
  - exact GB.
Qed.
Lemma gpg_sig_from H G a c0 e c s : gpg_decrypt_spa_data H G a c0 = Ok (e, c, Some s) -> exists cipher pt sigs, g_open G a cipher = Some (pt, sigs) /\ In s sigs.
Proof.
  unfold gpg_decrypt_spa_data. cbv zeta. destruct (_ && _).
  2:{ destruct (decrypt_spa_data H [] c0) as [[e1 c1]|]; discriminate. }
  destruct (if c_gpg _ then _ else _) as [[e2 c2]|]; [|discriminate]. destruct (c_crypt c2) as [t|]; [|discriminate].
  destruct (b64_decode t) as [cipher|]; [|discriminate]. unfold gpgme_decrypt. destruct (g_open G a cipher) as [[pt sigs]|] eqn:GO; [|discriminate].
  intro E. exists cipher, pt, sigs. split; [exact GO|].
  assert (S1 : forall (sg : option gpg_sig), (match sg with Some x => In x sigs | None => True end) ->
      (if negb (is_valid_encoded_msg_len (strnlen (cstr pt) MAX_SPA_ENCODED_MSG_SIZE)) then Ok (FKO_ERROR_INVALID_DATA, set_c_enc (Some pt) c2, sg)
       else match decode_spa_data H (set_c_enc_len (strnlen (cstr pt) MAX_SPA_ENCODED_MSG_SIZE) (set_c_enc (Some pt) c2)) with Fault => Fault | Ok (e, c3) => Ok (e, c3, sg) end) = Ok (e, c, Some s) -> In s sigs).
  { intros sg SG Q. destruct (negb _); [injection Q as _ _ ->; exact SG|]. destruct (decode_spa_data _ _) as [[e3 c3]|]; [|discriminate]. injection Q as _ _ ->. exact SG. }
  destruct (a_gpg_require_sig a).
  - destruct sigs as [|s0 r]; [discriminate|]. destruct (a_gpg_ignore_sig_error a); [|destruct (_ || _); [discriminate|]]; exact (S1 (Some s0) (or_introl eq_refl) E).
  - exact (S1 None I E).
Qed.
Lemma decrypt_sig H G a data c s : decrypt_packet H G a data = Ok (Some (c, Some s)) -> exists cipher pt sigs, g_open G a cipher = Some (pt, sigs) /\ In s sigs.
Proof.
  unfold decrypt_packet. cbv zeta. fold (gpg_branch H G a data).
  assert (GB : gpg_branch H G a data = Ok (Some (c, Some s)) -> exists cipher pt sigs, g_open G a cipher = Some (pt, sigs) /\ In s sigs).
  { unfold gpg_branch. destruct (_ && _ && _); [|discriminate].
    destruct (fko_new_with_data _ _ _ _ _ _) as [[e h]|]; [|discriminate]. destruct e; try discriminate. destruct h as [|c0|]; try discriminate.
    destruct (negb _); [discriminate|]. destruct (gpg_decrypt_spa_data H G a c0) as [[[e1 c1] sg]|] eqn:GD; [|discriminate].
    destruct e1; try discriminate. intro E. injection E as -> ->. exact (gpg_sig_from _ _ _ _ _ _ _ GD). }
  destruct (if a_rijndael a && _ then _ else _) as [[[e h]|]|]; [|exact GB|discriminate]. destruct e; try exact GB. destruct h; try exact GB. discriminate.
Qed.

(** ** One stanza *)
Lemma sigs_safe H G a data c sg : fingerprints_ok G -> decrypt_packet H G a data = Ok (Some (c, sg)) ->
  handle_gpg_sigs a (encryption_type (Some data)) c sg <> Fault.
Proof.
  intros FO D. unfold handle_gpg_sigs. destruct (_ && _); [|discriminate]. destruct (negb _); [discriminate|]. destruct sg as [s|]; [|discriminate].
  destruct (decrypt_sig _ _ _ _ _ _ D) as (ci & pt & sigs & GO & I). destruct (FO _ _ _ _ _ GO I) as (f & -> & L).
  replace (zlen f <? 8) with false by (symmetry; apply Z.ltb_ge; lia). discriminate.
Qed.
Lemma dotted_len s x : dotted s x -> zlen s <= 15.
Proof.
  intros (sa & sb & sc & sd & a & b & c & d & -> & A & B & C & D & RA & RB & RC & RD & _).
  assert (K : forall t n, writes t n -> 0 <= n < 256 -> zlen t <= 3).
  { intros t n W R. destruct (writes_low t n W) as [[-> _]|[_ [LO _]]]; [vm_compute; discriminate|].
    destruct (Z.le_gt_cases (zlen t) 3); auto. exfalso. assert (10 ^ 3 <= 10 ^ (zlen t - 1)) by (apply Z.pow_le_mono_r; lia). lia. }
  apply K in A, B, C, D; auto. cbn [join]. rewrite !zlen_app. change (zlen ["."%byte]) with 1. lia.
Qed.
Lemma cmd_safe cf a k d : stanza_safe a -> process_cmd_msg cf a k d <> Fault.
Proof.
  intros [_ S]. unfold process_cmd_msg. destruct (a_cmd a); cbn [negb]; [|discriminate]. destruct (cf_test cf); [discriminate|].
  destruct (a_sudo a); [|discriminate]. cbv zeta. specialize (S eq_refl eq_refl). destruct (a_cmd_group a); [|discriminate].
  destruct (a_sudo_group a) as [g|]; [|exfalso; apply S; [discriminate|reflexivity]]. destruct (is_root g); discriminate.
Qed.
Lemma act_safe cf now a k d cy p fwd m : stanza_safe a -> asks a p fwd m d -> zlen fwd <= 15 -> act cf now a k d cy <> Fault.
Proof.
  intros S AS FW. unfold act. destruct (a_cycle a) as [cc|] eqn:CY.
  - destruct S as [S _]. destruct (S cc CY) as [R1 R2].
    pose proof (dotted_len _ _ (as_pkt_src _ _ _ _ _ AS)). pose proof (dotted_len _ _ (as_pkt_dst _ _ _ _ _ AS)).
    assert (U : zlen (d_use d) <= 15).
    { destruct (as_use _ _ _ _ _ AS) as [[_ ->]|(_ & _ & [[_ ->]|[_ ->]])]; auto.
      destruct (as_split _ _ _ _ _ AS) as [_ (i & x & y & z & w & _ & L & _)]. exact L. }
    unfold cmd_cycle_open. pose proof (build_cmd_safe d (cc_open cc) (cc_timer cc) R1 ltac:(lia) ltac:(lia) ltac:(lia)) as Q1.
    destruct (build_cmd d (cc_open cc) (cc_timer cc)) as [[cmd|]|]; [|discriminate|congruence].
    destruct (cc_do_close cc); [|discriminate].
    pose proof (build_cmd_safe d (cc_close cc) (cc_timer cc) (R2 eq_refl) ltac:(lia) ltac:(lia) ltac:(lia)) as Q2.
    destruct (build_cmd d (cc_close cc) (cc_timer cc)) as [[cl|]|]; [discriminate|discriminate|congruence].
  - destruct (_ =? _).
    + pose proof (cmd_safe cf a k d S) as Q. destruct (process_cmd_msg cf a k d) as [[e|]|]; [discriminate|discriminate|congruence].
    + destruct (negb _); [discriminate|]. destruct (cf_test cf); discriminate.
Qed.
Lemma same_fields now a a' live : check_stanza_expiration now a = (live, a') -> a' = a \/ a' = expire_stanza a.
Proof. destruct (expiration_cases now a) as [E|[E|[E _]]]; rewrite E; intro Q; injection Q as _ <-; auto. Qed.
Lemma step_safe H G cf en p data fwd raw a k added rp cy : hashes_ok H -> fingerprints_ok G -> packet_ok p -> stanza_ok a -> stanza_safe a ->
  b64_all data = true -> quiet H a data -> zlen fwd <= 15 -> step H G cf en (k_info p) data fwd raw a k added rp cy <> Fault.
Proof.
  intros OK FO PO SO SS BA Q FW. unfold step. destruct (negb _); [discriminate|].
  destruct (check_stanza_expiration (e_now en) a) as [live a'] eqn:CE.
  assert (P : stanza_ok a' /\ stanza_safe a' /\ quiet H a' data) by (destruct (same_fields _ _ _ _ CE) as [->| ->]; auto).
  clear CE SO SS Q. destruct P as (SO & SS & Q). destruct (negb live); [discriminate|].
  pose proof (decrypt_safe H G a' data OK Q BA) as DF. destruct (decrypt_packet H G a' data) as [[[c sg]|]|] eqn:D; [|discriminate|congruence].
  destruct (note_replay cf en (k_info p) raw added rp) as [[okd ad] rp1]. destruct (negb okd); [discriminate|].
  pose proof (sigs_safe H G a' data c sg FO D) as SF. destruct (handle_gpg_sigs a' (encryption_type (Some data)) c sg) as [[|]|] eqn:HS; [|discriminate|congruence].
  destruct (open_sound H G a' data c sg OK BA SO D HS) as (m & O & SH & R).
  destruct (check_refuse cf (e_now en) p fwd a' c m SH R PO) as [[-> _]|(d & -> & PA & AS)]; [discriminate|].
  pose proof (act_safe cf (e_now en) a' k d cy p fwd m SS AS FW) as AF. destruct (act cf (e_now en) a' k d cy) as [[[fl eff] cy1]|]; [discriminate|congruence].
Qed.
Lemma loop_safe H G cf en p data fwd raw : hashes_ok H -> fingerprints_ok G -> packet_ok p -> b64_all data = true -> zlen fwd <= 15 ->
  forall l k added rp cy, Forall (fun a => stanza_ok a /\ stanza_safe a /\ quiet H a data) l ->
  stanza_loop H G cf en (k_info p) data fwd raw l k added rp cy <> Fault.
Proof.
  intros OK FO PO BA FW. induction l as [|a r IH]; intros k added rp cy F; [discriminate|].
  rewrite loop_cons. pose proof (Forall_inv F) as (S1 & S2 & S3). apply Forall_inv_tail in F.
  pose proof (step_safe H G cf en p data fwd raw a k added rp cy OK FO PO S1 S2 BA S3 FW) as SF.
  destruct (step H G cf en (k_info p) data fwd raw a k added rp cy) as [[[[[[fl ef] a'] ad'] rp1] cy1]|]; [|congruence].
  destruct fl; [|discriminate]. specialize (IH (k + 1) ad' rp1 cy1 F).
  destruct (stanza_loop H G cf en (k_info p) data fwd raw r (k + 1) ad' rp1 cy1) as [[[[e2 r2] rp2] cy2]|]; [discriminate|congruence].
Qed.

(** ** One packet *)
Lemma packet_runs H G cf en p st : hashes_ok H -> fingerprints_ok G -> config_safe (st_acc st) -> cache_ok (fst (st_replay st)) ->
  packet_safe H cf (st_acc st) p -> exists effs st', incoming_spa H G cf en p st = Ok (effs, st').
Proof.
  intros OK FO [CO SS] CK [PO PD PH]. pose proof (pre_no_fault cf p PO PH) as PF. unfold incoming_spa.
  destruct (preprocess cf p) as [[[data fwd]|]|] eqn:PP; [|eauto|congruence].
  destruct (pre_sound cf p data fwd PO PP) as [CA (DO & _)].
  assert (FW : zlen fwd <= 15).
  { destruct (pre_forwarded cf p data fwd PO PP) as [[[[L _] _]|[-> _]]|(c & v & _ & [[-> [L _]]|[-> _]])]; try (vm_compute; discriminate); lia. }
  destruct (negb _); [eauto|].
  assert (LS : forall raw, exists eff acc' rp' cy', stanza_loop H G cf en (k_info p) data fwd raw (st_acc st) 1 false (st_replay st) (st_cycles st) = Ok (eff, acc', rp', cy')).
  { intro raw. pose proof (loop_safe H G cf en p data fwd raw OK FO PO (data_b64_all _ DO) FW (st_acc st) 1 false (st_replay st) (st_cycles st)) as LF.
    destruct (stanza_loop H G cf en (k_info p) data fwd raw (st_acc st) 1 false (st_replay st) (st_cycles st)) as [[[[e a] r] c]|]; [eauto 8|].
    exfalso. apply LF; [|reflexivity]. unfold config_ok in CO. rewrite Forall_forall in *. intros a I. split; [apply CO; auto|]. split; [auto|].
    destruct (PD data CA) as [N|U]; [left; auto|right]. rewrite Forall_forall in U. auto. }
  destruct (yes (cf_digest_persistence cf)).
  - destruct (raw_digest H data OK) as [->| ->]; [destruct (_ && _)|]; eauto.
    destruct (is_replay_spec (fst (st_replay st)) (packet_digest H data) ltac:(apply digest_ok; auto) CK) as (b & -> & _).
    destruct b; [eauto|]. destruct (LS (Some (packet_digest H data))) as (e & a & r & c & ->). eauto.
  - destruct (LS None) as (e & a & r & c & ->). eauto.
Qed.
Lemma safe_kept H G cf en p st effs st' : incoming_spa H G cf en p st = Ok (effs, st') -> config_safe (st_acc st) -> config_safe (st_acc st').
Proof.
  intros E [C S]. split; [eapply config_step; eauto|]. pose proof (incoming_stanzas _ _ _ _ _ _ _ _ E) as F.
  clear -F S. induction F as [|a a' l l' Q F IH]; [constructor|]. pose proof (Forall_inv S). apply Forall_inv_tail in S. constructor; auto.
  destruct Q as [->|(-> & _)]; auto.
Qed.
Lemma cache_kept H G cf en p st effs st' : hashes_ok H -> packet_ok p -> incoming_spa H G cf en p st = Ok (effs, st') ->
  cache_ok (fst (st_replay st)) -> cache_ok (fst (st_replay st')).
Proof.
  intros OK PO E C. destruct (replay_kept _ _ _ _ _ _ _ _ OK PO E) as (data & new & _ & -> & F & _). apply Forall_app. split; [|exact C].
  eapply Forall_impl; [|exact F]. cbv beta. intros c ->. apply new_buf. apply digest_ok; auto.
Qed.
Lemma history_safe H G cf st l st' : hashes_ok H -> history H G cf st l st' -> Forall (fun x => past_ok (fst x)) l ->
  config_safe (st_acc st) -> cache_ok (fst (st_replay st)) -> config_safe (st_acc st') /\ cache_ok (fst (st_replay st')).
Proof.
  intros OK HI. induction HI as [st|st en p effs st1 l st2 E HI IH|st acc l st2 HI IH|st d i now k acc l st2 HI IH]; intros F C B; auto;
    pose proof (Forall_inv F) as P; apply Forall_inv_tail in F; cbn [fst past_ok] in P.
  - apply IH; auto; [eapply safe_kept; eauto|eapply cache_kept; eauto].
  - apply IH; auto. cbn [st_replay]. apply happen_bufs; [exact I|exact B].
  - destruct P as [P1 P2]. apply IH; auto. cbn [st_replay]. apply happen_bufs; auto.
Qed.
