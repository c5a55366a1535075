(** Property theorems: no packet brings the daemon down. *)
From Verif Require Import Bytes M_base64 S_base64 S_text S_codec S_cipher S_ctx S_access S_replay S_cycle M_util M_message M_codec M_cipher M_ctx M_access
  M_replay M_cycle M_incoming S_incoming P_bytes P_util P_access P_replay P_cycle P_ctx3 P_incoming P_incoming2 P_incoming3 P_incoming4 P_incoming5 P_incoming6 P_incoming7 P_incoming8 T_codec T_ctx T_incoming S_safe P_safe.
From Coq Require Import Init.Byte List ZArith Bool Lia.
Import ListNotations.
Open Scope Z_scope.

(** ** C89 No packet brings the daemon down *)
(** Missing for the full property: the packets and the configurations of the theorems below. *)
Theorem C89_packet_partial : forall H G cf en p st, hashes_ok H -> fingerprints_ok G -> config_safe (st_acc st) -> cache_ok (fst (st_replay st)) ->
  packet_safe H cf (st_acc st) p -> exists effs st', incoming_spa H G cf en p st = Ok (effs, st').
Proof. exact packet_runs. Qed.
Print Assumptions C89_packet_partial.
(** The same after any number of packets, restarts and crashes, from any contents of the digest
    file. *)
Theorem C89_history_partial : forall H G cf acc f past st en p, hashes_ok H -> fingerprints_ok G -> config_safe acc ->
  history H G cf (mkSt acc (cache_init f) []) past st -> Forall (fun x => past_ok (fst x)) past ->
  packet_safe H cf (st_acc st) p -> exists effs st', incoming_spa H G cf en p st = Ok (effs, st').
Proof.
  intros H G cf acc f past st en p HO FO CS HI PA PS.
  destruct (history_safe H G cf _ _ _ HO HI PA CS (cache_init_bufs f)) as [C1 C2]. apply packet_runs; auto.
Qed.
Print Assumptions C89_history_partial.

(** A packet that crashes every stanza without an HMAC key, but none with one. *)
Definition d_crash : bytes := $ "9zYWx0c2FsdA=" ++ repeat "A"%byte 126 ++ $ "=".
Lemma ends_padded H a data hk : hashes_ok H -> a_hmac_key a = Some hk -> hk <> [] -> unauthenticated H a (data ++ $ "=").
Proof.
  intros HO E N. exists hk. split; auto. split; auto. intros mode t _ A. destruct hk as [|x r]; [congruence|]. destruct A as (h & body & HN & D & _).
  set (mac := b64_text _) in D. assert (L : 1 <= zlen mac).
  { pose proof (mac_text_len H (a_hmac_type a) h (x :: r) (with_prefix mode body) HO HN) as K. unfold mac_text in K. fold mac in K.
    assert (22 <= b64_len_of (a_hmac_type a)) by (inversion HN; vm_compute; discriminate). lia. }
  destruct (exists_last (l := mac)) as (m' & c & M). { intro Q. rewrite Q in L. vm_compute in L. apply L. reflexivity. }
  rewrite M, app_assoc in D. apply app_inj_tail in D as [_ <-].
  assert (I : In "="%byte mac) by (rewrite M; apply in_or_app; right; left; reflexivity).
  unfold mac, b64_text in I. apply filter_In in I as [_ I]. discriminate.
Qed.
Lemma sample_safe hk cu cg cy rs ex fw mx : (forall cc, cy = Some cc -> roomy (cc_open cc) /\ (cc_do_close cc = true -> roomy (cc_close cc))) ->
  stanza_safe (sample hk false cu cg cy rs ex fw mx).
Proof. intro C. split; [exact C|]. cbn [a_sudo sample]. discriminate. Qed.
Lemma crash_plain : forall g r, d_crash = g ++ r -> lower g <> $ "get /".
Proof.
  intros g r E L. rewrite lower_tolower in L. destruct g as [|c g]; [discriminate|]. injection L as L _. vm_compute in E. injection E as E _. subst c. discriminate L.
Qed.
Example C89_ex : hashes_ok toy /\ fingerprints_ok nogpg /\ config_safe (st_acc (start [a_cycled; a0])) /\ cache_ok (fst (st_replay (start [a_cycled; a0]))) /\
  packet_safe toy cf0 (st_acc (start [a_cycled; a0])) (pkt packet1) /\ packet_safe toy cf0 (st_acc (start [a_cycled; a0])) (pkt d_crash) /\
  effects (run [a_cycled; a0] cf0 packet1) = Some [CycleOpen 1 ($ "open 1.2.3.4")] /\ effects (run [a_cycled; a0] cf0 d_crash) = Some [].
Proof.
  split; [exact toy_ok|]. split; [intros a c pt sigs s E; discriminate E|]. split.
  { split; [apply sample_ok; constructor; [unfold a_cycled; eauto 20|constructor; [unfold a0; eauto 20|constructor]]|].
    constructor; [|constructor; [|constructor]]; apply sample_safe; intros cc Q; [injection Q as <-|discriminate Q].
    split; [|intros _]; vm_compute; discriminate. }
  split; [constructor|]. split.
  { constructor; [apply pkt_valid; vm_compute; discriminate| |exact C51_ex].
    intros data CA. left. rewrite (carries_fun _ _ _ _ CA (plain_carries packet1 packet1_plain cf0)). exact C50_ex. }
  split.
  { constructor; [apply pkt_valid; vm_compute; discriminate| |].
    - intros data CA. right. rewrite (carries_fun _ _ _ _ CA (plain_carries d_crash crash_plain cf0)).
      assert (E : d_crash = ($ "9zYWx0c2FsdA=" ++ repeat "A"%byte 126) ++ $ "=") by (unfold d_crash; rewrite app_assoc; reflexivity).
      rewrite E. clear E. change (st_acc (start [a_cycled; a0])) with [a_cycled; a0].
      apply Forall_cons; [|apply Forall_cons; [|apply Forall_nil]]; apply (ends_padded toy _ _ ($ "hmac key") toy_ok); (reflexivity || discriminate).
    - intros v b (_ & (_ & g & r & E & L) & _). exfalso. rewrite pkt_payload in E. exact (crash_plain g r E L). }
  split; vm_compute; reflexivity.
Qed.
(** A packet that anybody can send: a padding character early in the data leaves less than
    two cipher blocks, and the program reads in front of its buffer.  A stanza without an HMAC
    key is enough, whatever its encryption key. *)
Theorem C89_padding_refuted : forall H key, hashes_ok H -> zlen key <= 32 ->
  incoming_spa H nogpg cf0 en0 (pkt d_crash)
    (start [mkStanza [mknet 0 0] None 0 false true (Some key) 2 None 0 false false false false None None false None false false None None None None 0 0 None [] [] 30 300 nat0]) = Fault.
Proof.
  intros H key HO L. unfold incoming_spa.
  assert (PP : preprocess cf0 (pkt d_crash) = Ok (Some (d_crash, []))) by (vm_compute; reflexivity). rewrite PP.
  change (negb (existsb _ _)) with false. cbv iota. change (yes (cf_digest_persistence cf0)) with true. cbv iota.
  assert (RG : 36 <= zlen d_crash < 1500) by (change (zlen d_crash) with 140; lia). rewrite (raw_digest_ok H d_crash HO RG). change (is_replay _ _) with (Ok false). cbv iota.
  unfold start. cbn [st_acc]. rewrite loop_cons. unfold step. change (negb (src_dst_check _ _)) with false. cbv iota.
  change (check_stanza_expiration _ ?a) with (true, a). cbv iota. cbn [negb]. unfold decrypt_packet. cbv zeta. cbn [a_rijndael a_key a_mode a_hmac_key a_hmac_type a_cmd].
  assert (ET : (encryption_type (Some d_crash) =? FKO_ENCRYPTION_RIJNDAEL) = true) by (vm_compute; reflexivity). rewrite ET. cbn [andb orb].
  assert (F : fko_new_with_data H (Some d_crash) (Some key) 2 None 0 = Fault); [|rewrite F; reflexivity].
  unfold fko_new_with_data. cbv zeta. set (n := strnlen _ _). vm_compute in n. subst n.
  change (negb (is_valid_encoded_msg_len 140)) with false. cbn [negb].
  unfold set_encryption_mode, set_hmac_type. change ((2 <? 0) || (2 >=? FKO_LAST_ENC_MODE)) with false. change ((0 <? 0) || (0 >=? FKO_LAST_HMAC_MODE)) with false. cbn [ok negb].
  unfold decrypt_spa_data. cbv zeta. cbn [c_crypt set_c_htype set_c_mode set_c_crypt_len set_c_crypt].
  match goal with |- context [encryption_type ?c] => set (et := encryption_type c); vm_compute in et; subst et end. cbn [Z.eqb FKO_ENCRYPTION_GPG FKO_ENCRYPTION_RIJNDAEL andb Pos.eqb].
  unfold rijndael_decrypt, RIJNDAEL_MAX_KEYSIZE. replace (zlen key >? 32) with false by lia.
  cbn [c_salted set_c_etype set_c_htype set_c_mode set_c_crypt_len set_c_crypt empty_ctx].
  match goal with |- context [add_salted_str ?c] => set (r := add_salted_str c); vm_compute in r; subst r end.
  cbn [ok negb c_crypt c_mode]. match goal with |- context [b64_decode ?c] => set (r := b64_decode c); vm_compute in r; subst r end.
  cbv iota beta. set (b := negb _). vm_compute in b. subst b. cbv iota. unfold rij_decrypt.
  destruct (rij_key_iv _ _ _ _). reflexivity.
Qed.
Print Assumptions C89_padding_refuted.
(** Any web request with a long X-Forwarded-For header, whatever the keys: the address is
    stored in an array that is too short. *)
Theorem C89_header_refuted : exists q, zlen q <= 1500 /\ forall H G en st, incoming_spa H G cf0 en (pkt q) st = Fault.
Proof.
  destruct C51_long_address_refuted as (q & L & F & _). exists q. split; auto. intros H G en st. unfold incoming_spa. rewrite F. reflexivity.
Qed.
Print Assumptions C89_header_refuted.
(** A command template that has no room for an address, and an authorized packet. *)
Theorem C89_template_refuted : exists a cc, a_cycle a = Some cc /\ zlen (cc_open cc) < 256 /\ config_ok [a] /\ run [a] cf0 packet1 = Fault.
Proof.
  exists (sample (Some ($ "hmac key")) false None None (Some (mkCC (repeat "x"%byte 250 ++ $ "$IP!") ($ "y") true 10)) [] 0 30 300).
  eexists. split; [reflexivity|]. split; [vm_compute; reflexivity|]. split; [apply sample_ok; constructor; [eauto 20|constructor]|]. vm_compute. reflexivity.
Qed.
Print Assumptions C89_template_refuted.
(** A stanza that runs commands with sudo, with a group but without a sudo group. *)
Theorem C89_group_refuted : exists data a, a_sudo a = true /\ a_cmd_group a = Some ($ "staff") /\ a_sudo_group a = None /\ config_ok [a] /\ run [a] cf0 data = Fault.
Proof.
  exists d_cmd, (sample (Some ($ "hmac key")) true None (Some ($ "staff")) None [] 0 30 300). do 3 (split; [reflexivity|]).
  split; [apply sample_ok; constructor; [eauto 20|constructor]|]. vm_compute. reflexivity.
Qed.
Print Assumptions C89_group_refuted.
