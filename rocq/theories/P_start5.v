(** From the files to the conditions on the firewall settings. *)
From Verif Require Import Bytes S_text S_access S_conf S_codec M_util M_codec M_packet M_cycle M_replay M_access M_incoming M_conf M_accfile M_start M_fw M_fwinit M_daemon S_incoming S_fw S_fwinit S_accfile S_daemon S_start S_start2.
From Verif Require Import P_bytes P_util P_util2 P_incoming2 P_incoming5 P_conf P_fw P_fw2 P_start P_start2 P_start3 P_start4.
From Coq Require Import Init.Byte List ZArith Bool Lia.
Import ListNotations.
Open Scope Z_scope.

Lemma start_parts b fuel test y l sd : daemon_start b fuel test y l = Goes (Some sd) ->
  exists cf cf' ns fw, config_init b (y_file y) l = Goes cf /\ validate_options b cf = Goes (cf', ns) /\ fw_config_init cf' = Goes (sd_fw sd, sd_chains sd) /\
    load_access fuel (access_system y cf') (text (cf' ($ "ACCESS_FILE"))) (cf' ($ "ACCESS_FOLDER")) = Done (sd_accs sd, fw) /\
    sd_conf sd = spa_conf test cf' ns /\ sd_config sd = cf' /\ sd_enable sd = fw.
Proof.
  unfold daemon_start. destruct (config_init b (y_file y) l) as [cf| |]; cbn [rrun]; try discriminate.
  destruct (validate_options b cf) as [[cf' ns]| |] eqn:V; cbn [rrun]; try discriminate. destruct (fw_config_init cf') as [[fc cs]| |] eqn:F; cbn [rrun]; try discriminate.
  destruct (load_access fuel (access_system y cf') (text (cf' ($ "ACCESS_FILE"))) (cf' ($ "ACCESS_FOLDER"))) as [[accs fw]| | | |] eqn:L; try discriminate.
  intros E. assert (E' := f_equal (fun x => match x with Goes (Some z) => z | _ => sd end) E). cbn in E'. clear E. subst sd. exists cf, cf', ns, fw. cbn [sd_fw sd_chains sd_accs sd_conf sd_config sd_enable]. auto 10.
Qed.
Lemma sane_usable ok a : sane ok a -> NoDup (l_open a) -> usable (to_stanza a).
Proof.
  intros [K F M N IP P SN _] ND. unfold usable, to_stanza. cbn [a_open a_fw_timeout a_max_timeout a_nat n_snat_ip n_force n_force_ip n_force_port].
  split. { unfold stanza_ok. cbn [a_rijndael a_key]. unfold M_accfile.on. destruct (ints a i_use_rijndael =? 0) eqn:Z; cbn [negb]; [discriminate|]. intros _. apply Z.eqb_neq in Z.
    specialize (K Z). destruct (strs a s_key); [|congruence]. cbn [key_bytes]. destruct (_ =? 0); discriminate. }
  split; [exact ND|]. split; [lia|]. split; [lia|]. split. { destruct (strs a s_snat_ip); [now apply SN|discriminate]. }
  unfold M_accfile.on. destruct (ints a i_nat =? 0) eqn:Z; cbn [negb]; [discriminate|]. intros _. apply Z.eqb_neq in Z. specialize (N Z). destruct (strs a s_nat_ip); [|congruence]. auto.
Qed.
Lemma name_word f : name_text f -> f <> [] -> word f.
Proof.
  intros T N. split; [exact N|]. unfold name_text in T. rewrite Forall_forall in *. intros c I. specialize (T c I).
  assert (X : letter_or_digit c -> ~ blank c /\ c <> x00).
  { unfold letter_or_digit, digit, blank. intros LD. split; [lia|]. intros ->. change (bv x00) with 0 in LD. lia. }
  destruct T as [T| ->]; [auto|]. split; [unfold blank; change (bv "_"%byte) with 95; lia|discriminate].
Qed.
Lemma enabled_dec (b : build) cf n : In n [$ "ENABLE_IPT_OUTPUT"; $ "ENABLE_IPT_FORWARDING"; $ "ENABLE_IPT_LOCAL_NAT"; $ "ENABLE_IPT_SNAT"] -> enabled cf n \/ ~ enabled cf n.
Proof.
  intros I. assert (X : exists v, full b cf n = Some v).
  { unfold full. destruct (cf n) as [v|]; [eauto|]. cbn [In] in I. destruct I as [<-|[<-|[<-|[<-|[]]]]]; eexists; reflexivity. }
  destruct X as (v & X). assert (Y : enabled cf n <-> yes v = true).
  { apply (enabled_full b cf n v); [|exact X]. cbn in I. cbn. tauto. }
  destruct (yes v); [left; now apply Y|right; intros Z; apply Y in Z; discriminate].
Qed.
Lemma settings_ok b cf cf' ns fc cs accs : validate_options b cf = Goes (cf', ns) -> fw_config_init cf' = Goes (fc, cs) -> settings_fit cf accs ->
  firewall_ok fc cs (map to_stanza accs).
Proof.
  intros O FI (CF & SR & EW & SI & _). pose proof (chain_rows _ _ _ _ _ _ O FI) as CR.
  destruct (options_at _ _ _ _ O) as (AT & _). fold (full b cf) in AT.
  destruct (init_at _ _ _ FI) as (exe & o & f & l & sn & dd & pre & dns & c0 & c1 & c2 & c3 & c4 & c5 & EX & _ & _ & _ & ES & _ & _ & _ & EC & _ & _ & _ & _ & _ & _ & EFC).
  assert (CE : cf ($ "FIREWALL_EXE") = Some exe).
  { rewrite AT in EX by notin. destruct (cf ($ "FIREWALL_EXE")); [exact EX|]. vm_compute in EX. discriminate. }
  (* every row *)
  assert (R : forall i n d P, In (i, n, d, P) (chain_table cf) -> (P -> in_use (chain_at i cs) /\ names_fit exe (chain_at i cs)) /\ (~ P -> chain_at i cs = no_chain)).
  { intros i n d P I. destruct (CR i n d P I) as [A B]. split; [|exact B]. intros HP. destruct (A HP) as (v & SO & _ & W).
    destruct (CF exe i n d P v CE I HP SO) as (target & table & from & jump & to & CL & J & NE & L & U & T). pose proof CL as (fs & js & ps & p & _ & _ & NT & _ & JR & _).
    destruct (W _ _ _ _ _ CL L) as (E1 & E2 & E3 & E4 & E5). cbn [In] in NE.
    assert (N1 : target <> []) by (intros ->; tauto). assert (N2 : table <> []) by (intros ->; tauto). assert (N3 : from <> []) by (intros ->; tauto). assert (N4 : to <> []) by (intros ->; tauto).
    inversion NT as [|? ? T1 NT2]; subst. inversion NT2 as [|? ? T2 NT3]; subst. inversion NT3 as [|? ? T3 NT4]; subst. inversion NT4 as [|? ? T4 _]; subst.
    split; [unfold in_use; exact N1|]. unfold names_fit. split; [now apply EW|]. repeat (split; [now apply name_word|]). split; [lia|]. split; [exact U|exact T]. }
  assert (I0 : In (0%nat, $ "IPT_INPUT_ACCESS", $ "ACCEPT, filter, INPUT, 1, FWKNOP_INPUT, 1", True) (chain_table cf)) by (cbn; tauto).
  assert (EL : zlen exe <= 1023).
  { destruct (proj1 (R _ _ _ _ I0) Logic.I) as (_ & _ & _ & _ & _ & _ & _ & _ & T).
    pose proof (zlen_nonneg (c_table (chain_at 0 cs))); pose proof (zlen_nonneg (c_from (chain_at 0 cs))); pose proof (zlen_nonneg (c_to (chain_at 0 cs))); pose proof (zlen_nonneg (c_target (chain_at 0 cs))). lia. }
  assert (FC : f_cmd fc = exe) by (rewrite EFC; cbn [f_cmd]; now apply ztake_all).
  assert (DO : enabled cf ($ "ENABLE_IPT_OUTPUT") \/ ~ enabled cf ($ "ENABLE_IPT_OUTPUT")) by (apply (enabled_dec b); cbn; tauto).
  assert (DF : enabled cf ($ "ENABLE_IPT_FORWARDING") \/ ~ enabled cf ($ "ENABLE_IPT_FORWARDING")) by (apply (enabled_dec b); cbn; tauto).
  assert (DL : enabled cf ($ "ENABLE_IPT_LOCAL_NAT") \/ ~ enabled cf ($ "ENABLE_IPT_LOCAL_NAT")) by (apply (enabled_dec b); cbn; tauto).
  assert (DS : enabled cf ($ "ENABLE_IPT_SNAT") \/ ~ enabled cf ($ "ENABLE_IPT_SNAT")) by (apply (enabled_dec b); cbn; tauto).
  assert (DN : nat_on cf \/ ~ nat_on cf) by (unfold nat_on; tauto).
  assert (FIT : forall i n d P, In (i, n, d, P) (chain_table cf) -> P \/ ~ P ->
    (c_target (chain_at i cs) = [] /\ c_table (chain_at i cs) = [] /\ c_from (chain_at i cs) = [] /\ c_to (chain_at i cs) = []) \/ names_fit (f_cmd fc) (chain_at i cs)).
  { intros i n d P I [HP|NP]; destruct (R i n d P I) as [A B]; [right; rewrite FC; now apply A|left]. rewrite (B NP). auto. }
  split; [|split; [|split]].
  - intros c I. rewrite EC in I. cbn [In] in I. destruct I as [<-|[<-|[<-|[<-|[<-|[<-|[]]]]]]].
    + pose proof (FIT _ _ _ _ I0 (or_introl Logic.I)) as X. rewrite EC in X. exact X.
    + assert (Y : _) by exact (FIT 1%nat _ _ _ (or_intror (or_introl eq_refl)) DO). rewrite EC in Y. exact Y.
    + assert (Y : _) by exact (FIT 2%nat _ _ _ (or_intror (or_intror (or_introl eq_refl))) DN). rewrite EC in Y. exact Y.
    + assert (Y : _) by exact (FIT 3%nat _ _ _ (or_intror (or_intror (or_intror (or_introl eq_refl)))) DN). rewrite EC in Y. exact Y.
    + assert (DM : (nat_on cf /\ enabled cf ($ "ENABLE_IPT_SNAT")) \/ ~ (nat_on cf /\ enabled cf ($ "ENABLE_IPT_SNAT"))) by tauto.
      assert (Y : _) by exact (FIT 4%nat _ _ _ (or_intror (or_intror (or_intror (or_intror (or_introl eq_refl))))) DM). rewrite EC in Y. exact Y.
    + assert (DM : (nat_on cf /\ enabled cf ($ "ENABLE_IPT_SNAT")) \/ ~ (nat_on cf /\ enabled cf ($ "ENABLE_IPT_SNAT"))) by tauto.
      assert (Y : _) by exact (FIT 5%nat _ _ _ (or_intror (or_intror (or_intror (or_intror (or_intror (or_introl eq_refl)))))) DM). rewrite EC in Y. exact Y.
  - rewrite EFC. cbn [f_snat_ip]. rewrite AT by notin. unfold full. destruct (cf ($ "SNAT_TRANSLATE_IP")) as [ip|] eqn:E; [now apply SI|]. vm_compute. discriminate.
  - apply (R _ _ _ _ I0). exact Logic.I.
  - intros s IS Q. apply in_map_iff in IS as (a & <- & IA).
    assert (M : nat_on cf /\ enabled cf ($ "ENABLE_IPT_SNAT")).
    { apply SR. apply orb_true_iff in Q. destruct Q as [Q|Q].
      - left. exists a. split; [exact IA|]. cbn [to_stanza a_nat n_snat] in Q. unfold M_accfile.on in Q. apply negb_true_iff, Z.eqb_neq in Q. exact Q.
      - right. rewrite EFC in Q. cbn [f_snat] in Q. rewrite AT in ES by notin. apply (enabled_full b cf ($ "ENABLE_IPT_SNAT") sn ltac:(cbn; tauto) ES). exact Q. }
    split; [apply (R 4%nat _ _ _ (or_intror (or_intror (or_intror (or_intror (or_introl eq_refl)))))); exact M|].
    apply (R 5%nat _ _ _ (or_intror (or_intror (or_intror (or_intror (or_intror (or_introl eq_refl))))))); exact M.
Qed.

(** ** The policy *)
Lemma last_slash d : d <> [] -> beq (last d x00) "/"%byte = true -> exists x, d = x ++ $ "/".
Proof. intros N E. apply beq_eq in E. exists (removelast d). rewrite (app_removelast_last x00 N) at 1. now rewrite E. Qed.
Lemma run_path_at name d : d <> [] -> zlen d <= 1000 -> zlen name <= 20 -> exists p, run_path name d = Ok p /\ in_dir d name p.
Proof.
  intros N L M. unfold run_path. cbv zeta. change (MAX_PATH_LEN - 1) with 1023. rewrite (ztake_all 1023 d) by lia. destruct d as [|c r]; [congruence|]. set (d := c :: r) in *. clearbody d.
  destruct (beq (last d x00) "/"%byte) eqn:E.
  - eexists. split; [reflexivity|]. rewrite ztake_all by (rewrite zlen_app; lia). left. destruct (last_slash d N E) as [x X]. exists x. auto.
  - eexists. split; [reflexivity|]. rewrite (ztake_all 1023 (d ++ $ "/")) by (rewrite zlen_app; change (zlen ($ "/")) with 1; lia).
    rewrite ztake_all by (rewrite !zlen_app; change (zlen ($ "/")) with 1; lia). right. split; [|now rewrite <- app_assoc].
    intros x ->. change ($ "/") with ["/"%byte] in E. rewrite last_last in E. discriminate.
Qed.
Lemma options_derived b cf cf' ns : validate_options b cf = Goes (cf', ns) ->
  (exists v, cf' ($ "ENABLE_SPA_PACKET_AGING") = Some v /\ says_or cf ($ "ENABLE_SPA_PACKET_AGING") (match cf ($ "PCAP_FILE") with None => $ "Y" | Some _ => $ "N" end) v) /\
  run_file b cf cf' ($ "FWKNOP_PID_FILE") ($ "fwknopd.pid") /\ run_file b cf cf' ($ "DIGEST_FILE") ($ "digest.cache").
Proof.
  unfold validate_options. cbv zeta.
  destruct (set_path ($ "FWKNOP_PID_FILE") _ _) as [cf1| |] eqn:E1; cbn [rrun]; try discriminate.
  destruct (set_path ($ "DIGEST_FILE") _ _) as [cf2| |] eqn:E2; cbn [rrun]; try discriminate.
  set (cf3 := set_default _ _ cf2). unfold entry. destruct (cf3 ($ "ENABLE_IPT_SNAT")) as [sn|]; cbn [rrun]; [|discriminate].
  destruct (yes sn && _); [discriminate|].
  destruct (check_chain_settings chain_settings cf3) as [[]| |]; cbn [rrun]; try discriminate.
  destruct (validate_int_var_ranges cf3) as [[ns'|]|]; cbn [of_outcome rrun]; try discriminate.
  destruct (cf3 ($ "FIREWALL_EXE")); [|discriminate]. intros X. injection X as <- _. set (cf0 := set_defaults (defaults b) cf) in *.
  assert (A0 : forall n, cf0 n = match cf n with Some v => Some v | None => assoc n (defaults b) end) by (intros n; apply set_defaults_at). clearbody cf0.
  assert (RD : exists d, cf0 ($ "FWKNOP_RUN_DIR") = Some d /\ says_or cf ($ "FWKNOP_RUN_DIR") (b_run_dir b) d).
  { rewrite A0. unfold says_or. destruct (cf ($ "FWKNOP_RUN_DIR")) as [d|]; eexists; split; [reflexivity|left; reflexivity|reflexivity|right; split; reflexivity]. }
  assert (PATH : forall n name ca cb, zlen name <= 20 -> cf0 n = cf n -> ca n = cf0 n -> ca ($ "FWKNOP_RUN_DIR") = cf0 ($ "FWKNOP_RUN_DIR") -> set_path n name ca = Goes cb ->
    (forall v, cf n = Some v -> cb n = Some v) /\
    (cf n = None -> forall d, says_or cf ($ "FWKNOP_RUN_DIR") (b_run_dir b) d -> zlen d <= 1000 -> exists p, cb n = Some p /\ in_dir d name p)).
  { intros n name ca cb LN C0 CA CR SP. unfold set_path in SP. rewrite CA, CR, C0 in SP. split.
    - intros v E. rewrite E in SP. injection SP as <-. now rewrite CA, C0.
    - intros E d SO LD. rewrite E in SP. destruct RD as (d' & ED & SO'). rewrite ED in SP.
      assert (d' = d) by (destruct SO as [X|[X Y]], SO' as [X'|[X' Y']]; congruence). subst d'.
      destruct d as [|c r]; [discriminate SP|]. destruct (run_path_at name (c :: r) ltac:(discriminate) LD LN) as (p & RP & ID). rewrite RP in SP. cbn [of_outcome rrun] in SP. injection SP as <-.
      exists p. split; [|exact ID]. rewrite set_entry_at, (proj2 (bseq_eq n n) eq_refl). reflexivity. }
  assert (H1 : forall m, m <> $ "FWKNOP_PID_FILE" -> cf1 m = cf0 m).
  { intros m N. apply (set_path_at _ _ _ _ m E1). apply Bool.not_true_iff_false. intros E. apply bseq_eq in E. contradiction. }
  assert (H2 : forall m, m <> $ "DIGEST_FILE" -> cf2 m = cf1 m).
  { intros m N. apply (set_path_at _ _ _ _ m E2). apply Bool.not_true_iff_false. intros E. apply bseq_eq in E. contradiction. }
  split; [|split].
  - unfold cf3. rewrite set_default_at, (proj2 (bseq_eq _ _) eq_refl), !H2, !H1, !A0 by discriminate. unfold says_or.
    change (assoc ($ "ENABLE_SPA_PACKET_AGING") (defaults b)) with (@None bytes). change (assoc ($ "PCAP_FILE") (defaults b)) with (@None bytes).
    destruct (cf ($ "ENABLE_SPA_PACKET_AGING")) as [v|]; [eauto|]. eexists. split; [reflexivity|]. right. split; [reflexivity|]. destruct (cf ($ "PCAP_FILE")); reflexivity.
  - unfold run_file, cf3. rewrite set_default_at. change (bseq ($ "FWKNOP_PID_FILE") ($ "ENABLE_SPA_PACKET_AGING")) with false. cbv iota. rewrite H2 by discriminate.
    apply (PATH _ _ cf0 cf1); try reflexivity; [discriminate| |exact E1]. rewrite A0. destruct (cf ($ "FWKNOP_PID_FILE")); reflexivity.
  - unfold run_file, cf3. rewrite set_default_at. change (bseq ($ "DIGEST_FILE") ($ "ENABLE_SPA_PACKET_AGING")) with false. cbv iota.
    apply (PATH _ _ cf1 cf2); [discriminate| | | |exact E2]; [|apply H1; discriminate|apply H1; discriminate]. rewrite A0. destruct (cf ($ "DIGEST_FILE")); reflexivity.
Qed.
