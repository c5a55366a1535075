(** Properties of saving the options of the client: what is saved is what counts in the next run. *)
From Verif Require Import Bytes M_accfile M_base64 M_util M_message M_codec M_cipher M_ctx M_access M_replay M_cycle M_incoming M_conf M_codec M_client M_send
  S_base64 S_text S_codec S_cipher S_ctx S_access S_cycle S_incoming S_conf S_accfile S_client S_send T_codec T_client M_rc S_rc P_bytes P_rc2 P_rc5 P_rc6 P_rc9 P_rc10 P_rc15 T_rc T_rcsave.
From Coq Require Import Init.Byte List ZArith Bool Lia.
Import ListNotations.
Open Scope Z_scope.

(** ** C75 Saved settings *)
(** The options are saved in a stanza; a run that asks for this stanza then starts, has the same
    settings, and makes the same packet and sends it the same way.
    Missing for the full property: the options that are not [savable], large numbers, values that
    are not one word, and an offset or the name of the default stanza, see below. *)
Theorem C75_back_partial : forall ask lines args o m new, plain_lines lines ->
  (forall a, In a args -> savable (fst a) = true /\ zlen (snd a) <= 65535) -> (exists v, In (O_save_rc_stanza, v) args) -> (exists v, In (O_force_stanza, v) args) ->
  config_init (Some (file (lines ++ [[]]))) args = Ok (Some (o, m)) ->
  let name := txt o t_stanza in
  stanza_word name -> name <> [] -> zlen name <= 1020 -> ~ same_name name ($ "default") -> ~ twice name lines ->
  Forall (fun e => one_word (snd e)) (saved o m) -> num o q_timeout <= 65536 ->
  0 <= num o q_plus <= 65536 -> 0 <= num o q_minus <= 65536 -> num o q_plus = 0 \/ num o q_minus = 0 ->
  (forall d, stanza ($ "default") false lines d -> ~ mentioned d ($ "TIME_OFFSET")) ->
  ((exists v, In (O_v, v) args) -> 1 <= num o q_verbose <= 4) -> ~ same_name (ztake 7 (txt o t_ip)) ($ "resolve") ->
  save_text ask o m (file (lines ++ [[]])) = (new, true) ->
  exists o' m', config_init (Some new) [(O_n, name)] = Ok (Some (o', m')) /\ same_settings o o' /\
    to_route o' = to_route o /\ forall files p1 p2 ip, to_options files p1 p2 ip o' = to_options files p1 p2 ip o.
Proof.
  intros ask lines args o m new (LO & SI & NH) SL SV (fv & FO) E name SW NN NL ND T OW TI PL MI ONE NO VB LU SAVE.
  assert (F1 : is_set o q_force = true).
  { destruct (config_parts (Some (file (lines ++ [[]]))) (lines ++ [[]]) args o m) as (r & o1 & o2 & RS & TR & _ & M1 & MV & CH & GC); auto using last_line_ok, last_simple.
    { intros l I. apply in_app_or in I as [I|[<-|[]]]; [now apply NH|]. intros (C & _). apply C. left. reflexivity. }
    assert (S1 : switch (turned_on (r ++ command args) ($ "--force-stanza")) (num o q_force)).
    { eapply set_switch; eauto. unfold switches. cbn [In]. tauto. }
    assert (TO : turned_on (r ++ command args) ($ "--force-stanza")).
    { left. apply in_or_app. right. unfold command. rewrite in_concat. exists (means (O_force_stanza, fv)). split; [now apply in_map|]. now left. }
    unfold is_set. destruct S1 as [[_ ->]|[N _]]; [reflexivity|contradiction]. }
  assert (LU' : looked_up o = false). { apply Bool.not_true_is_false. intros Q. apply looked_up_iff in Q. exact (LU Q). }
  destruct SW as (NB & NLF & N0 & NVT & NFF).
  destruct (save_and_read ask lines args o m new LO SI NH SL SV E T) as (o' & m' & A & ST & SN); auto.
  { split; [exact NB|]. unfold clean, simple. auto. }
  exists o', m'. split; [exact A|]. split; [split; assumption|].
  assert (TT : forall f, In f [t_server; t_access; t_command; t_nat; t_user; t_key; t_key64; t_key_file; t_hmac; t_hmac64; t_hmac_file; t_spoof_ip; t_agent; t_proxy; t_save_file] -> txt o' f = txt o f).
  { intros f I. apply ST. cbn [In] in *. intuition (subst; discriminate). }
  assert (TN : forall f, In f [q_nat_local; q_nat_port; q_nat_rand; q_timeout; q_plus; q_minus; q_mode; q_digest; q_hmac_type; q_have_key; q_have_key64; q_have_hmac; q_have_hmac64; q_use_hmac;
    q_proto; q_dport; q_sport; q_rand_port; q_icmp_type; q_icmp_code; q_test] -> num o' f = num o f).
  { intros f I. apply SN. cbn [In] in *. intuition (subst; discriminate). }
  split.
  - unfold to_route, is_set. rewrite !TT, !TN by (cbn [In]; tauto). reflexivity.
  - intros. unfold to_options, key_source_of, hmac_source_of, is_set. rewrite !TT, !TN by (cbn [In]; tauto). reflexivity.
Qed.
Print Assumptions C75_back_partial.
Definition rc2 : list bytes :=
  [ $ "# my servers"; []; $ "[default]"; $ "SPA_SERVER_PORT  62000"; $ "USE_HMAC Y ; always"; $ "DIGEST_TYPE  sha512"; $ "  [Home]";
    $ "SPA_SERVER  home.example.org"; $ "SPA_SERVER_PORT: 5000"; $ "ACCESS tcp/22"; $ "ALLOW_IP 10.1.1.3"; $ "KEY secret # not this";
    $ "[work]"; $ "SPA_SERVER work.example.org" ].
Definition save_args1 : list arg := [(O_save_rc_stanza, []); (O_force_stanza, []); (O_n, $ "HOME"); (O_D, $ "10.2.2.2"); (O_A, $ "tcp/8080"); (O_a, $ "10.1.1.4"); (O_key_rijndael, $ "newkey");
  (O_key_base64_hmac, $ "aGVsbG8="); (O_hmac_digest_type, $ "SHA512"); (O_f, $ "3600"); (O_time_minus, $ "2m"); (O_p, $ "4000"); (O_P, $ "tcp"); (O_nat_local, []); (O_v, []); (O_v, [])].
(** The settings of the sample are saved and found again. *)
Example C75_ex : plain_lines rc2 /\ exists o m new, config_init (Some (file (rc2 ++ [[]]))) save_args1 = Ok (Some (o, m)) /\ save_text no o m (file (rc2 ++ [[]])) = (new, true) /\
  exists o' m', config_init (Some new) [(O_n, $ "HOME")] = Ok (Some (o', m')) /\ same_settings o o' /\ num o' q_minus = 120 /\ num o' q_timeout = 3600 /\ num o' q_hmac_type = 5 /\ txt o' t_hmac64 = $ "aGVsbG8=".
Proof.
  assert (PL : plain_lines rc2) by (apply plainb_ok; vm_compute; reflexivity). split; [exact PL|].
  set (P := fun (o : copts) (m : mask) => let '(new, go) := save_text no o m (file (rc2 ++ [[]])) in go && bseq (txt o t_stanza) ($ "HOME") && forallb (fun e => wordb (snd e)) (saved o m) &&
    (num o q_timeout =? 3600) && (num o q_plus =? 0) && (num o q_minus =? 120) && (num o q_verbose =? 2) && bseq (txt o t_ip) ($ "10.1.1.4") && (num o q_hmac_type =? 5) && bseq (txt o t_hmac64) ($ "aGVsbG8=")).
  assert (X : match config_init (Some (file (rc2 ++ [[]]))) save_args1 with Ok (Some (o, m)) => P o m | _ => false end = true) by (vm_compute; reflexivity).
  destruct (config_init (Some (file (rc2 ++ [[]]))) save_args1) as [[[o m]|]|] eqn:E; try discriminate X. unfold P in X. destruct (save_text no o m (file (rc2 ++ [[]]))) as [new go] eqn:SV.
  rewrite !andb_true_iff, !Z.eqb_eq, !bseq_eq in X. destruct X as (((((((((-> & N) & W) & TI) & PLU) & MI) & VB) & IP) & HT) & HK).
  exists o, m, new. split; [reflexivity|]. split; [exact SV|].
  destruct (C75_back_partial no rc2 save_args1 o m new) as (o' & m' & A & B & _); auto; rewrite ?N.
  - intros a I. unfold save_args1 in I. cbn [In] in I. repeat (destruct I as [<-|I]; [split; [reflexivity|vm_compute; discriminate]|]). contradiction.
  - exists []. now left.
  - exists []. right. now left.
  - split; [intros Q; vm_compute in Q; intuition discriminate|]. repeat split; intros Q; vm_compute in Q; intuition discriminate.
  - discriminate.
  - vm_compute. discriminate.
  - vm_compute. discriminate.
  - apply twiceb. vm_compute. lia.
  - apply Forall_forall. intros e I. rewrite forallb_forall in W. now apply wordb_ok, W.
  - lia.
  - lia.
  - lia.
  - intros d SD (v & I). destruct (stanza_in _ _ _ _ SD _ _ I) as (l & J & S). destruct (sets_rc_param _ _ _ S) as [_ R].
    { destruct PL as (LO & _). rewrite Forall_forall in LO. apply (LO l J). }
    unfold rc2 in J. cbn [In] in J. repeat (destruct J as [<-|J]; [vm_compute in R; discriminate R|]). contradiction.
  - lia.
  - rewrite IP. vm_compute. discriminate.
  - exists o', m'. split; [now rewrite N in A|]. split; [exact B|]. destruct B as [BT BN]. rewrite !BN, BT by (cbn [In]; intuition discriminate). auto.
Qed.

(** What does not survive *)
Definition refused (rc : bytes) (args args2 : list arg) : bool :=
  match config_init (Some rc) args with
  | Ok (Some (o, m)) => let '(new, go) := save_text no o m rc in go && match config_init (Some new) args2 with Ok None => true | _ => false end
  | _ => false
  end.
Lemma refused_ok rc args args2 : refused rc args args2 = true -> exists o m new, config_init (Some rc) args = Ok (Some (o, m)) /\ save_text no o m rc = (new, true) /\ config_init (Some new) args2 = Ok None.
Proof.
  unfold refused. destruct (config_init (Some rc) args) as [[[o m]|]|]; try discriminate. destruct (save_text no o m rc) as [new [|]] eqn:E; [|discriminate].
  cbn [andb]. destruct (config_init (Some new) args2) as [[p|]|] eqn:E'; try discriminate. intros _. exists o, m, new. auto.
Qed.
Definition base : list arg := [(O_save_rc_stanza, []); (O_n, $ "home"); (O_D, $ "10.2.2.2"); (O_A, $ "tcp/8080"); (O_a, $ "10.1.1.4")].
(** A timeout of more than 65536 seconds is accepted with -f and saved, and then refused in the
    rc file. *)
Theorem C75_timeout_refuted : exists o m new, config_init (Some (file [[]])) (base ++ [(O_f, $ "70000")]) = Ok (Some (o, m)) /\ save_text no o m (file [[]]) = (new, true) /\
  config_init (Some new) [(O_n, $ "home")] = Ok None.
Proof. apply refused_ok. vm_compute. reflexivity. Qed.
Print Assumptions C75_timeout_refuted.
(** A time offset of 0 is saved as nothing, and the stanza is refused. *)
Theorem C75_zero_offset_refuted : exists o m new, config_init (Some (file [[]])) (base ++ [(O_time_plus, $ "0")]) = Ok (Some (o, m)) /\ save_text no o m (file [[]]) = (new, true) /\
  config_init (Some new) [(O_n, $ "home")] = Ok None.
Proof. apply refused_ok. vm_compute. reflexivity. Qed.
Print Assumptions C75_zero_offset_refuted.
(** A time offset of one day is saved in seconds, which are too many for the rc file. *)
Theorem C75_offset_refuted : exists o m new, config_init (Some (file [[]])) (base ++ [(O_time_plus, $ "1d")]) = Ok (Some (o, m)) /\ save_text no o m (file [[]]) = (new, true) /\
  config_init (Some new) [(O_n, $ "home")] = Ok None.
Proof. apply refused_ok. vm_compute. reflexivity. Qed.
Print Assumptions C75_offset_refuted.
(** Five times -v is accepted and saved as VERBOSE 5, which is refused. *)
Theorem C75_verbose_refuted : exists o m new, config_init (Some (file [[]])) (base ++ [(O_v, []); (O_v, []); (O_v, []); (O_v, []); (O_v, [])]) = Ok (Some (o, m)) /\ save_text no o m (file [[]]) = (new, true) /\
  config_init (Some new) [(O_n, $ "home")] = Ok None.
Proof. apply refused_ok. vm_compute. reflexivity. Qed.
Print Assumptions C75_verbose_refuted.
(** With -s the address 0.0.0.0 is not saved: the stanza cannot be used. *)
Theorem C75_source_refuted : exists o m new, config_init (Some (file [[]])) [(O_save_rc_stanza, []); (O_n, $ "home"); (O_D, $ "10.2.2.2"); (O_A, $ "tcp/8080"); (O_s, [])] = Ok (Some (o, m)) /\
  save_text no o m (file [[]]) = (new, true) /\ config_init (Some new) [(O_n, $ "home")] = Ok None.
Proof. apply refused_ok. vm_compute. reflexivity. Qed.
Print Assumptions C75_source_refuted.
(** A key with a hash sign or a semicolon is cut there when it is read back. *)
Theorem C75_word_refuted : exists o m new, config_init (Some (file [[]])) (base ++ [(O_key_rijndael, $ "long;secret")]) = Ok (Some (o, m)) /\ save_text no o m (file [[]]) = (new, true) /\
  exists o' m', config_init (Some new) [(O_n, $ "home")] = Ok (Some (o', m')) /\ txt o t_key = $ "long;secret" /\ txt o' t_key = $ "long".
Proof. two (file [[]]) (base ++ [(O_key_rijndael, $ "long;secret")]) [(O_n, $ "home")] (fun o o' => bseq (txt o t_key) ($ "long;secret") && bseq (txt o' t_key) ($ "long")). Qed.
Print Assumptions C75_word_refuted.
(** The file with the HMAC key becomes the one with the encryption key. *)
Theorem C75_hmac_file_refuted : exists o m new, config_init (Some (file [[]])) (base ++ [(O_get_hmac_key, $ "hk")]) = Ok (Some (o, m)) /\ save_text no o m (file [[]]) = (new, true) /\
  exists o' m', config_init (Some new) [(O_n, $ "home")] = Ok (Some (o', m')) /\ txt o t_hmac_file = $ "hk" /\ txt o' t_hmac_file = [] /\ txt o' t_key_file = $ "hk".
Proof.
  two (file [[]]) (base ++ [(O_get_hmac_key, $ "hk")]) [(O_n, $ "home")] (fun o o' => bseq (txt o t_hmac_file) ($ "hk") && bseq (txt o' t_hmac_file) [] && bseq (txt o' t_key_file) ($ "hk")).
Qed.
Print Assumptions C75_hmac_file_refuted.
(** A command for the server is not saved: the next run asks for access instead. *)
Theorem C75_command_refuted : exists o m new, config_init (Some (file [[]])) (base ++ [(O_C, $ "reboot")]) = Ok (Some (o, m)) /\ save_text no o m (file [[]]) = (new, true) /\
  exists o' m', config_init (Some new) [(O_n, $ "home")] = Ok (Some (o', m')) /\ txt o t_command = $ "reboot" /\ txt o' t_command = [].
Proof. two (file [[]]) (base ++ [(O_C, $ "reboot")]) [(O_n, $ "home")] (fun o o' => bseq (txt o t_command) ($ "reboot") && bseq (txt o' t_command) []). Qed.
Print Assumptions C75_command_refuted.
