(** * The start of the daemon from its configuration files (C80, C81) *)
From Verif Require Import Bytes S_text S_access S_conf S_incoming M_util M_access M_replay M_packet M_incoming M_conf M_fw M_accfile M_start S_fw S_fwinit S_accfile S_daemon S_start.
From Verif Require Import P_bytes P_util P_util2 P_access P_codec P_replay P_conf P_incoming2 P_incoming5 P_accfile5 P_start P_start2 P_start3.
From Coq Require Import Init.Byte List ZArith Bool Lia.
Import ListNotations.
Open Scope Z_scope.

Local Ltac ands := repeat match goal with |- _ /\ _ => split end.

(** ** C80.  The chains of the firewall are those of fwknopd.conf. *)
(** When the daemon has started, every chain that is to be used is the one its setting names, or
    the default; the others are not used.  [as_written]: names of at most 63 characters. *)
Theorem C80_chains_partial : forall b cf cf' ns fc cs,
  validate_options b cf = Goes (cf', ns) -> fw_config_init cf' = Goes (fc, cs) ->
  zlen cs = 6 /\
  (forall i n d P, In (i, n, d, P) (chain_table cf) ->
    (P -> exists v, says_or cf n d v /\ chain_shape v /\ as_written v (chain_at i cs)) /\
    (~ P -> ~ in_use (chain_at i cs))) /\
  (exists exe, cf ($ "FIREWALL_EXE") = Some exe /\ (zlen exe <= 1023 -> f_cmd fc = exe)) /\
  (f_snat fc = true <-> enabled cf ($ "ENABLE_IPT_SNAT")) /\
  (exists v, says_or cf ($ "ENABLE_DESTINATION_RULE") ($ "N") v /\ (f_use_dst fc = true <-> S_incoming.on v)) /\
  (exists v, says_or cf ($ "ENABLE_RULE_PREPEND") ($ "N") v /\ (f_prepend fc = true <-> S_incoming.on v)) /\
  (exists v, says_or cf ($ "ENABLE_NAT_DNS") ($ "Y") v /\ (f_nat_dns fc = true <-> S_incoming.on v)) /\
  (f_snat fc = true -> forall ip, cf ($ "SNAT_TRANSLATE_IP") = Some ip -> f_snat_ip fc = ip /\ exists p q r s, ipv4_text ip p q r s).
Proof.
  intros b cf cf' ns fc cs O FI. pose proof (chain_rows _ _ _ _ _ _ O FI) as CR.
  destruct (options_at _ _ _ _ O) as (AT & SH & FE & _ & SI). fold (full b cf) in AT.
  destruct (init_at _ _ _ FI) as (exe & o & f & l & sn & dd & pre & dns & c0 & c1 & c2 & c3 & c4 & c5 & EX & EO & EF & EL & ES & ED & EP & EN & EC & _ & _ & _ & _ & _ & _ & EFC).
  assert (SO : forall n d v, cf' n = Some v -> ~ In n derived -> assoc n (defaults b) = Some d -> says_or cf n d v).
  { intros n d v E N A. rewrite AT in E by exact N. destruct (cf n) as [w|] eqn:C; [left; congruence|right; split; congruence]. }
  ands.
  - rewrite EC. reflexivity.
  - intros i n d P I. destruct (CR i n d P I) as [A B]. split; [exact A|]. intros NP. rewrite (B NP). intros U. apply U. reflexivity.
  - exists exe. rewrite AT in EX by notin. split.
    + destruct (cf ($ "FIREWALL_EXE")); [exact EX|]. vm_compute in EX. discriminate.
    + intros L. rewrite EFC. cbn [f_cmd]. apply ztake_all. exact L.
  - rewrite EFC. cbn [f_snat]. rewrite AT in ES by notin. rewrite (enabled_full b cf ($ "ENABLE_IPT_SNAT") sn ltac:(cbn; tauto) ES). tauto.
  - exists dd. split; [apply SO; [exact ED|notin|reflexivity]|]. rewrite EFC. apply yes_on.
  - exists pre. split; [apply SO; [exact EP|notin|reflexivity]|]. rewrite EFC. apply yes_on.
  - exists dns. split; [apply SO; [exact EN|notin|reflexivity]|]. rewrite EFC. apply yes_on.
  - rewrite EFC. cbn [f_snat f_snat_ip]. intros Y ip E. assert (E2 : cf' ($ "SNAT_TRANSLATE_IP") = Some ip) by (rewrite AT by notin; rewrite E; reflexivity).
    rewrite E2. split; [reflexivity|]. assert (V : is_valid_ipv4_addr ip (zlen ip) = true) by (apply SI; [rewrite ES; exact Y|exact E2]).
    apply is_valid_ipv4_iff in V; [|pose proof (zlen_nonneg ip); lia]. destruct V as [LV T]. rewrite ztake_all in T by lia. exact T.
Qed.
Print Assumptions C80_chains_partial.

(** Each setting has the value given, or its documented default. *)
Theorem C80_defaults : forall b cf cf' ns n d, validate_options b cf = Goes (cf', ns) -> In (n, d) documented ->
  exists v, says_or cf n d v /\ cf' n = Some v.
Proof.
  intros b cf cf' ns n d O I. destruct (options_at _ _ _ _ O) as (A & _).
  assert (ND : ~ In n derived /\ assoc n (defaults b) = Some d).
  { unfold documented in I. cbn [In] in I.
    repeat match type of I with (_ \/ _) => destruct I as [I|I]; [injection I as <- <-; split; [intros X; repeat (destruct X as [X|X]; [discriminate X|]); destruct X|reflexivity]|] end. destruct I. }
  destruct ND as [ND AS]. rewrite (A n ND). unfold full, says_or. rewrite AS. destruct (cf n) as [v|]; eexists; split; eauto.
Qed.
Print Assumptions C80_defaults.

(** The daemon starts with settings that are in order. *)
Theorem C80_accepted : forall b cf, build_ok b -> config_ok cf [ ($ "PCAP_LOOP_SLEEP", 1, 8388608); ($ "PCAP_DISPATCH_COUNT", 1, 8388608);
    ($ "MAX_SPA_PACKET_AGE", 1, 100000); ($ "MAX_SNIFF_BYTES", 1, 32768); ($ "RULES_CHECK_THRESHOLD", 0, 131071); ($ "TCPSERV_PORT", 1, 131071);
    ($ "UDPSERV_PORT", 1, 131071); ($ "UDPSERV_SELECT_TIMEOUT", 1, 8388608) ] ->
  exists cf' ns fc cs, validate_options b cf = Goes (cf', ns) /\ fw_config_init cf' = Goes (fc, cs).
Proof.
  intros b cf B C. destruct (options_accept b cf B C) as (cf' & ns & O). destruct (init_accept _ _ _ _ C O) as (fc & cs & I). eauto 7.
Qed.
Print Assumptions C80_accepted.

(** It does not start with a chain setting that has another character than letters, digits,
    underscores, spaces and commas, or not six fields. *)
Theorem C80_refused : forall b cf i n d P v, build_ok b -> cf ($ "FWKNOP_RUN_DIR") <> Some [] ->
  In (i, n, d, P) (chain_table cf) -> says_or cf n d v -> ~ chain_shape v -> validate_options b cf = Ends.
Proof.
  intros b cf i n d P v B R I SO NS. apply (options_refuse b cf n v); auto; [eapply row_setting; eauto|eapply row_full; eauto].
Qed.
Print Assumptions C80_refused.

(** Whatever the files say, there is no undefined behaviour until the chains are set, if the
    arguments of the options are not empty and the configuration file does not name itself. *)
Theorem C80_safe : forall b files l, build_ok b -> Forall (fun x => opt_text x <> Some []) l ->
  (forall s, files (config_name b l) = Some s -> ~ occurs ($ "CONFIG_FILE") s) ->
  config_init b files l <> Wrong /\
  forall cf, config_init b files l = Goes cf ->
    validate_options b cf <> Wrong /\
    forall cf' ns, validate_options b cf = Goes (cf', ns) -> fw_config_init cf' <> Wrong.
Proof.
  intros b files l B F N. destruct (config_init_safe b files l B F N) as [W V]. split; [exact W|]. intros cf E. pose proof (V cf E) as VA. split.
  - apply options_safe; [exact B|]. intros X. destruct (VA _ _ X) as [X2 _]. congruence.
  - intros cf' ns O. exact (init_safe b cf cf' ns VA O).
Qed.
Print Assumptions C80_safe.

(** *** Examples *)
Lemma goes_with {A} (r : progress A) (P : A -> Prop) : match r with Goes a => P a | _ => False end -> exists a, r = Goes a /\ P a.
Proof. destruct r; intros H; [eauto|contradiction|contradiction]. Qed.
Definition b0 : build := mkBuild ($ "/etc/fwknop/fwknopd.conf") ($ "/etc/fwknop") ($ "/etc/fwknop/access.conf") ($ "/var/run/fwknop")
  ($ "/sbin/iptables") ($ "/usr/bin/gpg") ($ "/usr/bin/sudo").
Definition with_entry (n v : bytes) : config := set_entry n v (set_entry ($ "FIREWALL_EXE") ($ "/sbin/iptables") (fun _ => None)).
Lemma b0_ok : build_ok b0. Proof. unfold build_ok; ands; discriminate. Qed.
(** What the start makes of one setting *)
Definition chains_of (n v : bytes) : option (list chain) :=
  match validate_options b0 (with_entry n v) with
  | Goes (cf, _) => match fw_config_init cf with Goes (_, cs) => Some cs | _ => None end
  | _ => None
  end.
Lemma spaces n : Forall (eq " "%byte) (repeat " "%byte n). Proof. induction n; cbn; auto. Qed.
Lemma pad f n : padded f (repeat " "%byte n ++ f).
Proof. exists (repeat " "%byte n), []. ands; [now rewrite app_nil_r|apply spaces|constructor]. Qed.
Lemma name_lit f : forallb (fun c => beq c "_"%byte || isalnum c) f = true -> name_text f.
Proof.
  intros H. rewrite forallb_forall in H. apply Forall_forall. intros c I. apply H in I. apply orb_true_iff in I.
  destruct I as [I|I]; [right; now apply beq_eq|left; now apply isalnum_lod].
Qed.
Lemma one_int : integer_text ($ "1") 1.
Proof.
  exists [], ($ "1"). split; [reflexivity|]. split; [constructor|]. split; [vm_compute; intuition congruence|]. right; right.
  split; [discriminate|]. split; [discriminate|]. exists ($ "1"), []. split; [reflexivity|]. split; [repeat constructor; vm_compute; congruence|]. split; [left; reflexivity|reflexivity].
Qed.
Lemma line_lit target table from to v : v = join ($ ",") (target :: map (fun f => $ " " ++ f) [table; from; $ "1"; to; $ "1"]) ->
  forallb (forallb (fun c => beq c "_"%byte || isalnum c)) [target; table; from; to] = true -> chain_line v target table from 1 to.
Proof.
  intros -> H. cbn [forallb] in H. rewrite !andb_true_iff in H. destruct H as (A & B & C & D & _).
  exists (target :: map (fun f => $ " " ++ f) [table; from; $ "1"; to; $ "1"]), ($ "1"), ($ "1"), 1. ands; try lia; try exact one_int.
  - reflexivity.
  - apply Forall2_cons; [exact (pad target 0)|]. cbn [map]. repeat (apply Forall2_cons; [exact (pad _ 1)|]). apply Forall2_nil.
  - repeat (apply Forall_cons; [apply name_lit; first [assumption|reflexivity]|]). apply Forall_nil.
Qed.
Definition in_drop := $ "DROP, filter, INPUT, 1, SPA_IN, 1".
Lemma in_drop_line : chain_line in_drop ($ "DROP") ($ "filter") ($ "INPUT") 1 ($ "SPA_IN").
Proof. apply line_lit; reflexivity. Qed.
Example C80_accepted_ex : config_ok (with_entry ($ "IPT_INPUT_ACCESS") in_drop) int_vars.
Proof.
  unfold config_ok. ands.
  - intros i n d P v I S. unfold chain_table in I. cbn [In] in I.
    destruct I as [I|[I|[I|[I|[I|[I|[]]]]]]]; injection I as <- <- <- <-; destruct S as [S|[S ->]]; vm_compute in S; try discriminate S.
    + injection S as <-. split; [vm_compute; discriminate|]. do 5 eexists. exact in_drop_line.
    + split; [vm_compute; discriminate|]. exists ($ "ACCEPT"), ($ "filter"), ($ "OUTPUT"), 1, ($ "FWKNOP_OUTPUT"). apply line_lit; reflexivity.
    + split; [vm_compute; discriminate|]. exists ($ "ACCEPT"), ($ "filter"), ($ "FORWARD"), 1, ($ "FWKNOP_FORWARD"). apply line_lit; reflexivity.
    + split; [vm_compute; discriminate|]. exists ($ "DNAT"), ($ "nat"), ($ "PREROUTING"), 1, ($ "FWKNOP_PREROUTING"). apply line_lit; reflexivity.
    + split; [vm_compute; discriminate|]. exists ($ "SNAT"), ($ "nat"), ($ "POSTROUTING"), 1, ($ "FWKNOP_POSTROUTING"). apply line_lit; reflexivity.
    + split; [vm_compute; discriminate|]. exists ($ "MASQUERADE"), ($ "nat"), ($ "POSTROUTING"), 1, ($ "FWKNOP_MASQUERADE"). apply line_lit; reflexivity.
  - intros n lo hi I. left. unfold int_vars in I. cbn [In] in I. repeat (destruct I as [I|I]; [injection I as <- <- <-; reflexivity|]). contradiction.
  - intros _ ip E. vm_compute in E. discriminate.
  - discriminate.
  - discriminate.
Qed.
Example C80_chains_ex : exists cs, chains_of ($ "IPT_INPUT_ACCESS") in_drop = Some cs /\
  chain_at 0 cs = mkChain ($ "DROP") ($ "filter") ($ "INPUT") 1 ($ "SPA_IN") 0 0 /\ ~ in_use (chain_at 2 cs) /\
  exists cs2, chains_of ($ "ENABLE_IPT_FORWARDING") ($ "Y") = Some cs2 /\
    chain_at 3 cs2 = mkChain ($ "DNAT") ($ "nat") ($ "PREROUTING") 1 ($ "FWKNOP_PREROUTING") 0 0.
Proof.
  eexists. ands; [vm_compute; reflexivity|reflexivity|intros U; apply U; reflexivity|]. eexists. split; vm_compute; reflexivity.
Qed.
Example C80_refused_ex : ~ chain_shape ($ "ACCEPT, filter, INPUT; reboot, 1, FWKNOP_INPUT, 1") /\
  chains_of ($ "IPT_INPUT_ACCESS") ($ "ACCEPT, filter, INPUT; reboot, 1, FWKNOP_INPUT, 1") = None.
Proof. split; [|vm_compute; reflexivity]. rewrite <- validate_iff. vm_compute. discriminate. Qed.
Definition file0 : bytes := S_conf.file [$ "# fwknopd.conf"; $ "IPT_INPUT_ACCESS DROP, filter, INPUT, 1, SPA_IN, 1;"].
Definition files0 : bytes -> option bytes := fun n => if bseq n ($ "/etc/fwknop/fwknopd.conf") then Some file0 else None.
Lemma never p s : existsb (fun i => is_prefix p (skipn i s)) (seq 0 (S (length s))) = false -> ~ occurs p s.
Proof.
  intros H (a & c & ->). apply Bool.not_true_iff_false in H. apply H. apply existsb_exists. exists (length a). split.
  - apply in_seq. rewrite !app_length. lia.
  - rewrite skipn_app, skipn_all, Nat.sub_diag. cbn [app skipn]. clear. induction p as [|x p IH]; [reflexivity|]. cbn. now rewrite (proj2 (beq_eq x x) eq_refl).
Qed.
Example C80_safe_ex : (forall s, files0 (config_name b0 []) = Some s -> ~ occurs ($ "CONFIG_FILE") s) /\
  exists cf, config_init b0 files0 [] = Goes cf /\ cf ($ "IPT_INPUT_ACCESS") = Some in_drop.
Proof.
  split.
  - intros s E. vm_compute in E. injection E as <-. apply never. vm_compute. reflexivity.
  - apply (goes_with _ (fun cf => cf ($ "IPT_INPUT_ACCESS") = Some in_drop)). vm_compute. reflexivity.
Qed.

(** *** Refutations *)
(** C80 as stated does not hold: a chain setting whose target is empty is accepted, and the chain
    is not used: the daemon runs without it. *)
Theorem C80_target_refuted : exists v cs, chains_of ($ "IPT_INPUT_ACCESS") v = Some cs /\
  chain_line v [] ($ "filter") ($ "INPUT") 1 ($ "FWKNOP_INPUT") /\ ~ in_use (chain_at 0 cs).
Proof.
  exists ($ ", filter, INPUT, 1, FWKNOP_INPUT, 1"). eexists. ands; [vm_compute; reflexivity|apply line_lit; reflexivity|].
  intros U. apply U. reflexivity.
Qed.
Print Assumptions C80_target_refuted.

(** C80 as stated does not hold: a jump position that is no number is accepted as 0, a position
    that iptables does not know. *)
Theorem C80_position_refuted : exists cs, chains_of ($ "IPT_INPUT_ACCESS") ($ "ACCEPT, filter, INPUT, first, FWKNOP_INPUT, 1") = Some cs /\
  c_jump (chain_at 0 cs) = 0 /\ in_use (chain_at 0 cs).
Proof. eexists. ands; [vm_compute; reflexivity|reflexivity|discriminate]. Qed.
Print Assumptions C80_position_refuted.

(** C80 as stated does not hold: of a name, 63 characters are used. *)
Theorem C80_cut_refuted : exists v to cs, chain_line v ($ "ACCEPT") ($ "filter") ($ "INPUT") 1 to /\
  chains_of ($ "IPT_INPUT_ACCESS") v = Some cs /\ c_to (chain_at 0 cs) <> to.
Proof.
  exists ($ "ACCEPT, filter, INPUT, 1, " ++ repeat "F"%byte 64 ++ $ ", 1"), (repeat "F"%byte 64). eexists. ands.
  - apply line_lit; vm_compute; reflexivity.
  - vm_compute. reflexivity.
  - vm_compute. discriminate.
Qed.
Print Assumptions C80_cut_refuted.

(** C80 as stated does not hold: with an empty run directory the character before the beginning
    of an array is read. *)
Theorem C80_run_dir_refuted : exists cf, config_init b0 files0 [Opt_set ($ "FWKNOP_RUN_DIR") []] = Goes cf /\ validate_options b0 cf = Wrong.
Proof. apply (goes_with _ (fun cf => validate_options b0 cf = Wrong)). vm_compute. reflexivity. Qed.
Print Assumptions C80_run_dir_refuted.

(** ** C81.  The order of the configuration files and options *)
(** With -O, or without -c: the lines of the configuration file count, then those of the override
    files in their order, then the options; the last of them wins. *)
Theorem C81_files_partial : forall b files l lines0 o names liness, ~ In Opt_bad l ->
  (exists f, In (Opt_O f) l) \/ (forall f, ~ In (Opt_c f) l) ->
  plain_file files (config_name b l) lines0 -> (forall x v, In x lines0 -> ~ gives x ($ "CONFIG_FILE") v) ->
  settles lines0 ($ "OVERRIDE_CONFIG") (overrides l) o ->
  match o with None => names = [] | Some t => zlen t <= 1023 /\ listed t names end ->
  Forall2 (plain_file files) names liness ->
  (forall x v, In x (lines0 ++ List.concat liness) -> gives x ($ "VERBOSE") v -> exists y, integer_text v y /\ 0 <= y < 2147483648) ->
  exists cf, config_init b files l = Goes cf /\
    (forall n, In n config_map -> ~ In n [$ "CONFIG_FILE"; $ "OVERRIDE_CONFIG"; $ "FIREWALL_EXE"] ->
       exists said, settles (lines0 ++ List.concat liness) n None said /\
         (In n option_entries -> stored l n said (cf n)) /\ (~ In n option_entries -> cf n = said)) /\
    settles (lines0 ++ List.concat liness) ($ "FIREWALL_EXE") (Some (b_firewall_exe b)) (cf ($ "FIREWALL_EXE")) /\
    (forall n, ~ In n config_map -> cf n = None).
Proof.
  intros b files l lines0 o names liness NB OC P NC SO LI F V. rewrite <- (override_given l OC) in SO.
  destruct (init_files b files l lines0 o names liness NB P NC SO LI F V) as (cf & E & A & B). exists cf. ands; [exact E| | |exact B].
  - intros n I J. destruct (A n I) as (old & S1 & S2). exists old. split; [|exact S2].
    rewrite before_plain in S1; [exact S1| | |]; intros ->; apply J; cbn; auto.
  - destruct (A ($ "FIREWALL_EXE") ltac:(vm_compute; tauto)) as (old & S1 & _ & S2). rewrite S2 by notin.
    rewrite before_other, scan_opts_at in S1 by discriminate. exact S1.
Qed.
Print Assumptions C81_files_partial.

(** With -c alone the file is read twice; if its lines stand for themselves this changes nothing. *)
Theorem C81_config_option_partial : forall b files f lines, zlen f <= 1023 -> ~ In ","%byte f ->
  plain_file files f lines -> (forall x v, In x lines -> ~ gives x ($ "CONFIG_FILE") v /\ ~ gives x ($ "OVERRIDE_CONFIG") v) ->
  (forall x v, In x lines -> gives x ($ "VERBOSE") v -> exists y, integer_text v y /\ 0 <= y < 2147483648) ->
  exists cf, config_init b files [Opt_c f] = Goes cf /\
    (forall n, In n config_map -> ~ In n [$ "CONFIG_FILE"; $ "OVERRIDE_CONFIG"; $ "FIREWALL_EXE"] -> settles lines n None (cf n)) /\
    (forall n, ~ In n config_map -> cf n = None).
Proof.
  intros b files f lines L NC P NG V.
  destruct (init_files b files [Opt_c f] lines (Some f) [f] [lines]) as (cf & E & A & B).
  - intros [X|[]]. discriminate.
  - exact P.
  - intros x v I. apply NG, I.
  - right. split; [|reflexivity]. intros x v I. apply NG, I.
  - split; [exact L|]. split; [reflexivity|]. split; [discriminate|]. repeat constructor. exact NC.
  - repeat constructor; apply P.
  - intros x v I. cbn [List.concat] in I. rewrite app_nil_r in I. apply in_app_or in I. apply V. destruct I; assumption.
  - exists cf. ands; [exact E| |exact B]. intros n I J. destruct (A n I) as (old & S1 & S2 & S3). cbn [List.concat] in S1. rewrite app_nil_r in S1.
    rewrite before_plain in S1; [|intros ->; apply J; cbn; auto|intros ->; apply J; cbn; auto|intros ->; apply J; cbn; auto].
    apply settles_twice in S1.
    assert (X : cf n = old); [|rewrite X; exact S1].
    destruct (in_dec (list_eq_dec Byte.byte_eq_dec) n option_entries) as [IO|NO]; [|auto].
    destruct (S2 IO) as [(pre & v & post & EL & _)|[_ EQ]]; [|exact EQ]. destruct pre as [|? [|? ?]]; discriminate.
Qed.
Print Assumptions C81_config_option_partial.

(** *** Examples *)
Definition two (a c : bytes) : bytes -> option bytes := fun n =>
  if bseq n ($ "/etc/fwknop/fwknopd.conf") then Some a else if bseq n ($ "o") then Some c else if bseq n ($ "c,d") then Some a else if bseq n ($ "f") then Some a else None.
Definition l_age := $ "MAX_SPA_PACKET_AGE 60;".
Definition l_age2 := $ "MAX_SPA_PACKET_AGE 90;".
Lemma plain_lit l n val : scan_line l = Some (n, val) -> hd x00 val <> "$"%byte -> 2 <= zlen val -> rtrim val = val -> plain l.
Proof.
  intros E D L R n' v t W. rewrite (written_scan _ _ _ _ W) in E. inversion E; subst.
  assert (Q : rtrim (v ++ t) = v).
  { apply rtrim_spec; destruct W as (_ & ? & ? & ? & W); [tauto|]. eapply Forall_impl; [|apply W]. intros c [? _]; auto. }
  rewrite R in Q. assert (t = []) by (apply (app_inv_head v); now rewrite app_nil_r). subst t. rewrite app_nil_r in *. auto.
Qed.
Lemma line_ok_lit l : memb x0a l = false -> memb x00 l = false -> zlen l <= 1022 -> line_ok l.
Proof. intros A B C. unfold line_ok. ands; [| |exact C]; intros I; apply memb_In in I; congruence. Qed.
Lemma gives_lit l n v m w : scan_line l = Some (n, v) -> gives l m w -> m = n.
Proof. intros E [t W]. apply written_scan in W. congruence. Qed.
Example C81_ex : exists cf, config_init b0 (two (S_conf.file [l_age]) (S_conf.file [l_age2])) [Opt_set ($ "PCAP_INTF") ($ "eth1"); Opt_O ($ "o")] = Goes cf /\
  cf ($ "MAX_SPA_PACKET_AGE") = Some ($ "90") /\ cf ($ "PCAP_INTF") = Some ($ "eth1").
Proof.
  apply (goes_with _ (fun cf => cf ($ "MAX_SPA_PACKET_AGE") = Some ($ "90") /\ cf ($ "PCAP_INTF") = Some ($ "eth1"))). vm_compute. split; reflexivity.
Qed.
Example C81_hyps_ex : let files := two (S_conf.file [l_age]) (S_conf.file [l_age2]) in
  plain_file files (config_name b0 [Opt_O ($ "o")]) [l_age] /\ plain_file files ($ "o") [l_age2] /\ listed ($ "o") [$ "o"] /\
  settles [l_age] ($ "OVERRIDE_CONFIG") (overrides [Opt_O ($ "o")]) (Some ($ "o")) /\
  (forall x v, In x [l_age] -> ~ gives x ($ "CONFIG_FILE") v /\ ~ gives x ($ "OVERRIDE_CONFIG") v) /\
  (forall x v, In x [l_age; l_age2] -> ~ gives x ($ "VERBOSE") v) /\ plain_file files ($ "f") [l_age].
Proof.
  assert (G : forall m w, gives l_age m w -> m = $ "MAX_SPA_PACKET_AGE") by (intros m w; apply gives_lit with ($ "60"); vm_compute; reflexivity).
  assert (G2 : forall m w, gives l_age2 m w -> m = $ "MAX_SPA_PACKET_AGE") by (intros m w; apply gives_lit with ($ "90"); vm_compute; reflexivity).
  assert (OK : Forall line_ok [l_age] /\ Forall plain [l_age]).
  { split; (apply Forall_cons; [|apply Forall_nil]).
    - apply line_ok_lit; vm_compute; first [reflexivity|discriminate].
    - apply plain_lit with ($ "MAX_SPA_PACKET_AGE") ($ "60"); vm_compute; first [reflexivity|discriminate]. }
  assert (OK2 : Forall line_ok [l_age2] /\ Forall plain [l_age2]).
  { split; (apply Forall_cons; [|apply Forall_nil]).
    - apply line_ok_lit; vm_compute; first [reflexivity|discriminate].
    - apply plain_lit with ($ "MAX_SPA_PACKET_AGE") ($ "90"); vm_compute; first [reflexivity|discriminate]. }
  cbv zeta. unfold plain_file, listed. ands; try apply OK; try apply OK2; try reflexivity; try discriminate.
  - repeat constructor. intros [X|[]]. discriminate.
  - right. split; [|reflexivity]. intros x v [<-|[]] X. apply G in X. discriminate.
  - intros x v [<-|[]]. split; intros X; apply G in X; discriminate.
  - intros x v [<-|[<-|[]]] X; [apply G in X|apply G2 in X]; discriminate.
Qed.

(** *** Refutations *)
Definition l_fwd := $ "DIGEST_FILE $FWKNOP_RUN_DIR/digest;".
Definition l_dir := $ "FWKNOP_RUN_DIR /srv;".
(** C81 as stated does not hold: the same file gives other settings when it is named with -c than
    when it is the default file, because it is read a second time. *)
Theorem C81_twice_refuted : exists cf cf', let files := two (S_conf.file [l_fwd; l_dir]) [] in
  files ($ "f") = files (b_config_file b0) /\ config_init b0 files [] = Goes cf /\ config_init b0 files [Opt_c ($ "f")] = Goes cf' /\
  cf ($ "DIGEST_FILE") = None /\ cf' ($ "DIGEST_FILE") = Some ($ "/srv/digest").
Proof.
  cbv zeta. destruct (goes_with (config_init b0 (two (S_conf.file [l_fwd; l_dir]) []) []) (fun cf => cf ($ "DIGEST_FILE") = None)) as (cf & E & V); [vm_compute; reflexivity|].
  destruct (goes_with (config_init b0 (two (S_conf.file [l_fwd; l_dir]) []) [Opt_c ($ "f")]) (fun cf => cf ($ "DIGEST_FILE") = Some ($ "/srv/digest"))) as (cf' & E' & V'); [vm_compute; reflexivity|].
  exists cf, cf'. ands; auto.
Qed.
Print Assumptions C81_twice_refuted.

(** C81 as stated does not hold: the daemon does not start with a configuration file whose name
    has a comma in it. *)
Theorem C81_comma_refuted : let files := two (S_conf.file [l_age]) [] in
  files ($ "c,d") = Some (S_conf.file [l_age]) /\ config_init b0 files [Opt_c ($ "c,d")] = Ends /\ exists cf, config_init b0 files [] = Goes cf.
Proof. cbv zeta. ands; [reflexivity|vm_compute; reflexivity|].
  destruct (goes_with (config_init b0 (two (S_conf.file [l_age]) []) []) (fun _ => True)) as (cf & E & _); [vm_compute; exact I|eauto].
Qed.
Print Assumptions C81_comma_refuted.

(** C81 as stated does not hold: a line about OVERRIDE_CONFIG in the file displaces the option -O. *)
Theorem C81_option_refuted : exists cf, let files := two (S_conf.file [$ "OVERRIDE_CONFIG f"; l_age]) (S_conf.file [l_age2]) in
  config_init b0 files [Opt_O ($ "o")] = Goes cf /\ cf ($ "MAX_SPA_PACKET_AGE") = Some ($ "60").
Proof. apply (goes_with _ (fun cf => cf ($ "MAX_SPA_PACKET_AGE") = Some ($ "60"))). vm_compute. reflexivity. Qed.
Print Assumptions C81_option_refuted.
