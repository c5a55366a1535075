(** Property theorems: from the texts of the daemon's files to the rules of the firewall. *)
From Verif Require Import Bytes S_text S_access S_conf S_codec S_replay S_cycle M_util M_message M_codec M_ctx M_access M_replay M_cycle M_packet M_incoming M_conf M_accfile M_start M_fw M_fwinit M_daemon
  S_incoming S_fw S_fwinit S_accfile S_daemon S_start S_start2.
From Verif Require Import P_bytes P_util P_util2 P_start P_start2 P_start3 P_start4 P_start5 T_codec T_ctx T_fw T_incoming T_fwinit T_daemon T_conf T_accfile T_start P_incoming2 P_fw2.
From Coq Require Import Init.Byte List ZArith Bool Lia.
Import ListNotations.
Open Scope Z_scope.

(** ** C82.  The files decide what the firewall lets through *)
(** Whatever the files and options say: when the daemon has started, the stanzas are such that the
    daemon can use them (a key where one is needed, times that fit, addresses that are addresses),
    except that a port may be listed twice. *)
Theorem C82_usable : forall b fuel test y l sd, daemon_start b fuel test y l = Goes (Some sd) ->
  forall a, In a (sd_accs sd) -> NoDup (l_open a) -> usable (to_stanza a).
Proof.
  intros b fuel test y l sd D a I N. destruct (start_parts _ _ _ _ _ _ D) as (cf & cf' & ns & fw & _ & _ & _ & L & _). apply load_sane in L.
  rewrite Forall_forall in L. apply (sane_usable _ a (L a I) N).
Qed.
Print Assumptions C82_usable.

(** The settings by which packets are judged are those of fwknopd.conf and its options, or the
    defaults; the files it keeps lie where it says; and the addresses of FORCE_NAT and FORCE_SNAT
    are taken only with NAT enabled.
    Missing for the full claim: numbers beyond an int (C38) and directories of more than 1000
    characters. *)
Theorem C82_policy_partial : forall b fuel test y l cf sd, config_init b (y_file y) l = Goes cf -> daemon_start b fuel test y l = Goes (Some sd) ->
  policy b cf (sd_conf sd) /\ cf_test (sd_conf sd) = test /\
  run_file b cf (sd_config sd) ($ "FWKNOP_PID_FILE") ($ "fwknopd.pid") /\ run_file b cf (sd_config sd) ($ "DIGEST_FILE") ($ "digest.cache") /\
  (~ nat_on cf -> forall a, In a (sd_accs sd) -> strs a s_snat_ip = None /\ (strs a s_nat_ip = None \/ strs a s_nat_ip = Some ($ "0.0.0.0"))).
Proof.
  intros b fuel test y l cf sd CI D. destruct (start_parts _ _ _ _ _ _ D) as (cf1 & cf' & ns & efw & C1 & VO & FI & LD & EC & EF & _). rewrite CI in C1. injection C1 as <-.
  destruct (options_at _ _ _ _ VO) as (AT & _ & _ & IV & _). fold (full b cf) in AT. destruct (options_derived _ _ _ _ VO) as ((ag & EA & SA) & RF). rewrite EF.
  assert (SO : forall n d, ~ In n derived -> assoc n (defaults b) = Some d -> says_or cf n d (text (cf' n))).
  { intros n d N A. rewrite AT by exact N. unfold full, says_or. destruct (cf n) as [v|]; [left; reflexivity|right; rewrite A; auto]. }
  split; [|split; [|split; [|split]]]; try apply RF.
  - rewrite EC. split.
    + repeat (apply Forall_cons; [cbn beta iota|]); [..|apply Forall_nil]; try (apply SO; [notin|reflexivity]).
      cbn [spa_conf cf_aging]. rewrite EA. exact SA.
    + destruct (C55_ranges_partial _ _ IV) as (_ & RG). destruct (RG ($ "MAX_SPA_PACKET_AGE") 1 100000 ltac:(cbn; tauto)) as (x & v & IX & EV & R & TX). exists v.
      assert (EX : number_of ($ "MAX_SPA_PACKET_AGE") ns = x).
      { destruct (C55_ranges_partial _ _ IV) as (MF & _). clear - MF IX.
        destruct ns as [|[n0 x0] ns]; [discriminate|]. destruct ns as [|[n1 x1] ns]; [discriminate|]. destruct ns as [|[n2 x2] ns]; [discriminate|].
        cbn [map fst limits] in MF. injection MF as -> -> -> MF. destruct IX as [IX|[IX|[IX|IX]]]; try discriminate IX.
        - injection IX as <-. reflexivity.
        - exfalso. assert (J : In ($ "MAX_SPA_PACKET_AGE") (map fst ns)) by (apply in_map_iff; exists ($ "MAX_SPA_PACKET_AGE", x); auto). rewrite MF in J.
          cbn in J. intuition discriminate. }
      cbn [spa_conf cf_max_age]. rewrite EX. split; [|split; [exact R|exact TX]].
      rewrite AT in EV by notin. unfold full, says_or in *. destruct (cf ($ "MAX_SPA_PACKET_AGE")) as [u|]; [left; congruence|right]. split; [reflexivity|].
      assert (A : assoc ($ "MAX_SPA_PACKET_AGE") (defaults b) = Some ($ "120")) by reflexivity. congruence.
  - rewrite EC. reflexivity.
  - intros NO a I. apply load_sane in LD. rewrite Forall_forall in LD. apply (sane_need _ _ (LD a I)). unfold nat_enabled, access_system. cbn [y_forwarding y_local_nat].
    assert (X : forall n, In n [$ "ENABLE_IPT_OUTPUT"; $ "ENABLE_IPT_FORWARDING"; $ "ENABLE_IPT_LOCAL_NAT"; $ "ENABLE_IPT_SNAT"] -> ~ In n derived -> ~ enabled cf n -> yes (text (cf' n)) = false).
    { intros n IN ND NE. apply Bool.not_true_iff_false. intros Y. apply NE. rewrite AT in Y by exact ND. change (yes (text (full b cf n)) = true) in Y. destruct (full b cf n) as [v|] eqn:F; [|discriminate Y].
      apply (enabled_full b cf n v IN F). exact Y. }
    rewrite (X ($ "ENABLE_IPT_FORWARDING")); [|cbn; tauto|notin|intros Z; apply NO; left; exact Z].
    rewrite (X ($ "ENABLE_IPT_LOCAL_NAT")); [reflexivity|cbn; tauto|notin|intros Z; apply NO; right; exact Z].
Qed.
Print Assumptions C82_policy_partial.

(** The daemon started with files whose settings fit; then any history of packets, passes for
    expired rules, making and removing the chains, whatever becomes of each run of iptables.  Every
    rule was there before, or is a jump to a chain of fwknopd.conf, or is made by a stanza of the
    access files for a packet that this stanza lets.
    Missing for the full claim: what is missing in C78 (of a NAT address 15 characters are used). *)
Theorem C82_trace_partial : forall b fuel test y opts cf sd K H G resolve l rc fw fs log st' cs' fw' fs',
  iptables_ok K -> hashes_ok H -> resolves resolve ->
  config_init b (y_file y) opts = Goes cf -> daemon_start b fuel test y opts = Goes (Some sd) -> settings_fit cf (sd_accs sd) -> Forall goes_on l ->
  turns machine (run_iptables K) H G (sd_conf sd) (sd_fw sd) resolve l (fresh sd rc, (sd_chains sd, (fw, fs))) = Ok (log, (st', (cs', (fw', fs')))) ->
  same_rest (sd_chains sd) fw fw' /\
  forall t n r, was fw' t n r -> was fw t n r \/ jumps (sd_chains sd) t n r \/
    exists en p later e i a s, In (Receive en p later) l /\ nth_error (sd_accs sd) i = Some a /\ same_stanza (to_stanza a) s /\
      granted_by H G sd resolve s i en p later t n r e.
Proof.
  intros b fuel test y opts cf sd K H G resolve l rc fw fs log st' cs' fw' fs' KO HO RO CI D SF GO Q.
  destruct (start_parts _ _ _ _ _ _ D) as (cf1 & cf' & ns & e & C1 & VO & FI & _ & _). rewrite CI in C1. injection C1 as <-.
  assert (UA : Forall usable (st_acc (fresh sd rc))).
  { cbn [fresh st_acc]. rewrite Forall_forall. intros s IS. apply in_map_iff in IS as (a & <- & IA). apply (C82_usable _ _ _ _ _ _ D a IA). apply SF. exact IA. }
  assert (FO : firewall_ok (sd_fw sd) (sd_chains sd) (st_acc (fresh sd rc))) by exact (settings_ok _ _ _ _ _ _ _ VO FI SF).
  assert (TO : Forall (turn_ok (sd_fw sd) (sd_chains sd)) l).
  { eapply Forall_impl; [|exact GO]. intros x X; destruct x; cbn in *; auto; contradiction. }
  destruct (C78_trace_partial _ _ _ _ _ _ _ _ _ _ _ _ _ _ _ _ KO HO RO UA FO TO Q) as (SR & TR). split; [exact SR|].
  intros t n r W. destruct (TR t n r W) as [X|[X|(acc & en & p & later & e1 & I1 & (given & GV & SM) & AU)]]; auto. right. right.
  assert (given = map to_stanza (sd_accs sd)).
  { destruct GV as [->|GV]; [reflexivity|]. exfalso. rewrite Forall_forall in GO. exact (GO _ GV). }
  subst given. destruct AU as (data & fwd & i & s & d & C & DO & FR & NE & LE & EE & RF).
  assert (X : exists a, nth_error (sd_accs sd) i = Some a /\ same_stanza (to_stanza a) s).
  { clear - SM NE. revert i acc SM NE. induction (sd_accs sd) as [|a0 accs IH]; intros i acc SM NE; inversion SM; subst; [destruct i; discriminate|].
    destruct i as [|i]; cbn [nth_error] in NE |- *; [injection NE as <-; eauto|eauto]. }
  destruct X as (a & NA & SS). exists en, p, later, e1, i, a, s. split; [exact I1|]. split; [exact NA|]. split; [exact SS|].
  exists data, fwd, d. auto 10.
Qed.
Print Assumptions C82_trace_partial.

(** With an access file without includes, the stanza is one of the file: its SOURCE line and the
    lines up to the next one say what it is, the texts of its lists what they hold. *)
Theorem C82_text_partial : forall b fuel test y opts cf sd K H G resolve l rc fw fs log st' cs' fw' fs' lines bs,
  iptables_ok K -> hashes_ok H -> resolves resolve ->
  config_init b (y_file y) opts = Goes cf -> daemon_start b fuel test y opts = Goes (Some sd) -> settings_fit cf (sd_accs sd) -> Forall goes_on l ->
  cf ($ "ACCESS_FOLDER") = None -> plain_access y (match cf ($ "ACCESS_FILE") with Some f => f | None => b_access_file b end) lines bs ->
  turns machine (run_iptables K) H G (sd_conf sd) (sd_fw sd) resolve l (fresh sd rc, (sd_chains sd, (fw, fs))) = Ok (log, (st', (cs', (fw', fs')))) ->
  forall t n r, was fw' t n r -> was fw t n r \/ jumps (sd_chains sd) t n r \/
    exists en p later e i blk a s, In (Receive en p later) l /\ nth_error bs i = Some blk /\ stanza_says (fst blk) (snd blk) a /\ lists_say a /\
      same_stanza (to_stanza a) s /\ granted_by H G sd resolve s i en p later t n r e.
Proof.
  intros b fuel test y opts cf sd K H G resolve l rc fw fs log st' cs' fw' fs' lines bs KO HO RO CI D SF GO AF (YF & LO & pre & EN & AP & AB) Q t n r W.
  destruct (C82_trace_partial _ _ _ _ _ _ _ _ _ _ _ _ _ _ _ _ _ _ _ _ KO HO RO CI D SF GO Q) as (_ & TR).
  destruct (TR t n r W) as [X|[X|(en & p & later & e & i & a & s & I1 & NA & SS & GB)]]; auto. right. right.
  destruct (start_parts _ _ _ _ _ _ D) as (cf1 & cf' & ns & efw & C1 & VO & FI & LD & _). rewrite CI in C1. injection C1 as <-.
  destruct (options_at _ _ _ _ VO) as (AT & _). fold (full b cf) in AT.
  assert (E1 : cf' ($ "ACCESS_FOLDER") = None) by (rewrite AT by notin; unfold full; rewrite AF; reflexivity).
  assert (E2 : text (cf' ($ "ACCESS_FILE")) = match cf ($ "ACCESS_FILE") with Some f => f | None => b_access_file b end).
  { rewrite AT by notin. unfold full. destruct (cf ($ "ACCESS_FILE")); reflexivity. }
  rewrite E1, E2 in LD.
  destruct (C56_stanzas_partial (access_system y cf') _ lines _ pre bs fuel _ _ YF LO EN eq_refl AP AB LD) as (F & _).
  assert (X : exists blk, nth_error bs i = Some blk /\ stanza_says (fst blk) (snd blk) a /\ lists_say a).
  { clear - F NA. revert i NA. induction F as [|blk x bs accs (P1 & P2 & _) F IH]; intros i NA; [destruct i; discriminate|].
    destruct i as [|i]; cbn [nth_error] in NA |- *; [injection NA as <-; eauto|eauto]. }
  destruct X as (blk & NB & SA & LS). exists en, p, later, e, i, blk, a, s. auto 10.
Qed.
Print Assumptions C82_text_partial.

(** *** Examples *)
Definition conf_lines : list bytes := [$ "# fwknopd.conf"; $ "ENABLE_DESTINATION_RULE N;"].
Definition acc_lines : list bytes := [$ "SOURCE ANY"; $ "OPEN_PORTS tcp/22"; $ "KEY pw"; $ "HMAC_KEY hmac key"; $ "FW_ACCESS_TIMEOUT 60"].
Definition acc_blocks : list block := [($ "ANY", [($ "OPEN_PORTS", $ "tcp/22"); ($ "KEY", $ "pw"); ($ "HMAC_KEY", $ "hmac key"); ($ "FW_ACCESS_TIMEOUT", $ "60")])].
Definition box (conf acc : list bytes) : system := sys_of [($ "/etc/fwknop/fwknopd.conf", S_conf.file conf); ($ "/etc/fwknop/access.conf", S_conf.file acc)] [].
Definition live (conf acc : list bytes) : progress (option started) := daemon_start b0 1 false (box conf acc) [].
(** The daemon is started from its files, then the turns are taken: what is in these chains *)
Definition from_files (conf acc : list bytes) (l : list turn) (fw : firewall) (places : list (bytes * bytes)) : list (option (list rule)) :=
  match live conf acc with
  | Goes (Some sd) =>
      let o := turns machine (run_iptables ipt0) toy nogpg (sd_conf sd) (sd_fw sd) (fun _ => None) l (fresh sd (cache_init None), (sd_chains sd, (fw, []))) in
      map (fun x => chain_after o (fst x) (snd x)) places
  | _ => []
  end.
(** The files open port 22 for 60 seconds for the sender of the packet. *)
Example C82_ex : from_files conf_lines acc_lines day fw0 [($ "filter", $ "FWKNOP_INPUT")] = [Some [allow ($ "10.1.1.3") ($ "22") ($ "1700000161")]].
Proof. vm_compute. reflexivity. Qed.
Local Ltac line := repeat split; [cbn; intuition discriminate|cbn; intuition discriminate|vm_compute; congruence].
Lemma acc_lines_ok : Forall line_ok acc_lines.
Proof. repeat (apply Forall_cons; [line|]). apply Forall_nil. Qed.
Lemma acc_entries : entries acc_lines ([] ++ flatten acc_blocks).
Proof. do 5 said. apply entries_nil. Qed.
Definition quiet : list bytes := map (fun r => snd (fst (fst r))) (chain_table (fun _ => None)) ++
  [$ "ENABLE_IPT_OUTPUT"; $ "ENABLE_IPT_FORWARDING"; $ "ENABLE_IPT_LOCAL_NAT"; $ "ENABLE_IPT_SNAT"; $ "SNAT_TRANSLATE_IP"; $ "ACCESS_FILE"; $ "ACCESS_FOLDER"].
Lemma inq n : existsb (bseq n) quiet = true -> In n quiet.
Proof. intros H. apply existsb_exists in H as (x & I & E). apply bseq_eq in E. now subst x. Qed.
Lemma off cf n : cf n = None -> ~ enabled cf n.
Proof. intros E (v & [S|[_ ->]] & O); [congruence|]. apply P_incoming2.yes_on in O. discriminate. Qed.
(** The hypotheses can be met. *)
Example C82_hyps_ex : exists cf sd, config_init b0 (y_file (box conf_lines acc_lines)) [] = Goes cf /\ live conf_lines acc_lines = Goes (Some sd) /\
  settings_fit cf (sd_accs sd) /\ Forall goes_on day /\ cf ($ "ACCESS_FOLDER") = None /\
  plain_access (box conf_lines acc_lines) (match cf ($ "ACCESS_FILE") with Some f => f | None => b_access_file b0 end) acc_lines acc_blocks.
Proof.
  destruct (goes_with (config_init b0 (y_file (box conf_lines acc_lines)) []) (fun cf => forallb (fun n => isnull (cf n)) quiet = true /\ cf ($ "FIREWALL_EXE") = Some ($ "/sbin/iptables"))) as (cf & C & Q & E).
  { vm_compute. split; reflexivity. }
  destruct (goes_with (live conf_lines acc_lines) (fun o => match o with Some sd => map (fun a => (l_open a, ints a i_snat)) (sd_accs sd) = [([(6, 22)], 0)] | None => False end)) as ([sd|] & L & S); [vm_compute; reflexivity| |contradiction].
  assert (N : forall n, In n quiet -> cf n = None).
  { intros n I. rewrite forallb_forall in Q. specialize (Q n I). destruct (cf n); [discriminate Q|reflexivity]. }
  assert (OFF : forall n, In n quiet -> ~ enabled cf n) by (intros n I; apply off, N, I).
  assert (NO : ~ nat_on cf) by (intros [X|X]; revert X; apply OFF, inq; reflexivity).
  exists cf, sd. split; [exact C|]. split; [exact L|]. split; [|split; [|split]].
  - unfold settings_fit. split; [|split; [|split; [|split]]].
    + intros exe i n d P v EE I HP SO. rewrite E in EE. injection EE as <-.
      unfold chain_table in I. cbn [In] in I. destruct I as [I|[I|[I|[I|[I|[I|[]]]]]]]; injection I as <- <- <- <-; try contradiction; try (destruct HP; contradiction).
      2:{ exfalso. revert HP. apply OFF, inq. reflexivity. }
      assert (v = $ "ACCEPT, filter, INPUT, 1, FWKNOP_INPUT, 1"). { destruct SO as [X|[_ X]]; [rewrite N in X by (apply inq; reflexivity); discriminate X|exact X]. }
      subst v. exists ($ "ACCEPT"), ($ "filter"), ($ "INPUT"), 1, ($ "FWKNOP_INPUT"). split; [apply line_lit; reflexivity|]. split; [lia|].
      split; [cbn; intuition discriminate|]. split. { repeat (apply Forall_cons; [vm_compute; discriminate|]). apply Forall_nil. }
      split; [|vm_compute; discriminate]. apply marks_none. reflexivity.
    + intros [(a & I & X)|X]; exfalso; [|revert X; apply OFF, inq; reflexivity]. destruct (sd_accs sd) as [|a1 [|a2 r]]; try discriminate S. destruct I as [<-|[]]. injection S as _ S. contradiction.
    + intros exe EE. rewrite E in EE. injection EE as <-. apply word_lit; [reflexivity|discriminate].
    + intros ip X. rewrite N in X by (apply inq; reflexivity). discriminate X.
    + intros a I. destruct (sd_accs sd) as [|a1 [|a2 r]]; try discriminate S. destruct I as [<-|[]]. injection S as S _. rewrite S. constructor; [intros []|constructor].
  - assert (V : packet_ok (pkt d_any)) by (apply pkt_valid; vm_compute; discriminate).
    repeat (apply Forall_cons; [first [exact I|split; [exact V|split; [discriminate|reflexivity]]]|]). apply Forall_nil.
  - apply N, inq. reflexivity.
  - rewrite (N ($ "ACCESS_FILE")) by (apply inq; reflexivity). split; [reflexivity|]. split. { exact acc_lines_ok. }
    exists []. split; [exact acc_entries|]. split; [intros q u []|]. apply Forall_cons; [|apply Forall_nil].
    intros q u I. cbn in I. repeat (destruct I as [I|I]; [injection I as <- <-; cbn; intuition discriminate|]). contradiction.
Qed.

(** *** A stanza that wants source NAT without ENABLE_IPT_SNAT *)
Definition snat_lines : list bytes := acc_lines ++ [$ "FORCE_NAT 192.168.1.5 22"; $ "FORCE_SNAT 10.0.0.1"].
Definition fw_nat : firewall := fun t c =>
  if bseq t ($ "filter") then if bseq c ($ "INPUT") then Some [] else if bseq c ($ "FORWARD") then Some [] else None
  else if bseq t ($ "nat") then if bseq c ($ "PREROUTING") then Some [] else if bseq c ($ "POSTROUTING") then Some [] else None else None.
Definition redirect22 : rule :=
  [$ "-p"; $ "6"; $ "-s"; $ "10.1.1.3"; $ "-d"; $ "0.0.0.0/0"; $ "--dport"; $ "22"] ++ expiring ($ "1700000161") ($ "DNAT") ++ [$ "--to-destination"; $ "192.168.1.5:22"].
Definition translate22 : rule :=
  [$ "-p"; $ "6"; $ "-d"; $ "192.168.1.5"; $ "--dport"; $ "22"] ++ expiring ($ "1700000161") ($ "SNAT") ++ [$ "--to-source"; $ "10.0.0.1"].
(** FORCE_SNAT in a stanza is accepted although ENABLE_IPT_SNAT is not set.  The daemon then has no
    chain for such rules; the request is granted, the connection sent on, but no rule of source NAT
    made.  With ENABLE_IPT_SNAT it is. *)
Theorem C82_snat_refuted :
  let conf := [$ "ENABLE_IPT_FORWARDING Y;"] in let conf2 := conf ++ [$ "ENABLE_IPT_SNAT Y;"] in
  let places := [($ "nat", $ "FWKNOP_PREROUTING"); ($ "nat", $ "POSTROUTING"); ($ "nat", $ "FWKNOP_POSTROUTING"); ($ "nat", $ "FWKNOP_MASQUERADE")] in
  from_files conf snat_lines day fw_nat places = [Some [redirect22]; Some []; None; None] /\
  from_files conf2 snat_lines day fw_nat places =
    [Some [redirect22]; Some [[$ "-j"; $ "FWKNOP_MASQUERADE"]; [$ "-j"; $ "FWKNOP_POSTROUTING"]]; Some [translate22]; Some []].
Proof. cbv zeta. split; vm_compute; reflexivity. Qed.
Print Assumptions C82_snat_refuted.
Definition masq_lines : list bytes := acc_lines ++ [$ "FORWARD_ALL Y"; $ "FORCE_MASQUERADE Y"].
(** FORCE_MASQUERADE with FORWARD_ALL is accepted without any NAT enabled.  A request is granted then,
    and no rule at all is made for it; without these two lines the port is opened (C82_ex). *)
Theorem C82_masquerade_refuted :
  (exists d, match live conf_lines masq_lines with
             | Goes (Some sd) => effects (incoming_spa toy nogpg (sd_conf sd) en0 (pkt d_any) (fresh sd (cache_init None)))
             | _ => None
             end = Some [Grant 1 d]) /\
  from_files conf_lines masq_lines day fw_nat
    [($ "filter", $ "INPUT"); ($ "filter", $ "FWKNOP_INPUT"); ($ "filter", $ "FORWARD"); ($ "filter", $ "FWKNOP_FORWARD"); ($ "nat", $ "PREROUTING"); ($ "nat", $ "FWKNOP_PREROUTING"); ($ "nat", $ "POSTROUTING")] =
    [Some [[$ "-j"; $ "FWKNOP_INPUT"]]; Some []; Some []; None; Some []; None; Some []].
Proof. split; [eexists; vm_compute; reflexivity|vm_compute; reflexivity]. Qed.
Print Assumptions C82_masquerade_refuted.
