(** The daemon's stop and start with firewalld *)
From Verif Require Import Bytes M_util M_message M_codec M_access M_cycle M_incoming M_packet M_fw M_fwinit
  S_text S_access S_incoming S_fw S_fwinit P_bytes P_util P_util2 P_fw P_fw2 P_fw3 P_fw4 P_fw5 P_fw6 P_fw7 P_fw8 P_fw10 P_fw11 P_fwinit P_fwinit2 P_fwinit3
  M_firewd S_firewd P_firewd P_firewd2 P_firewd3 P_firewd4 P_firewd5.
From Coq Require Import Init.Byte List ZArith Bool Lia.
Import ListNotations.
Open Scope Z_scope.

Section Side.
Variable K : iptables.
Variable KO : iptables_ok K.
Variable KR : removes K.
Variable F : firewalld.
Hypothesis FO : firewalld_ok F.
Variable cf : fwconf.
Variable cs : list chain.
Hypothesis AP : all_pass (f_cmd cf) cs.
Notation fd := (run_firewall_cmd K F).
Notation ip := (run_iptables (quietly K)).
Notation cd := (through cf).
Notation ci := (beside cf).
Let KQ := quietly_ok K KO.
Let WE : word (f_cmd cf) := proj1 (proj1 AP).
Let SE : zlen (f_cmd cf) <= 71 := proj2 (proj1 AP).
Let FI : fitting (f_cmd ci) cs := all_pass_fitting _ _ AP.
Let NU : forall c, In c cs -> in_use c -> named c := fun c I U => pass_named _ _ (all_pass_in _ _ _ AP I U).

Lemma delete_all_eq (fw : firewall) : fd_delete_all_chains machine fd cd cs (fw, []) = delete_all_chains machine ip ci cs (fw, []).
Proof.
  pose proof (sim_nil _ _ _ fw (delete_all_sim K F FO cf WE SE cs NU)) as E. unfold plainly in E.
  destruct (fd_delete_all_chains machine fd cd cs (fw, [])) as [[a b]|], (delete_all_chains machine ip ci cs (fw, [])) as [[x y]|]; cbn [bind] in E; congruence.
Qed.
Lemma make_eq (fw : firewall) : fd_create_fw_chains machine fd cd cs (fw, []) = create_fw_chains machine ip ci cs (fw, []).
Proof. exact (sim_nil _ _ _ fw (make_sim K F FO cf WE SE cs NU)). Qed.

Theorem stop_fd (fw : firewall) : removable cs fw ->
  exists fw', fd_delete_all_chains machine fd cd cs (fw, []) = Ok (fw', []) /\ forall t n, fw' t n = bare cs fw t n.
Proof. intros RM. rewrite delete_all_eq. apply (delete_all_spec (quietly K) KQ KR ci cs FI fw RM). Qed.

Section Chain.
Variable c : chain.
Hypothesis NP : names_pass (f_cmd cf) c.
Let NM := pass_named _ _ NP.
Let NF := pass_fit _ _ NP.

Lemma first_eq w : delete_first machine fd cd c w = delete_first machine ip ci c w.
Proof. pose proof NM as (W1 & W2 & W3 & W4 & L). unfold delete_first. rewrite (command_eq K F FO cf WE SE); [reflexivity|blank_ok]. Qed.
Lemma check_said e (fw : firewall) t r : exists o, ipt (quietly K) fw (e :: $ "-t" :: t :: $ "-C" :: c_from c :: r) = (fw, told o ($ "failed" ++ [x0a])) /\ (o = None \/ o = Some []).
Proof.
  cbn [ipt]. change (bseq ($ "-t") ($ "-t")) with true. cbn iota. unfold ipt_table. destruct (fw t (c_from c)) as [rs|].
  - change (bseq ($ "-C") ($ "-L")) with false. change (bseq ($ "-C") ($ "-F")) with false. change (bseq ($ "-C") ($ "-X")) with false.
    change (bseq ($ "-C") ($ "-D")) with false. change (bseq ($ "-C") ($ "-I")) with false. change (bseq ($ "-C") ($ "-C")) with true. cbn iota.
    destruct (existsb _ rs); [exists (Some [])|exists None]; auto.
  - change (bseq ($ "-C") ($ "-N")) with false. cbn iota. exists None. auto.
Qed.
Lemma short_names : zlen (c_table c) + zlen (c_from c) + zlen (c_target c) <= 71.
Proof. pose proof (proj2 NP) as S. unfold names_short in S. pose proof (zlen_nonneg (f_cmd cf)). pose proof (zlen_nonneg (c_to c)). lia. Qed.

(** The support for checks is seen in the same cases. *)
Lemma chk_eq (fw : firewall) : firewd_chk_support machine fd cd c (fw, []) = ipt_chk_support machine ip ci c (fw, []).
Proof.
  pose proof NM as (W1 & W2 & W3 & W4 & L). pose proof short_names as SN. unfold firewd_chk_support, ipt_chk_support, DUMMY_IP.
  rewrite (command_eq K F FO cf WE SE) by blank_ok.
  assert (C1 : exists fw1, command machine ip ci ($ "-t " ++ c_table c ++ $ " -I " ++ c_from c ++ $ " 1 -s " ++ $ "127.0.0.2" ++ $ " -p udp -j " ++ c_target c) (fw, []) = Ok (true, (fw1, []))).
  { destruct (argv_both cf WE SE ($ "-t " ++ c_table c ++ $ " -I " ++ c_from c ++ $ " 1 -s " ++ $ "127.0.0.2" ++ $ " -p udp -j " ++ c_target c)) as (t & E1 & E2); [blank_ok|].
    unfold command, run_extcmd. rewrite E2. cbn [bind]. unfold run_iptables. cbn [hd tl]. destruct (ipt (quietly K) fw (f_cmd ci :: t)) as [fw1 o]. exists fw1. reflexivity. }
  destruct C1 as (fw1 & ->). cbn [bind].
  destruct (argv_words cf WE SE ($ "-t " ++ c_table c ++ $ " -C " ++ c_from c ++ $ " -s " ++ $ "127.0.0.2" ++ $ " -p udp -j " ++ c_target c)
     ([$ "-t"; c_table c; $ "-C"; c_from c] ++ probe c)) as (E1 & E2).
  { unfold probe. cbn [flat_map app]. rewrite <- ?app_assoc. cbn [app]. rewrite ?app_nil_r. reflexivity. }
  { unfold probe. cbn [app]. words_ok. } { reflexivity. }
  { rewrite !zlen_app. change (zlen ($ "-t ")) with 3. change (zlen ($ " -C ")) with 4. change (zlen ($ " -s ")) with 4. change (zlen ($ "127.0.0.2")) with 9. change (zlen ($ " -p udp -j ")) with 11. lia. }
  { blank_ok. }
  unfold run_extcmd. rewrite E1, E2. cbn [bind]. set (t := [$ "-t"; c_table c; $ "-C"; c_from c] ++ probe c) in *.
  destruct (fd_prefix K F FO cf fw1 t) as (fw' & o & out & R1 & R2 & RO).
  destruct (check_said (f_cmd ci) fw1 (c_table c) (probe c)) as (o' & R3 & OO). change (f_cmd ci :: $ "-t" :: c_table c :: $ "-C" :: c_from c :: probe c) with (f_cmd ci :: t) in R3.
  rewrite R3 in R2. injection R2 as <- TT. unfold run_firewall_cmd at 1, run_iptables at 1. rewrite R1, R3. cbn [hd tl bind]. rewrite first_eq.
  destruct (delete_first machine ip ci c (fw1, [])) as [w|]; cbn [bind]; [|reflexivity]. f_equal. f_equal.
  destruct OO as [-> | ->].
  - assert (S : says_success (chop_newline (truncate_partial_line (read_output CMD_BUFSIZE out [] []))) = false).
    { destruct o as [x|].
      - cbn [told] in TT. subst x. subst out. rewrite read_output_spec; [|apply no_nul_app; split; [intros H; vm_compute in H; intuition discriminate|apply (tail_no_nul F FO)]|apply no_nul_nil|reflexivity].
        cbn [app]. change (CMD_BUFSIZE - 1 - zlen []) with 255.
        destruct (head_kept ($ "failed") (x0a :: fd_tail F)) as (r & E); [intros H; vm_compute in H; intuition discriminate|discriminate|vm_compute; discriminate|].
        match goal with |- says_success (chop_newline (truncate_partial_line (ztake 255 ?a))) = _ => change a with ($ "failed" ++ (x0a :: fd_tail F)) end.
        rewrite E. reflexivity.
      - subst out. destruct (error_read F FO t (fd_tail F) (tail_no_nul F FO)) as (r & ->). reflexivity. }
    rewrite S. reflexivity.
  - assert (o = Some []) as -> by (destruct o as [x|]; [cbn [told] in TT; congruence|discriminate TT]). subst out. reflexivity.
Qed.

(** The comment is found, and the rule with it removed again. *)
Variable fw0 : firewall.
Hypothesis PW : probes_work K cs fw0 c.
Lemma insert_says m e (fw : firewall) rs : fw (c_table c) (c_from c) = Some rs -> legal K (probe_comment c) = true ->
  ipt (failing_with K m) fw ([e; $ "-t"; c_table c; $ "-I"; c_from c; $ "1"] ++ probe_comment c) = (put_chain fw (c_table c) (c_from c) (Some (probe_comment c :: rs)), []).
Proof.
  intros E LG. cbn [ipt app]. change (bseq ($ "-t") ($ "-t")) with true. cbn iota. unfold ipt_table. rewrite E.
  change (bseq ($ "-I") ($ "-L")) with false. change (bseq ($ "-I") ($ "-F")) with false. change (bseq ($ "-I") ($ "-X")) with false.
  change (bseq ($ "-I") ($ "-D")) with false. change (bseq ($ "-I") ($ "-I")) with true. cbn iota zeta. cbn [legal failing_with].
  change (decimal ($ "1")) with 1. rewrite LG. pose proof (zlen_nonneg rs). destruct (Z.leb_spec 1 (zlen rs + 1)); [|lia]. cbn [andb Z.leb]. change (1 <=? 1) with true. cbn [andb]. reflexivity.
Qed.
Lemma comment_fd (fw : firewall) rs : fw (c_table c) (c_from c) = Some rs ->
  (forall r, In r rs -> (exists rs, fw0 (c_table c) (c_from c) = Some rs /\ In r rs) \/ jumps cs (c_table c) (c_from c) r) ->
  exists fw', fd_comment_match_exists machine fd (exit_status K F) cd c (fw, []) = Ok (true, (fw', [])) /\ forall t n, fw' t n = fw t n.
Proof.
  intros E SRC. destruct PW as (_ & LG & UF & NS & a & b & SH & LS). pose proof NM as (W1 & W2 & W3 & W4 & L). pose proof short_names as SN.
  unfold fd_comment_match_exists, DUMMY_IP. cbv zeta. unfold TMP_COMMENT at 1 2.
  destruct (argv_words cf WE SE ($ "-t " ++ c_table c ++ $ " -I " ++ c_from c ++ $ " 1 -s " ++ $ "127.0.0.2" ++ $ " -m comment --comment " ++ $ "__TMPCOMMENT__" ++ $ " -j " ++ c_target c)
     ([$ "-t"; c_table c; $ "-I"; c_from c; $ "1"] ++ probe_comment c)) as (E1 & _).
  { unfold probe_comment. cbn [flat_map app]. rewrite <- ?app_assoc. cbn [app]. rewrite ?app_nil_r. reflexivity. }
  { unfold probe_comment. cbn [app]. words_ok. } { reflexivity. }
  { rewrite !zlen_app. change (zlen ($ "-t ")) with 3. change (zlen ($ " -I ")) with 4. change (zlen ($ " 1 -s ")) with 6. change (zlen ($ "127.0.0.2")) with 9.
    change (zlen ($ " -m comment --comment ")) with 22. change (zlen ($ "__TMPCOMMENT__")) with 14. change (zlen ($ " -j ")) with 4. lia. }
  { blank_ok. }
  set (argv := [f_cmd cf; $ "--direct"; $ "--passthrough"; $ "ipv4"] ++ [$ "-t"; c_table c; $ "-I"; c_from c; $ "1"] ++ probe_comment c) in *.
  set (fw1 := put_chain fw (c_table c) (c_from c) (Some (probe_comment c :: rs))).
  assert (R1 : firewall_cmd K F fw argv = (fw1, $ "success" ++ [x0a])).
  { unfold argv. cbn [app firewall_cmd]. change (passes ($ "--direct") ($ "--passthrough") ($ "ipv4")) with true. cbn iota.
    pose proof (insert_says (fd_error F ([$ "-t"; c_table c; $ "-I"; c_from c; $ "1"] ++ probe_comment c)) (f_cmd cf) fw rs E LG) as X. cbn [app] in X. rewrite X. reflexivity. }
  assert (R2 : firewall_cmd_status K F fw argv = 0).
  { unfold argv. cbn [app firewall_cmd_status]. change (passes ($ "--direct") ($ "--passthrough") ($ "ipv4")) with true. cbn iota.
    pose proof (insert_says (fd_error F ([$ "-t"; c_table c; $ "-I"; c_from c; $ "1"] ++ probe_comment c)) (f_cmd cf) fw rs E LG) as X. cbn [app] in X. rewrite X. reflexivity. }
  unfold status_zero, command, run_extcmd at 1. rewrite E1. cbn [bind]. unfold run_firewall_cmd at 1 2. rewrite R1. cbn [hd tl bind]. unfold exit_status. cbn [snd hd fst]. rewrite R2.
  change (0 =? 0) with true. cbn [negb orb].
  assert (F1 : fw1 (c_table c) (c_from c) = Some (probe_comment c :: rs)) by apply put_same.
  destruct (argv_words cf WE SE ($ "-t " ++ c_table c ++ $ " -L " ++ c_from c ++ $ " --line-numbers -n") [$ "-t"; c_table c; $ "-L"; c_from c; $ "--line-numbers"; $ "-n"]) as (E3 & _).
  { apply list_args. } { words_ok. } { reflexivity. }
  { rewrite !zlen_app. change (zlen ($ "-t ")) with 3. change (zlen ($ " -L ")) with 4. change (zlen ($ " --line-numbers -n")) with 18. pose proof (zlen_nonneg (c_target c)). lia. } { blank_ok. }
  unfold run_extcmd. rewrite E3. cbn [bind].
  pose proof KO as (NUM & HK & _). destruct (HK (c_from c) W2 UF) as (h & HD & HNE & HN & HU).
  set (pre := h ++ [x0a] ++ number K 1 ++ [" "%byte] ++ show K (probe_comment c)).
  assert (LT : listing K (c_from c) (probe_comment c :: rs) = pre ++ [x0a] ++ rule_lines K 2 rs).
  { unfold listing, pre. rewrite HD. cbn [rule_lines]. rewrite <- !app_assoc. reflexivity. }
  assert (R3 : firewall_cmd K F fw1 ([f_cmd cf; $ "--direct"; $ "--passthrough"; $ "ipv4"] ++ [$ "-t"; c_table c; $ "-L"; c_from c; $ "--line-numbers"; $ "-n"]) =
    (fw1, (pre ++ [x0a] ++ rule_lines K 2 rs) ++ fd_tail F)).
  { cbn [app firewall_cmd]. change (passes ($ "--direct") ($ "--passthrough") ($ "ipv4")) with true. cbn iota.
    unfold ipt. change (bseq ($ "-t") ($ "-t")) with true. cbn iota. unfold ipt_table. rewrite F1. change (bseq ($ "-L") ($ "-L")) with true. cbn iota.
    rewrite listing_fail, LT. unfold pre. destruct h; [contradiction|]. reflexivity. }
  unfold run_firewall_cmd at 1. rewrite R3. cbn [hd tl bind].
  assert (NNL : no_nul (listing K (c_from c) (probe_comment c :: rs))).
  { unfold listing. rewrite HD. apply no_nul_app; split; [apply no_nul_app; split; [exact HN|intros [|[]]; discriminate]|]. apply (lines_nul K KO); [|lia]. intros r [<-|I]; apply NS; [auto|]. destruct (SRC r I); auto. }
  rewrite LT in NNL.
  assert (PL : zlen pre <= 4000).
  { unfold pre. rewrite !zlen_app. rewrite HD, zlen_app in LS. change (zlen [x0a]) with 1 in *. change (zlen [" "%byte]) with 1.
    pose proof (numeral_mono 1 1 (number K 1) ($ "1") (NUM 1 ltac:(lia)) ltac:(repeat split; [discriminate|repeat constructor; vm_compute; discriminate|discriminate]) ltac:(lia)) as M.
    change (zlen ($ "1")) with 1 in M. lia. }
  rewrite read_output_spec; [|apply no_nul_app; split; [exact NNL|apply (tail_no_nul F FO)]|apply no_nul_nil|reflexivity]. cbn [app]. rewrite zlen_nil.
  replace ((pre ++ x0a :: rule_lines K 2 rs) ++ fd_tail F) with ((pre ++ [x0a]) ++ rule_lines K 2 rs ++ fd_tail F) by (rewrite <- !app_assoc; reflexivity).
  destruct (ztake_keeps (pre ++ [x0a]) (rule_lines K 2 rs ++ fd_tail F) (STANDARD_CMD_OUT_BUFSIZE - 1 - 0)) as (b1 & ->).
  { rewrite zlen_app. change (zlen [x0a]) with 1. change (STANDARD_CMD_OUT_BUFSIZE - 1 - 0) with 4095. lia. }
  rewrite <- app_assoc. destruct (truncate_keeps pre b1) as (b2 & ->). destruct (chop_keeps pre b2) as (b3 & ->).
  assert (SF : strstr (fun b : Bytes.byte => b) TMP_COMMENT (pre ++ b3) <> None).
  { unfold pre. rewrite SH. rewrite <- !app_assoc. rewrite (app_assoc h), (app_assoc (h ++ [x0a])), (app_assoc ((h ++ [x0a]) ++ number K 1)).
    rewrite (app_assoc (((h ++ [x0a]) ++ number K 1) ++ [" "%byte]) a). apply strstr_found. }
  destruct (strstr _ TMP_COMMENT (pre ++ b3)) as [x|]; [|contradiction].
  rewrite first_eq, (delete_first_spec (quietly K) ci c NF fw1 (probe_comment c) rs F1). cbn [bind]. eexists. split; [reflexivity|].
  intros t n. unfold fw1, put_chain. destruct (bseq t (c_table c) && bseq n (c_from c)) eqn:B; [|reflexivity].
  apply andb_true_iff in B as [B1 B2]. apply bseq_eq in B1, B2. subst. now rewrite E.
Qed.
End Chain.

Theorem start_fd check (fw : firewall) : removable cs fw -> based cs fw (chain_at 0 cs) -> probes_work K cs fw (chain_at 0 cs) ->
  exists fw', fd_fw_initialize machine fd (exit_status K F) cd true check cs (fw, []) = Ok (Some true, (fw', [])) /\ rest cs fw fw' /\
  (forall c, In c cs -> in_use c -> exists rs, fw' (c_table c) (c_to c) = Some rs /\ Forall (jumps cs (c_table c) (c_to c)) rs) /\
  (forall c, In c cs -> legal K [$ "-j"; c_to c] = true -> c_jump c = 1 -> based cs fw c ->
     exists rs, fw' (c_table c) (c_from c) = Some rs /\ In [$ "-j"; c_to c] rs).
Proof.
  intros RM (U0 & B0 & O0) PW. set (c0 := chain_at 0 cs) in *.
  assert (NP : names_pass (f_cmd cf) c0). { apply (all_pass_in _ _ _ AP); [|exact U0]. apply chain_at_in. now right. }
  pose proof (pass_fit _ _ NP) as NF. unfold fd_fw_initialize. fold c0.
  destruct (fw (c_table c0) (c_from c0)) as [rs0|] eqn:F0; [|contradiction].
  destruct (probe_spec (quietly K) ci c0 NF fw rs0 F0 (proj1 PW)) as (fw1 & R1 & P1). rewrite chk_eq by exact NP. rewrite R1. cbn [bind negb].
  assert (RM1 : removable cs fw1). { intros c I U. destruct (RM c I U) as [A B]. split; intros *; rewrite P1; [apply A|apply B]. }
  destruct (stop_fd fw1 RM1) as (fw2 & R2 & P2). rewrite R2. cbn [bind].
  assert (Q2 : forall t n, fw2 t n = bare cs fw t n). { intros t n. rewrite P2. apply bare_ext. exact P1. }
  destruct (make_runs (quietly K) KQ ci cs cs (fun _ x => x) FI fw2) as (fw3 & R3 & G3 & EX & JP). rewrite make_eq, R3. cbn [bind].
  assert (B2 : forall c, based cs fw c -> fw2 (c_table c) (c_from c) <> None).
  { intros c (_ & B & O) E. rewrite Q2 in E. unfold bare in E. destruct (ownb cs (c_table c) (c_from c)) eqn:OB; [apply ownb_iff in OB; contradiction|].
    destruct (fw (c_table c) (c_from c)); [discriminate|contradiction]. }
  assert (B3 : exists rs, fw3 (c_table c0) (c_from c0) = Some rs).
  { pose proof (B2 c0) as B. assert (BB : based cs fw c0) by (split; [exact U0|split; [congruence|exact O0]]). specialize (B BB). specialize (G3 (c_table c0) (c_from c0)).
    destruct (fw2 (c_table c0) (c_from c0)); [|contradiction]. destruct G3 as (rs & E & _). eauto. }
  destruct B3 as (rs3 & F3).
  assert (SRC : forall r, In r rs3 -> (exists rs, fw (c_table c0) (c_from c0) = Some rs /\ In r rs) \/ jumps cs (c_table c0) (c_from c0) r).
  { intros r I. specialize (G3 (c_table c0) (c_from c0)). rewrite F3 in G3. destruct (fw2 (c_table c0) (c_from c0)) as [rs2|] eqn:F2.
    - destruct G3 as (rs' & E & D). injection E as <-.
      assert (X : In r rs2 \/ jumps cs (c_table c0) (c_from c0) r).
      { clear - D I. induction D; cbn in *; [auto| |]; destruct I as [<-|I]; auto; destruct (IHD I); auto. }
      destruct X as [X|X]; [left|now right]. rewrite Q2 in F2. unfold bare in F2. destruct (ownb _ _ _); [discriminate|]. rewrite F0 in F2. injection F2 as <-.
      apply filter_In in X as [X _]. exists rs0. auto.
    - destruct G3 as [E|(_ & rs' & E & FA)]; [discriminate|]. injection E as <-. rewrite Forall_forall in FA. right. now apply FA. }
  assert (C4 : exists fw4, (if check then fd_comment_match_exists machine fd (exit_status K F) cd c0 (fw3, []) else @Ok (bool * machine) (true, (fw3, []))) = Ok (true, (fw4, [])) /\ forall t n, fw4 t n = fw3 t n).
  { destruct check; [eapply (comment_fd c0 NP fw PW fw3 rs3 F3); exact SRC|]. exists fw3. auto. }
  destruct C4 as (fw4 & R4 & P4). match type of R4 with ?l = _ => match goal with |- context [bind ?x _] => change x with l; rewrite R4 end end. cbn [bind]. exists fw4. change (0 =? 0) with true. cbn [andb]. split; [reflexivity|].
  assert (R23 : rest cs fw2 fw3). { eapply rest_grown; [| |exact G3]; auto. }
  split; [|split].
  - intros t n. rewrite (bare_ext cs fw4 fw3 P4). rewrite <- (R23 t n). rewrite (bare_ext cs fw2 (bare cs fw) Q2).
    unfold bare. destruct (ownb cs t n); [reflexivity|]. destruct (fw t n) as [rs|]; [|reflexivity]. f_equal. rewrite filter_filter. apply filter_fext. intros x. destruct (negb _); reflexivity.
  - intros c I U. rewrite P4. pose proof (own_in cs c I U) as O. specialize (G3 (c_table c) (c_to c)).
    assert (E : fw2 (c_table c) (c_to c) = None). { rewrite Q2. unfold bare. apply ownb_iff in O. now rewrite O. }
    rewrite E in G3. destruct G3 as [E3|(_ & rs & E3 & FA)]; [|eauto]. destruct (EX c I U) as (rs & X). congruence.
  - intros c I LG J1 B. rewrite P4. apply JP; auto. apply B.
Qed.
End Side.
