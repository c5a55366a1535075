(** Starting the firewall, if iptables does its work. *)
From Verif Require Import Bytes M_util M_message M_codec M_access M_cycle M_incoming M_packet M_fw M_fwinit
  S_text S_access S_incoming S_fw S_fwinit P_bytes P_util P_util2 P_incoming5 P_fw P_fw2 P_fw3 P_fw4 P_fw5 P_fw6 P_fw7 P_fw8 P_fw9 P_fw10 P_fwinit P_fwinit2.
From Coq Require Import Init.Byte List ZArith Bool Lia.
Import ListNotations.
Open Scope Z_scope.

Lemma cut_rev_app b : forall a, exists b', cut_rev (b ++ [x0a] ++ a) = b' ++ [x0a] ++ a.
Proof.
  induction b as [|x b IH]; intros a.
  - exists []. cbn [app cut_rev]. destruct a; reflexivity.
  - cbn [app cut_rev]. destruct (b ++ x0a :: a) as [|y l] eqn:E; [destruct b; discriminate|]. destruct (beq x x0a); [exists (x :: b); cbn [app]; now rewrite E|].
    rewrite <- E. apply IH.
Qed.
Lemma truncate_keeps a b : exists b', truncate_partial_line (a ++ [x0a] ++ b) = a ++ [x0a] ++ b'.
Proof.
  unfold truncate_partial_line. replace (memb x0a (a ++ [x0a] ++ b)) with true.
  2:{ symmetry. apply memb_In. apply in_app_iff. right. left. reflexivity. }
  rewrite !rev_app_distr. cbn [rev app]. rewrite <- app_assoc. destruct (cut_rev_app (rev b) (rev a)) as (b' & ->).
  exists (rev b'). rewrite !rev_app_distr, rev_involutive. cbn [rev app]. now rewrite <- app_assoc.
Qed.
Lemma chop_keeps a b : exists b', chop_newline (a ++ [x0a] ++ b) = a ++ b'.
Proof.
  unfold chop_newline. destruct (_ && _); [|eexists; reflexivity].
  rewrite removelast_app by discriminate. eexists. reflexivity.
Qed.
Lemma strstr_found (n a b : bytes) : strstr (fun b => b) n (a ++ n ++ b) <> None.
Proof. intros Q. apply (strstr_none _ _ _ Q a n b eq_refl). apply map_id. Qed.
Lemma ztake_keeps (a b : bytes) n : zlen a <= n -> exists b', ztake n (a ++ b) = a ++ b'.
Proof.
  intros H. pose proof (zlen_nonneg a). unfold ztake. rewrite firstn_app. rewrite firstn_all2 by (unfold zlen in *; lia). eexists. reflexivity.
Qed.

Section Start.
Variable K : iptables.
Hypothesis KO : iptables_ok K.
Hypothesis KR : removes K.
Variable cf : fwconf.
Notation run := (run_iptables K).
Ltac fits := rewrite ?zlen_app; cbn [join]; rewrite ?zlen_app; 
  repeat match goal with |- context [zlen (str ?s)] => let v := eval vm_compute in (zlen (str s)) in change (zlen (str s)) with v end;
  change (zlen [" "%byte]) with 1; lia.

Lemma ipt_insert (fw : firewall) t n rs r : fw t n = Some rs -> legal K r = true ->
  fst (ipt K fw ([f_cmd cf; $ "-t"; t; $ "-I"; n; $ "1"] ++ r)) = put_chain fw t n (Some (r :: rs)).
Proof.
  intros F LG. cbn [ipt app]. change (bseq ($ "-t") ($ "-t")) with true. cbn iota. unfold ipt_table. rewrite F.
  change (bseq ($ "-I") ($ "-L")) with false. change (bseq ($ "-I") ($ "-F")) with false. change (bseq ($ "-I") ($ "-X")) with false.
  change (bseq ($ "-I") ($ "-D")) with false. change (bseq ($ "-I") ($ "-I")) with true. cbn iota zeta.
  change (decimal ($ "1")) with 1. rewrite LG. pose proof (zlen_nonneg rs). destruct (Z.leb_spec 1 (zlen rs + 1)); [|lia]. cbn [andb Z.leb]. change (1 <=? 1) with true. cbn [andb fst]. reflexivity.
Qed.
Lemma ipt_delete_first (fw : firewall) t n r rs : fw t n = Some (r :: rs) ->
  fst (ipt K fw [f_cmd cf; $ "-t"; t; $ "-D"; n; $ "1"]) = put_chain fw t n (Some rs).
Proof.
  intros F. cbn [ipt]. change (bseq ($ "-t") ($ "-t")) with true. cbn iota. unfold ipt_table. rewrite F.
  change (bseq ($ "-D") ($ "-L")) with false. change (bseq ($ "-D") ($ "-F")) with false. change (bseq ($ "-D") ($ "-X")) with false. change (bseq ($ "-D") ($ "-D")) with true. cbn iota zeta.
  change (decimal ($ "1")) with 1. rewrite zlen_cons. pose proof (zlen_nonneg rs). destruct (Z.leb_spec 1 (1 + zlen rs)); [|lia]. change (1 <=? 1) with true. cbn [andb fst]. reflexivity.
Qed.

Section One.
Variable c : chain.
Hypothesis NF : names_fit (f_cmd cf) c.

Lemma delete_first_spec (fw : firewall) r rs : fw (c_table c) (c_from c) = Some (r :: rs) ->
  delete_first machine run cf c (fw, []) = Ok (put_chain fw (c_table c) (c_from c) (Some rs), []).
Proof.
  intros F. pose proof NF as (W1 & W2 & W3 & W4 & W5 & JR & UM & L).
  pose proof (zlen_nonneg (c_from c)). pose proof (zlen_nonneg (c_target c)).
  pose proof (zlen_nonneg (c_to c)). pose proof (zlen_nonneg (c_table c)). pose proof (zlen_nonneg (f_cmd cf)).
  unfold delete_first.
  destruct (run_cmd K cf ($ "-t " ++ c_table c ++ $ " -D " ++ c_from c ++ $ " 1") [f_cmd cf; $ "-t"; c_table c; $ "-D"; c_from c; $ "1"] fw [])
    as (ok & fw1 & R1 & _ & A1); [cbn; rewrite <- ?app_assoc; reflexivity|words_ok|reflexivity|fits|].
  rewrite R1. cbn [bind tl]. destruct (A1 eq_refl) as [_ ->]. rewrite (ipt_delete_first _ _ _ r rs F). reflexivity.
Qed.
Lemma probe_spec (fw : firewall) rs : fw (c_table c) (c_from c) = Some rs -> legal K (probe c) = true ->
  exists fw', ipt_chk_support machine run cf c (fw, []) = Ok (true, (fw', [])) /\ forall t n, fw' t n = fw t n.
Proof.
  intros F LG. pose proof NF as (W1 & W2 & W3 & W4 & W5 & JR & UM & L).
  pose proof (zlen_nonneg (c_from c)). pose proof (zlen_nonneg (c_target c)).
  pose proof (zlen_nonneg (c_to c)). pose proof (zlen_nonneg (c_table c)). pose proof (zlen_nonneg (f_cmd cf)).
  unfold ipt_chk_support, DUMMY_IP.
  destruct (run_cmd K cf ($ "-t " ++ c_table c ++ $ " -I " ++ c_from c ++ $ " 1 -s " ++ $ "127.0.0.2" ++ $ " -p udp -j " ++ c_target c)
     ([f_cmd cf; $ "-t"; c_table c; $ "-I"; c_from c; $ "1"] ++ probe c) fw [])
    as (ok & fw1 & R1 & _ & A1); [cbn; rewrite <- ?app_assoc; reflexivity|unfold probe; cbn [app]; words_ok|reflexivity|unfold probe; cbn [app]; fits|].
  rewrite R1. cbn [bind tl]. destruct (A1 eq_refl) as [_ E1]. rewrite (ipt_insert _ _ _ _ _ F LG) in E1. subst fw1. clear R1 A1.
  set (fw1 := put_chain fw (c_table c) (c_from c) (Some (probe c :: rs))).
  assert (F1 : fw1 (c_table c) (c_from c) = Some (probe c :: rs)) by apply put_same.
  replace (f_cmd cf ++ $ " " ++ $ "-t " ++ c_table c ++ $ " -C " ++ c_from c ++ $ " -s " ++ $ "127.0.0.2" ++ $ " -p udp -j " ++ c_target c)
    with (join [" "%byte] ([f_cmd cf; $ "-t"; c_table c; $ "-C"; c_from c] ++ probe c)) by (unfold probe; cbn; rewrite <- ?app_assoc; reflexivity).
  rewrite run_fits; [|unfold probe; cbn [app]; words_ok|reflexivity|unfold probe; cbn [app]; fits].
  assert (E2 : ipt K fw1 ([f_cmd cf; $ "-t"; c_table c; $ "-C"; c_from c] ++ probe c) = (fw1, [])).
  { cbn [ipt app]. change (bseq ($ "-t") ($ "-t")) with true. cbn iota. unfold ipt_table. rewrite F1.
    change (bseq ($ "-C") ($ "-L")) with false. change (bseq ($ "-C") ($ "-F")) with false. change (bseq ($ "-C") ($ "-X")) with false.
    change (bseq ($ "-C") ($ "-D")) with false. change (bseq ($ "-C") ($ "-I")) with false. change (bseq ($ "-C") ($ "-C")) with true. cbn iota.
    cbn [existsb]. rewrite (proj2 (same_rule_eq (probe c) (probe c)) eq_refl). reflexivity. }
  unfold run_iptables at 1. rewrite E2. cbn [hd tl captured bind].
  rewrite (delete_first_spec fw1 (probe c) rs F1). cbn [bind]. eexists. split; [reflexivity|].
  intros t n. unfold fw1, put_chain. destruct (bseq t (c_table c) && bseq n (c_from c)) eqn:B; [|reflexivity].
  apply andb_true_iff in B as [B1 B2]. apply bseq_eq in B1, B2. subst. now rewrite F.
Qed.

Variables (cs0 : list chain) (fw0 : firewall).
Hypothesis PW : probes_work K cs0 fw0 c.
Lemma lines_nul rs : (forall r, In r rs -> ~ In x00 (show K r)) -> forall k, 0 <= k -> no_nul (rule_lines K k rs).
Proof.
  induction rs as [|r rs IH]; intros N k HK; cbn [rule_lines]; [apply no_nul_nil|].
  destruct KO as (NU & _). destruct (NU k HK) as (_ & D & _).
  apply no_nul_app; split; [|apply no_nul_app; split; [|apply no_nul_app; split; [|apply no_nul_app; split]]].
  - intros I. unfold all_digits in D. pose proof (proj1 (Forall_forall _ _) D _ I) as [D1 D2]. vm_compute in D1. apply D1. reflexivity.
  - intros [|[]]; discriminate.
  - apply N. now left.
  - intros [|[]]; discriminate.
  - apply IH; [|lia]. intros x X. apply N. now right.
Qed.
Lemma comment_spec (fw : firewall) rs : fw (c_table c) (c_from c) = Some rs ->
  (forall r, In r rs -> (exists rs, fw0 (c_table c) (c_from c) = Some rs /\ In r rs) \/ jumps cs0 (c_table c) (c_from c) r) ->
  exists fw', comment_match_exists machine run cf c (fw, []) = Ok (true, (fw', [])) /\ forall t n, fw' t n = fw t n.
Proof.
  intros F SRC. destruct PW as (_ & LG & UF & NS & a & b & SH & LS). pose proof NF as (W1 & W2 & W3 & W4 & W5 & JR & UM & L).
  pose proof (zlen_nonneg (c_from c)). pose proof (zlen_nonneg (c_target c)).
  pose proof (zlen_nonneg (c_to c)). pose proof (zlen_nonneg (c_table c)). pose proof (zlen_nonneg (f_cmd cf)).
  unfold comment_match_exists, DUMMY_IP. unfold TMP_COMMENT at 1.
  destruct (run_cmd K cf ($ "-t " ++ c_table c ++ $ " -I " ++ c_from c ++ $ " 1 -s " ++ $ "127.0.0.2" ++ $ " -m comment --comment " ++ $ "__TMPCOMMENT__" ++ $ " -j " ++ c_target c)
     ([f_cmd cf; $ "-t"; c_table c; $ "-I"; c_from c; $ "1"] ++ probe_comment c) fw [])
    as (ok & fw1 & R1 & _ & A1); [cbn; rewrite <- ?app_assoc; reflexivity|unfold probe_comment; cbn [app]; words_ok|reflexivity|unfold probe_comment; cbn [app]; fits|].
  rewrite R1. cbn [bind tl]. destruct (A1 eq_refl) as [_ E1]. rewrite (ipt_insert _ _ _ _ _ F LG) in E1. subst fw1. clear R1 A1.
  set (fw1 := put_chain fw (c_table c) (c_from c) (Some (probe_comment c :: rs))).
  assert (F1 : fw1 (c_table c) (c_from c) = Some (probe_comment c :: rs)) by apply put_same.
  replace (f_cmd cf ++ $ " " ++ $ "-t " ++ c_table c ++ $ " -L " ++ c_from c ++ $ " --line-numbers -n")
    with (join [" "%byte] [f_cmd cf; $ "-t"; c_table c; $ "-L"; c_from c; $ "--line-numbers"; $ "-n"]) by (cbn; rewrite <- ?app_assoc; reflexivity).
  rewrite run_fits; [|words_ok|reflexivity|fits].
  assert (E2 : ipt K fw1 [f_cmd cf; $ "-t"; c_table c; $ "-L"; c_from c; $ "--line-numbers"; $ "-n"] = (fw1, listing K (c_from c) (probe_comment c :: rs))).
  { cbn [ipt app]. change (bseq ($ "-t") ($ "-t")) with true. cbn iota. unfold ipt_table. rewrite F1. change (bseq ($ "-L") ($ "-L")) with true. reflexivity. }
  unfold run_iptables at 1. rewrite E2. cbn [hd tl captured bind].
  pose proof KO as (NU & HK & _). destruct (HK (c_from c) W3 UF) as (h & HD & HNE & HN & HU).
  set (pre := h ++ [x0a] ++ number K 1 ++ [" "%byte] ++ show K (probe_comment c)).
  assert (LT : listing K (c_from c) (probe_comment c :: rs) = pre ++ [x0a] ++ rule_lines K 2 rs).
  { unfold listing, pre. rewrite HD. cbn [rule_lines]. rewrite <- !app_assoc. reflexivity. }
  assert (NNL : no_nul (listing K (c_from c) (probe_comment c :: rs))).
  { unfold listing. rewrite HD. apply no_nul_app; split; [apply no_nul_app; split; [exact HN|intros [|[]]; discriminate]|]. apply lines_nul; [|lia]. intros r [<-|I]; apply NS; [auto|]. destruct (SRC r I); auto. }
  assert (PL : zlen pre <= 4000).
  { unfold pre. rewrite !zlen_app. rewrite HD, zlen_app in LS. change (zlen [x0a]) with 1 in *. change (zlen [" "%byte]) with 1.
    pose proof (numeral_mono 1 1 (number K 1) ($ "1") (NU 1 ltac:(lia)) ltac:(repeat split; [discriminate|repeat constructor; vm_compute; discriminate|discriminate]) ltac:(lia)) as M.
    change (zlen ($ "1")) with 1 in M. lia. }
  rewrite read_output_spec; auto using no_nul_nil; [|reflexivity]. cbn [app]. rewrite zlen_nil.
  rewrite LT, app_assoc. destruct (ztake_keeps (pre ++ [x0a]) (rule_lines K 2 rs) (STANDARD_CMD_OUT_BUFSIZE - 1 - 0)) as (b1 & ->).
  { rewrite zlen_app. change (zlen [x0a]) with 1. change (STANDARD_CMD_OUT_BUFSIZE - 1 - 0) with 4095. lia. }
  rewrite <- app_assoc. destruct (truncate_keeps pre b1) as (b2 & ->). destruct (chop_keeps pre b2) as (b3 & ->).
  assert (SF : strstr (fun b : Bytes.byte => b) TMP_COMMENT (pre ++ b3) <> None).
  { unfold pre. rewrite SH. rewrite <- !app_assoc. rewrite (app_assoc h), (app_assoc (h ++ [x0a])), (app_assoc ((h ++ [x0a]) ++ number K 1)).
    rewrite (app_assoc (((h ++ [x0a]) ++ number K 1) ++ [" "%byte]) a). apply strstr_found. }
  destruct (strstr _ TMP_COMMENT (pre ++ b3)) as [x|]; [|contradiction].
  rewrite (delete_first_spec fw1 (probe_comment c) rs F1). cbn [bind]. eexists. split; [reflexivity|].
  intros t n. unfold fw1, put_chain. destruct (bseq t (c_table c) && bseq n (c_from c)) eqn:B; [|reflexivity].
  apply andb_true_iff in B as [B1 B2]. apply bseq_eq in B1, B2. subst. now rewrite F.
Qed.
End One.

Lemma mk_chain_runs c (fw : firewall) : names_fit (f_cmd cf) c -> exists fw', mk_chain machine run cf c (fw, []) = Ok (0, (fw', [])) /\
  grown (mine c) (jump c) fw fw' /\ (exists rs, fw' (c_table c) (c_to c) = Some rs) /\
  (legal K [$ "-j"; c_to c] = true -> c_jump c = 1 -> fw (c_table c) (c_from c) <> None -> exists rs, fw' (c_table c) (c_from c) = Some rs /\ In [$ "-j"; c_to c] rs).
Proof.
  intros NF. destruct (mk_chain_spec K KO cf c NF fw []) as (e & fw' & fs' & R & G & A). destruct (A eq_refl) as [-> EX].
  exists fw'. assert (X : e = 0 /\ (legal K [$ "-j"; c_to c] = true -> c_jump c = 1 -> fw (c_table c) (c_from c) <> None -> exists rs, fw' (c_table c) (c_from c) = Some rs /\ In [$ "-j"; c_to c] rs)); [|destruct X as [-> X]; auto].
  pose proof NF as (W1 & W2 & W3 & W4 & W5 & J & UM & L).
  pose proof (zlen_nonneg (c_from c)). pose proof (zlen_nonneg (c_target c)).
  pose proof (zlen_nonneg (c_to c)). pose proof (zlen_nonneg (c_table c)). pose proof (zlen_nonneg (f_cmd cf)).
  unfold mk_chain, chain_exists in R.
  destruct (run_cmd K cf ($ "-t " ++ c_table c ++ $ " -L " ++ c_to c ++ $ " -n") [f_cmd cf; $ "-t"; c_table c; $ "-L"; c_to c; $ "-n"] fw [])
    as (ok & fw1 & R1 & _ & A1); [cbn; rewrite <- ?app_assoc; reflexivity|words_ok|reflexivity|fits|].
  rewrite R1 in R. cbn [bind tl] in R. destruct (A1 eq_refl) as [-> E1]. cbn [negb] in R.
  assert (fw1 = fw) as ->.
  { rewrite E1. cbn [ipt]. change (bseq ($ "-t") ($ "-t")) with true. cbn iota. unfold ipt_table.
    change (bseq ($ "-L") ($ "-N")) with false. change (bseq ($ "-L") ($ "-L")) with true. cbn iota. destruct (fw (c_table c) (c_to c)); reflexivity. }
  unfold create_chain in R.
  destruct (run_cmd K cf ($ "-t " ++ c_table c ++ $ " -N " ++ c_to c) [f_cmd cf; $ "-t"; c_table c; $ "-N"; c_to c] fw [])
    as (ok2 & fw2 & R2 & _ & A2); [cbn; rewrite <- ?app_assoc; reflexivity|words_ok|reflexivity|fits|].
  rewrite R2 in R. cbn [bind tl] in R. destruct (A2 eq_refl) as [-> E2].
  assert (FR : fw (c_table c) (c_from c) <> None -> exists rs, fw2 (c_table c) (c_from c) = Some rs).
  { intros NE. rewrite E2. cbn [ipt]. change (bseq ($ "-t") ($ "-t")) with true. cbn iota. unfold ipt_table. destruct (fw (c_table c) (c_from c)) as [rs|] eqn:F; [|contradiction].
    destruct (fw (c_table c) (c_to c)) as [rs2|] eqn:F2; [exists rs; exact F|]. change (bseq ($ "-N") ($ "-N")) with true. cbn iota. cbn [fst]. unfold put_chain.
    destruct (bseq (c_table c) (c_table c) && bseq (c_from c) (c_to c)); eauto. }
  unfold jump_rule_exists in R.
  assert (RT : fmt ($ "-t " ++ c_table c ++ $ " -j " ++ c_to c) = rule_text (c_table c) [$ "-j"; c_to c] ++ []).
  { rewrite fmt_id; [rewrite app_nil_r; reflexivity|fits]. }
  rewrite RT in R. destruct (exists_spec K KO cf (c_from c) (c_table c) [$ "-j"; c_to c] [] fw2 []) as (there & R3 & A3); auto; try discriminate; try reflexivity.
  { words_ok. } { unfold rule_text. rewrite zlen_nil. fits. }
  rewrite R3 in R. cbn [bind tl] in R. specialize (A3 eq_refl). destruct there.
  - cbn [bind] in R. injection R as <- <-. split; [reflexivity|]. intros _ _ NE. destruct (FR NE) as (rs & F). rewrite F in A3. exists rs. split; [exact F|].
    symmetry in A3. apply existsb_exists in A3 as (x & I & S). apply same_rule_eq in S. now subst.
  - unfold add_jump_rule in R. rewrite dec_i_dec in R by lia.
    assert (NM : numeral (c_jump c) (dec (c_jump c))) by (apply dec_num; lia).
    assert (LN : zlen (dec (c_jump c)) <= 5) by (apply dec_len5; lia).
    assert (D1 : c_jump c = 1 -> dec (c_jump c) = $ "1") by (intros ->; reflexivity).
    set (dj := dec (c_jump c)) in *. clearbody dj.
    destruct (run_cmd K cf ($ "-t " ++ c_table c ++ $ " -I " ++ c_from c ++ $ " " ++ dj ++ $ " -j " ++ c_to c)
       [f_cmd cf; $ "-t"; c_table c; $ "-I"; c_from c; dj; $ "-j"; c_to c] fw2 [])
      as (ok3 & fw3 & R4 & _ & A4); [cbn; rewrite <- ?app_assoc; reflexivity|words_ok|reflexivity|fits|].
    rewrite R4 in R. cbn [bind tl] in R. destruct (A4 eq_refl) as [-> E4]. injection R as <- <-. split; [reflexivity|].
    intros LG J1 NE. destruct (FR NE) as (rs & F). rewrite (D1 J1) in E4. 
    change [f_cmd cf; $ "-t"; c_table c; $ "-I"; c_from c; $ "1"; $ "-j"; c_to c] with ([f_cmd cf; $ "-t"; c_table c; $ "-I"; c_from c; $ "1"] ++ [$ "-j"; c_to c]) in E4.
    rewrite (ipt_insert _ _ _ _ _ F LG) in E4. rewrite E4. rewrite put_same. eexists. split; [reflexivity|now left].
Qed.

Lemma make_runs cs0 cs : (forall c, In c cs -> In c cs0) -> fitting (f_cmd cf) cs0 -> forall fw : firewall, exists fw',
  create_fw_chains machine run cf cs (fw, []) = Ok (0, (fw', [])) /\ grown (own cs0) (jumps cs0) fw fw' /\
  (forall c, In c cs -> in_use c -> exists rs, fw' (c_table c) (c_to c) = Some rs) /\
  (forall c, In c cs -> in_use c -> legal K [$ "-j"; c_to c] = true -> c_jump c = 1 -> fw (c_table c) (c_from c) <> None ->
     exists rs, fw' (c_table c) (c_from c) = Some rs /\ In [$ "-j"; c_to c] rs).
Proof.
  intros S F. induction cs as [|c cs IH]; intros fw; cbn [create_fw_chains].
  - exists fw. split; [reflexivity|]. split; [apply grown_refl|]. split; intros c [].
  - specialize (IH (fun x X => S x (or_intror X))). destruct (inuse c) eqn:U.
    + pose proof (proj1 (inuse_iff c) U) as UU. pose proof (fitting_in _ _ _ F (S c (or_introl eq_refl)) UU) as NF.
      unfold inuse in U. apply negb_true_iff in U. rewrite U.
      destruct (mk_chain_runs c fw NF) as (fw1 & R & G & EX & JP). rewrite R. cbn [bind].
      destruct (IH fw1) as (fw2 & R2 & G2 & EX2 & JP2). rewrite R2. cbn [bind]. exists fw2. split; [reflexivity|].
      assert (GG : grown (own cs0) (jumps cs0) fw fw1).
      { eapply grown_impl; [| |exact G].
        - intros t n (-> & ->). apply own_in; auto. apply S. now left.
        - intros t n r (-> & -> & ->). exists c. repeat split; auto. apply S. now left. }
      split; [eapply grown_trans; eauto|]. split.
      * intros x [<-|I] UX; [|now apply EX2]. destruct EX as (rs & E). specialize (G2 (c_table c) (c_to c)). rewrite E in G2. destruct G2 as (rs' & E' & _). eauto.
      * intros x [<-|I] UX LG J1 NE.
        -- destruct (JP LG J1 NE) as (rs & E & IN). eapply grown_in; eauto.
        -- apply JP2; auto. intros E. specialize (GG (c_table x) (c_from x)). destruct (fw (c_table x) (c_from x)); [|contradiction]. destruct GG as (rs' & E' & _). congruence.
    + unfold inuse in U. apply negb_false_iff in U. rewrite U. cbn [bind]. destruct (IH fw) as (fw2 & R2 & G2 & EX2 & JP2). rewrite R2. cbn [bind].
      exists fw2. split; [reflexivity|]. split; [exact G2|]. apply Z.eqb_eq, zlen_zero in U. split.
      * intros x [<-|I] UX; [contradiction|now apply EX2].
      * intros x [<-|I] UX; [contradiction|now apply JP2].
Qed.

Theorem start_spec check cs (fw : firewall) : fitting (f_cmd cf) cs -> removable cs fw -> based cs fw (chain_at 0 cs) -> probes_work K cs fw (chain_at 0 cs) ->
  exists fw', fw_initialize machine run cf true check cs (fw, []) = Ok (Some true, (fw', [])) /\ rest cs fw fw' /\
  (forall c, In c cs -> in_use c -> exists rs, fw' (c_table c) (c_to c) = Some rs /\ Forall (jumps cs (c_table c) (c_to c)) rs) /\
  (forall c, In c cs -> legal K [$ "-j"; c_to c] = true -> c_jump c = 1 -> based cs fw c ->
     exists rs, fw' (c_table c) (c_from c) = Some rs /\ In [$ "-j"; c_to c] rs).
Proof.
  intros F RM (U0 & B0 & O0) PW. set (c0 := chain_at 0 cs) in *.
  pose proof (fit_used cf cs 0 F U0) as NF. fold c0 in NF. unfold fw_initialize. fold c0.
  destruct (fw (c_table c0) (c_from c0)) as [rs0|] eqn:F0; [|contradiction].
  destruct (probe_spec c0 NF fw rs0 F0 (proj1 PW)) as (fw1 & R1 & P1). rewrite R1. cbn [bind negb].
  assert (RM1 : removable cs fw1). { intros c I U. destruct (RM c I U) as [A B]. split; intros *; rewrite P1; [apply A|apply B]. }
  destruct (delete_all_spec K KO KR cf cs F fw1 RM1) as (fw2 & R2 & P2). rewrite R2. cbn [bind].
  assert (Q2 : forall t n, fw2 t n = bare cs fw t n). { intros t n. rewrite P2. apply bare_ext. exact P1. }
  destruct (make_runs cs cs (fun _ x => x) F fw2) as (fw3 & R3 & G3 & EX & JP). rewrite R3. cbn [bind].
  assert (B2 : forall c, based cs fw c -> fw2 (c_table c) (c_from c) <> None).
  { intros c (_ & B & O) E. rewrite Q2 in E. unfold bare in E. destruct (ownb cs (c_table c) (c_from c)) eqn:OB; [apply ownb_iff in OB; contradiction|].
    destruct (fw (c_table c) (c_from c)); [discriminate|contradiction]. }
  assert (B3 : exists rs, fw3 (c_table c0) (c_from c0) = Some rs).
  { pose proof (B2 c0) as B. assert (BB : based cs fw c0) by (split; [exact U0|split; [congruence|exact O0]]). specialize (B BB). specialize (G3 (c_table c0) (c_from c0)).
    destruct (fw2 (c_table c0) (c_from c0)); [|contradiction]. destruct G3 as (rs & E & _). eauto. }
  destruct B3 as (rs3 & F3).
  assert (SRC : forall r, In r rs3 -> (exists rs, fw (c_table c0) (c_from c0) = Some rs /\ In r rs) \/ jumps cs (c_table c0) (c_from c0) r).
  { intros r I. specialize (G3 (c_table c0) (c_from c0)). rewrite F3 in G3. destruct (fw2 (c_table c0) (c_from c0)) as [rs2|] eqn:F2.
    - destruct G3 as (rs' & E & D). injection E as <-.
      assert (X : In r rs2 \/ jumps cs (c_table c0) (c_from c0) r).
      { clear - D I. induction D; cbn in *; [auto| |]; destruct I as [<-|I]; auto; destruct (IHD I); auto. }
      destruct X as [X|X]; [left|now right]. rewrite Q2 in F2. unfold bare in F2. destruct (ownb _ _ _); [discriminate|]. rewrite F0 in F2. injection F2 as <-.
      apply filter_In in X as [X _]. exists rs0. auto.
    - destruct G3 as [E|(_ & rs' & E & FA)]; [discriminate|]. injection E as <-. rewrite Forall_forall in FA. right. now apply FA. }
  assert (C4 : exists fw4, (if check then comment_match_exists machine run cf c0 (fw3, []) else @Ok (bool * machine) (true, (fw3, []))) = Ok (true, (fw4, [])) /\ forall t n, fw4 t n = fw3 t n).
  { destruct check; [eapply (comment_spec c0 NF cs fw PW fw3 rs3 F3); exact SRC|]. exists fw3. auto. }
  destruct C4 as (fw4 & R4 & P4). match type of R4 with ?l = _ => match goal with |- context [bind ?x _] => change x with l; rewrite R4 end end. cbn [bind]. exists fw4. change (0 =? 0) with true. cbn [andb]. split; [reflexivity|].
  assert (R23 : rest cs fw2 fw3). { eapply rest_grown; [| |exact G3]; auto. }
  split; [|split].
  - intros t n. rewrite (bare_ext cs fw4 fw3 P4). rewrite <- (R23 t n). rewrite (bare_ext cs fw2 (bare cs fw) Q2).
    unfold bare. destruct (ownb cs t n); [reflexivity|]. destruct (fw t n) as [rs|]; [|reflexivity]. f_equal. rewrite filter_filter. apply filter_fext. intros x. destruct (negb _); reflexivity.
  - intros c I U. rewrite P4. pose proof (own_in cs c I U) as O. specialize (G3 (c_table c) (c_to c)).
    assert (E : fw2 (c_table c) (c_to c) = None). { rewrite Q2. unfold bare. apply ownb_iff in O. now rewrite O. }
    rewrite E in G3. destruct G3 as [E3|(_ & rs & E3 & FA)]; [|eauto]. destruct (EX c I U) as (rs & X). congruence.
  - intros c I LG J1 B. rewrite P4. apply JP; auto. apply B.
Qed.
End Start.
