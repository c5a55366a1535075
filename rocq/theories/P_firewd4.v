(** The firewalld back end beside the iptables back end: removal of expired rules. *)
From Verif Require Import Bytes M_util M_message M_codec M_access M_cycle M_incoming M_packet M_fw M_fwinit
  S_text S_access S_incoming S_fw S_fwinit P_bytes P_util P_util2 P_access P_incoming5 P_fw P_fw2 P_fw3 P_fw4 P_fw5 P_fw6 P_fw7 P_fwinit P_fwinit2 P_fwinit3
  M_firewd S_firewd P_firewd P_firewd2.
From Coq Require Import Init.Byte List ZArith Bool Lia.
Import ListNotations.
Open Scope Z_scope.

(** ** Beginnings *)
Definition begins {A} (a s : list A) : Prop := exists z, s = a ++ z.
Lemma begins_trans {A} (a b c : list A) : begins a b -> begins b c -> begins a c.
Proof. intros (x & ->) (y & ->). exists (x ++ y). now rewrite <- app_assoc. Qed.
Lemma begins_take n (s : bytes) : begins (ztake n s) s.
Proof. unfold ztake. exists (skipn (Z.to_nat n) s). now rewrite firstn_skipn. Qed.
Lemma cut_rev_end s : exists z, s = z ++ cut_rev s.
Proof.
  induction s as [|b s IH]; [exists []; reflexivity|]. cbn [cut_rev]. destruct IH as (z & E).
  destruct s as [|x s]; [exists []; destruct (beq b x0a); reflexivity|]. destruct (beq b x0a); [exists []; reflexivity|]. exists (b :: z). cbn [app]. now f_equal.
Qed.
Lemma begins_truncate s : begins (truncate_partial_line s) s.
Proof.
  unfold truncate_partial_line. destruct (memb x0a s); [|exists []; now rewrite app_nil_r].
  destruct (cut_rev_end (rev s)) as (z & E). exists (rev z). rewrite <- rev_app_distr, <- E. symmetry. apply rev_involutive.
Qed.
Lemma begins_chop s : begins (chop_newline s) s.
Proof.
  unfold chop_newline. destruct (_ && _) eqn:B; [|exists []; now rewrite app_nil_r]. exists [last s x00]. apply app_removelast_last.
  intros ->. discriminate.
Qed.
Lemma unmarked_begins a s : begins a s -> unmarked s -> unmarked a.
Proof. intros (z & ->) U x y ->. apply (U x (y ++ z)). now rewrite <- !app_assoc. Qed.

(** Nothing, or a further line without a mark *)
Definition addition (v : bytes) : Prop := v = [] \/ exists y, v = x0a :: y /\ unmarked y.
Lemma addition_end v : addition v -> line_end v.
Proof. intros [->|(y & -> & _)]; [now left|right; eauto]. Qed.
Lemma read_addition L y : no_nul (L ++ [x0a]) -> no_nul y -> unmarked y -> L <> [] -> zlen (L ++ [x0a]) <= 4095 -> exists v, addition v /\
  chop_newline (truncate_partial_line (read_output STANDARD_CMD_OUT_BUFSIZE ((L ++ [x0a]) ++ y) [] [])) = L ++ v.
Proof.
  intros N1 N2 U NE LL. rewrite read_output_spec; [|apply no_nul_app; auto|apply no_nul_nil|reflexivity].
  cbn [app]. change (STANDARD_CMD_OUT_BUFSIZE - 1 - zlen []) with 4095.
  set (s := ztake 4095 ((L ++ [x0a]) ++ y)). assert (B : begins (chop_newline (truncate_partial_line s)) (L ++ x0a :: y)).
  { replace (L ++ x0a :: y) with ((L ++ [x0a]) ++ y) by (now rewrite <- app_assoc). eapply begins_trans; [apply begins_chop|]. eapply begins_trans; [apply begins_truncate|]. apply begins_take. }
  assert (H : exists r, chop_newline (truncate_partial_line s) = L ++ r).
  { unfold s. destruct (ztake_keeps (L ++ [x0a]) y 4095 LL) as (b & ->). rewrite <- app_assoc. destruct (truncate_keeps L b) as (b' & ->). apply chop_keeps. }
  destruct H as (r & E). rewrite E in *. exists r. split; [|reflexivity]. destruct B as (z & B). rewrite <- app_assoc in B. apply app_inv_head in B.
  destruct r as [|x r]; [now left|]. cbn [app] in B. injection B as <- B. right. exists r. split; [reflexivity|]. eapply unmarked_begins; [|exact U]. exists z. exact B.
Qed.

(** ** An addition to the listing changes nothing *)
Lemma index_of_head c (u v : bytes) : In c u -> index_of c (u ++ v) = index_of c u.
Proof. induction u as [|x u IH]; intros I; [destruct I|]. cbn [app index_of]. destruct (beq_spec x c); [reflexivity|]. destruct I as [->|I]; [contradiction|]. now rewrite IH. Qed.
Section Added.
Variable W : Type.
Variable exec : W -> list bytes -> W * ended * bytes.
Variable cf : fwconf.
Variable c : chain.
Variable now : Z.
Notation loop := (expire_loop W exec cf c now).

Lemma one_added before ds a b st : ds <> [] -> all_digits ds -> zlen ds <= 11 ->
  expire_one W exec cf c now before (ds ++ $ " */" ++ a) st = expire_one W exec cf c now before (ds ++ $ " */" ++ b) st.
Proof.
  intros N A L. unfold expire_one. rewrite !exp_str_digits by auto. destruct (negb (is_digits ds)); [reflexivity|]. destruct (_ <=? now); [|reflexivity].
  destruct (index_of x0a before) as [k|]; [|reflexivity].
  assert (X : forall t, rev (firstn k before) ++ EXPIRE_COMMENT_PREFIX ++ ds ++ $ " */" ++ t = (rev (firstn k before) ++ EXPIRE_COMMENT_PREFIX ++ ds ++ $ " */") ++ t) by (intros t; now rewrite <- !app_assoc).
  rewrite !X. set (u := rev (firstn k before) ++ EXPIRE_COMMENT_PREFIX ++ ds ++ $ " */").
  assert (I : In " "%byte u) by (unfold u; rewrite !in_app_iff; right; right; right; now left).
  rewrite !index_of_head by exact I. destruct (index_of " "%byte u) as [j|] eqn:J; [|reflexivity].
  apply index_of_Some in J as (x & y & E & LJ & _).
  assert (Y : forall t, firstn j (u ++ t) = x). { intros t. rewrite E, <- app_assoc. subst j. rewrite firstn_app, Nat.sub_diag, firstn_all. cbn [firstn]. apply app_nil_r. }
  rewrite !Y. reflexivity.
Qed.

Variable K : iptables.
Hypothesis NUM : forall k, 0 <= k -> Forall (fun x => x <> "_"%byte) (number K k).
Lemma loop_added v rs : addition v -> forall k before st, 0 <= k -> Forall (fun r => readable (show K r)) rs ->
  loop 0 before (body K k rs ++ v) st = loop 0 before (body K k rs) st.
Proof.
  intros AV. pose proof (addition_end v AV) as LV. induction rs as [|r rs IH]; intros k before st KP R.
  - cbn [body app]. destruct AV as [->|(y & -> & U)]; [reflexivity|]. replace (x0a :: y) with ((x0a :: y) ++ []) by apply app_nil_r.
    rewrite loop_quiet; [reflexivity|]. apply quiet_cons; [discriminate|]. apply quiet_unmarked; [exact U|now left].
  - pose proof (Forall_inv R) as (_ & _ & M). pose proof (Forall_inv_tail R) as R2. clear R. specialize (NUM k KP).
    cbn [body]. set (T := body K (k + 1) rs) in *.
    assert (LT : line_end T) by (apply body_end). assert (LTV : line_end (T ++ v)). { destruct LT as [->|(w & ->)]; [exact LV|right; eexists; reflexivity]. }
    destruct M as [U|(e & X)].
    + replace (x0a :: number K k ++ " "%byte :: show K r ++ T) with (([x0a] ++ number K k ++ [" "%byte] ++ show K r) ++ T) by (cbn [app]; now rewrite <- !app_assoc).
      rewrite <- app_assoc. set (u := [x0a] ++ number K k ++ [" "%byte] ++ show K r). rewrite (loop_quiet W exec cf c now u (T ++ v)), (loop_quiet W exec cf c now u T).
      * apply IH; auto. lia.
      * apply quiet_cons; [discriminate|]. cbn [app]. apply quiet_app; auto. apply quiet_cons; [discriminate|]. now apply quiet_unmarked.
      * apply quiet_cons; [discriminate|]. cbn [app]. apply quiet_app; auto. apply quiet_cons; [discriminate|]. now apply quiet_unmarked.
    + pose proof X as (pre & ds & post & SX & SU & DN & DA & DL & DE).
      assert (UQ : forall a b, pre ++ mark ++ (ds ++ $ " */" ++ post) = a ++ mark ++ b -> a = pre) by (intros a b Q; apply (SU a b); rewrite SX; exact Q).
      rewrite SX.
      assert (Y : forall t, x0a :: number K k ++ " "%byte :: (pre ++ mark ++ ds ++ $ " */" ++ post) ++ t =
        ([x0a] ++ number K k ++ [" "%byte] ++ pre) ++ mark ++ (ds ++ $ " */" ++ post) ++ t).
      { intros t. cbn [app]. rewrite <- !app_assoc. cbn [app]. rewrite <- ?app_assoc. reflexivity. }
      assert (Y2 : (x0a :: number K k ++ " "%byte :: (pre ++ mark ++ ds ++ $ " */" ++ post) ++ T) ++ v = x0a :: number K k ++ " "%byte :: (pre ++ mark ++ ds ++ $ " */" ++ post) ++ (T ++ v)).
      { cbn [app]. rewrite <- !app_assoc. cbn [app]. rewrite <- ?app_assoc. reflexivity. }
      rewrite Y2, !Y. set (u := [x0a] ++ number K k ++ [" "%byte] ++ pre). rewrite (loop_quiet W exec cf c now u (mark ++ (ds ++ $ " */" ++ post) ++ T ++ v)), (loop_quiet W exec cf c now u (mark ++ (ds ++ $ " */" ++ post) ++ T)).
      2:{ apply quiet_cons; [discriminate|]. cbn [app]. apply quiet_app; auto. apply quiet_cons; [discriminate|]. now apply quiet_before. }
      2:{ apply quiet_cons; [discriminate|]. cbn [app]. apply quiet_app; auto. apply quiet_cons; [discriminate|]. now apply quiet_before. }
      rewrite !loop_mark. rewrite <- !app_assoc. rewrite (one_added _ ds (post ++ T ++ v) (post ++ T)) by auto.
      destruct (expire_one _ _ _ _ _ _ _ _) as [[go st']|]; cbn [bind]; [|reflexivity]. destruct go; [|reflexivity].
      assert (Y3 : forall t, ds ++ $ " */" ++ post ++ t = (ds ++ $ " */" ++ post) ++ t) by (intros t; now rewrite <- !app_assoc).
      rewrite !Y3. rewrite (loop_quiet W exec cf c now (ds ++ $ " */" ++ post) (T ++ v)), (loop_quiet W exec cf c now (ds ++ $ " */" ++ post) T) by (eapply quiet_after; eauto). apply IH; auto. lia.
Qed.
Lemma found_added h v rs : addition v ->
  (strstr (fun b => b) EXPIRE_COMMENT_PREFIX ((h ++ body K 1 rs) ++ v) = None <-> strstr (fun b => b) EXPIRE_COMMENT_PREFIX (h ++ body K 1 rs) = None).
Proof.
  intros AV. pose proof (addition_end v AV) as LV. set (u := h ++ body K 1 rs).
  assert (ST : forall s, strstr (fun b => b) EXPIRE_COMMENT_PREFIX s = None <-> unmarked s).
  { intros s. split.
    - intros E a b ->. exact (strstr_found EXPIRE_COMMENT_PREFIX a b E).
    - intros U. destruct (strstr _ _ s) as [t|] eqn:E; [|reflexivity]. exfalso. apply strstr_some in E as (a & x & b & -> & -> & E & _).
      rewrite map_id in E. subst x. exact (U a b eq_refl). }
  rewrite !ST. split.
  - intros U a b E. apply (U a (b ++ v)). rewrite E, <- !app_assoc. reflexivity.
  - intros U a b E. destruct (mark_in_line _ _ _ _ LV E) as [(b' & Q & _)|G]; [exact (U _ _ Q)|].
    destruct (app_split _ _ _ _ E) as [(x & -> & Q)|(x & -> & Q & _)].
    + rewrite zlen_app in G. assert (x = []) as -> by (apply zlen_zero; pose proof (zlen_nonneg x); lia). cbn [app] in Q.
      destruct AV as [->|(y & -> & UY)]; [discriminate Q|]. discriminate Q.
    + destruct AV as [->|(y & -> & UY)]; [destruct x; discriminate Q|]. destruct x as [|w x]; [discriminate Q|]. cbn [app] in Q. injection Q as _ Q. exact (UY _ _ Q).
Qed.
End Added.

Section Side.
Variable K : iptables.
Variable KO : iptables_ok K.
Variable F : firewalld.
Hypothesis FO : firewalld_ok F.
Variable cf : fwconf.
Hypothesis WE : word (f_cmd cf).
Hypothesis SE : zlen (f_cmd cf) <= 71.
Notation fd := (run_firewall_cmd K F).
Notation ip := (run_iptables (quietly K)).
Notation cd := (through cf).
Notation ci := (beside cf).

Lemma command_eq args w : blanks args <= 23 -> command machine fd cd args w = command machine ip ci args w.
Proof.
  intros B. destruct w as [fw fs]. destruct (argv_both cf WE SE args B) as (t & E1 & E2). unfold command, run_extcmd. rewrite E1, E2. cbn [bind].
  destruct (fd_prefix K F FO cf fw t) as (fw' & o & out & R1 & R2 & _). unfold run_firewall_cmd, run_iptables. rewrite R1, R2.
  destruct (hd Runs fs); reflexivity.
Qed.
Section Chain.
Variable c : chain.
Hypothesis NM : named c.
Variable now : Z.
Lemma one_eq before s st : expire_one machine fd cd c now before s st = expire_one machine ip ci c now before s st.
Proof.
  destruct NM as (W1 & W2 & W3 & W4 & L). unfold expire_one. destruct (negb (is_digits (exp_str s))); [reflexivity|]. destruct (_ <=? now); [|reflexivity].
  destruct (index_of x0a before) as [k|]; [|reflexivity]. destruct (index_of " "%byte _) as [j|]; [|reflexivity]. destruct (_ >? 6); [reflexivity|].
  destruct (strtol_wrapper _ (r_off _ st) RCHK_MAX_IPT_RULE_NUM) as [n err]. destruct (negb (strtol_ok err)); [reflexivity|].
  rewrite command_eq; [reflexivity|]. blank_ok.
Qed.
Lemma loop_eq s : forall skip before st, expire_loop machine fd cd c now skip before s st = expire_loop machine ip ci c now skip before s st.
Proof.
  induction s as [|b r IH]; intros skip before st; cbn [expire_loop]; [reflexivity|]. destruct skip; [|apply IH]. destruct (is_prefix _ _); [|apply IH].
  rewrite one_eq. destruct (expire_one _ _ _ _ _ _ _ _) as [[go st']|]; cbn [bind]; [|reflexivity]. destruct go; [apply IH|reflexivity].
Qed.
Lemma rm_eq out w : rm_expired_rules machine fd cd out now c w = rm_expired_rules machine ip ci out now c w.
Proof. unfold rm_expired_rules. now rewrite loop_eq. Qed.

Lemma list_args a b : $ " " ++ $ "-t " ++ a ++ $ " -L " ++ b ++ $ " --line-numbers -n" = flat_map (fun w => $ " " ++ w) [$ "-t"; a; $ "-L"; b; $ "--line-numbers"; $ "-n"].
Proof. cbn [flat_map]. rewrite app_nil_r, <- ?app_assoc. reflexivity. Qed.
Lemma list_argv : strtoargv (fmt (f_cmd cd ++ $ " -t " ++ c_table c ++ $ " -L " ++ c_to c ++ $ " --line-numbers -n")) =
    Ok (Some ([f_cmd cf; $ "--direct"; $ "--passthrough"; $ "ipv4"] ++ [$ "-t"; c_table c; $ "-L"; c_to c; $ "--line-numbers"; $ "-n"])) /\
  strtoargv (fmt (f_cmd ci ++ $ " -t " ++ c_table c ++ $ " -L " ++ c_to c ++ $ " --line-numbers -n")) = Ok (Some (list_words ci c)).
Proof.
  destruct NM as (W1 & W2 & W3 & W4 & L). apply (argv_words cf WE SE ($ "-t " ++ c_table c ++ $ " -L " ++ c_to c ++ $ " --line-numbers -n")).
  { apply list_args. } { words_ok. } { reflexivity. }
  { rewrite !zlen_app. change (zlen ($ "-t ")) with 3. change (zlen ($ " -L ")) with 4. change (zlen ($ " --line-numbers -n")) with 18. lia. } { blank_ok. }
Qed.
Lemma list_same (fw : firewall) : fst (ipt (quietly K) fw (list_words ci c)) = fw.
Proof.
  unfold list_words. cbn [ipt]. change (bseq ($ "-t") ($ "-t")) with true. cbn iota. unfold ipt_table.
  change (bseq ($ "-L") ($ "-N")) with false. change (bseq ($ "-L") ($ "-L")) with true. cbn iota. destruct (fw (c_table c) (c_to c)); reflexivity.
Qed.
Lemma fd_list (fw : firewall) fs : exists ok out, run_extcmd machine fd (fw, fs) (fmt (f_cmd cd ++ $ " -t " ++ c_table c ++ $ " -L " ++ c_to c ++ $ " --line-numbers -n")) STANDARD_CMD_OUT_BUFSIZE =
    Ok (ok, out, (fw, tl fs)).
Proof.
  unfold run_extcmd. rewrite (proj1 list_argv). cbn [bind].
  destruct (fd_prefix K F FO cf fw [$ "-t"; c_table c; $ "-L"; c_to c; $ "--line-numbers"; $ "-n"]) as (fw' & o & out & R1 & R2 & _).
  pose proof (list_same fw) as S. unfold list_words in S. rewrite R2 in S. cbn [fst] in S. subst fw'. unfold run_firewall_cmd. rewrite R1.
  destruct (hd Runs fs); eauto.
Qed.

(** A chain that can be gone through *)
Lemma check_eq all i (fw : firewall) fs rs : unmarked (c_to c) ->
  fw (c_table c) (c_to c) = Some rs -> Forall (fun r => readable (show K r)) rs -> zlen (listing K (c_to c) rs) <= 4095 -> Forall honest fs ->
  check_chain machine fd cd all now i c (fw, fs) = check_chain machine ip ci all now i c (fw, fs).
Proof.
  intros UM E R LL HF. pose proof NM as (W1 & W2 & W3 & W4 & L). unfold check_chain. destruct (negb all && _); [reflexivity|]. destruct (_ || _); [reflexivity|].
  unfold run_extcmd. rewrite (proj1 list_argv), (proj2 list_argv). cbn [bind].
  destruct KO as (NU & HK & _). destruct (HK (c_to c) W3 UM) as (h & HD & HNE & HN & HU).
  assert (LT : listing K (c_to c) rs = (h ++ body K 1 rs) ++ [x0a]).
  { unfold listing. rewrite HD, <- !app_assoc, <- lines_body. reflexivity. }
  assert (NN : no_nul (listing K (c_to c) rs)).
  { unfold listing. apply no_nul_app; split.
    - rewrite HD. apply no_nul_app; split; [exact HN|apply no_nul_cons; split; [discriminate|apply no_nul_nil]].
    - apply lines_no_nul; auto. lia. }
  assert (QN : forall k, 0 <= k -> Forall (fun x => x <> "_"%byte) (number K k)).
  { intros k KP. destruct (NU k KP) as (_ & A & _). eapply Forall_impl; [|exact A]. intros x Dx ->. unfold digit in Dx. change (bv "_"%byte) with 95 in Dx. lia. }
  assert (RI : ipt (quietly K) fw (list_words ci c) = (fw, listing K (c_to c) rs)).
  { rewrite (list_result (quietly K) ci c fw rs E). unfold quietly. now rewrite listing_fail. }
  assert (RF : firewall_cmd K F fw ([f_cmd cf; $ "--direct"; $ "--passthrough"; $ "ipv4"] ++ [$ "-t"; c_table c; $ "-L"; c_to c; $ "--line-numbers"; $ "-n"]) =
    (fw, listing K (c_to c) rs ++ fd_tail F)).
  { cbn [app firewall_cmd]. change (passes ($ "--direct") ($ "--passthrough") ($ "ipv4")) with true. cbn iota.
    unfold ipt. change (bseq ($ "-t") ($ "-t")) with true. cbn iota. unfold ipt_table. rewrite E. change (bseq ($ "-L") ($ "-L")) with true. cbn iota.
    rewrite listing_fail, LT. destruct h; [contradiction|]. reflexivity. }
  assert (GO : forall fs1,
    (get (ok, out, w) <- Ok (true, truncate_partial_line (read_output STANDARD_CMD_OUT_BUFSIZE (listing K (c_to c) rs ++ fd_tail F) [] []), (fw, fs1) : machine);
     let out := chop_newline out in
     if negb ok then Ok (c, w)
     else match strstr (fun b => b) EXPIRE_COMMENT_PREFIX out with
         | None => Ok (mkChain (c_target c) (c_table c) (c_from c) (c_jump c) (c_to c) (less (c_active c)) (c_next c), w)
         | Some _ => rm_expired_rules machine fd cd out now c w
         end) =
    (get (ok, out, w) <- Ok (true, truncate_partial_line (read_output STANDARD_CMD_OUT_BUFSIZE (listing K (c_to c) rs) [] []), (fw, fs1) : machine);
     let out := chop_newline out in
     if negb ok then Ok (c, w)
     else match strstr (fun b => b) EXPIRE_COMMENT_PREFIX out with
         | None => Ok (mkChain (c_target c) (c_table c) (c_from c) (c_jump c) (c_to c) (less (c_active c)) (c_next c), w)
         | Some _ => rm_expired_rules machine ip ci out now c w
         end)).
  { intros fs1. cbn [bind negb]. cbv zeta. rewrite LT in NN, LL |- *.
    assert (NE : h ++ body K 1 rs <> []) by (destruct h; [contradiction|discriminate]).
    destruct (read_addition (h ++ body K 1 rs) (fd_tail F) NN (proj1 (proj2 FO)) (proj2 (proj2 FO)) NE LL) as (v & AV & ->).
    rewrite read_all; auto; [|reflexivity]. rewrite truncate_lines, chop_last by exact NE. set (u := h ++ body K 1 rs) in *.
    pose proof (found_added now K QN h v rs AV) as FA. fold u in FA.
    destruct (strstr (fun b => b) EXPIRE_COMMENT_PREFIX (u ++ v)) as [x|] eqn:S1, (strstr (fun b => b) EXPIRE_COMMENT_PREFIX u) as [y|] eqn:S2; try reflexivity.
    2:{ exfalso. destruct FA as [_ FA]. discriminate (FA eq_refl). }
    2:{ exfalso. destruct FA as [FA _]. discriminate (FA eq_refl). }
    rewrite rm_eq. unfold rm_expired_rules. unfold u. rewrite <- app_assoc.
    assert (HQ : forall t, line_end t -> quiet h t).
    { intros t LE. apply quiet_unmarked; [|exact LE]. intros a b Q. rewrite HD in HU. apply (HU a (b ++ [x0a])). rewrite Q, <- !app_assoc. reflexivity. }
    rewrite (loop_quiet machine ip ci c now h (body K 1 rs ++ v)), (loop_quiet machine ip ci c now h (body K 1 rs)).
    - rewrite (loop_added machine ip ci c now K QN v rs AV 1) by (auto; lia). reflexivity.
    - apply HQ, body_end.
    - apply HQ. destruct (body_end K 1 rs) as [->|(w & ->)]; [now apply addition_end|right; eexists; reflexivity]. }
  destruct fs as [|f fs]; unfold run_firewall_cmd at 1, run_iptables at 1; rewrite RF, RI; cbn [hd tl]; [apply GO|].
  destruct (Forall_inv HF) as [->|[->| ->]]; [apply GO|reflexivity|reflexivity].
Qed.
End Chain.
End Side.
