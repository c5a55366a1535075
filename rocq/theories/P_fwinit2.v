(** The rest of the firewall is left alone. *)
From Verif Require Import Bytes M_util M_message M_codec M_access M_cycle M_incoming M_packet M_fw M_fwinit
  S_text S_access S_incoming S_fw S_fwinit P_bytes P_util P_util2 P_fw P_fw2 P_fw3 P_fw4 P_fw5 P_fw6 P_fw7 P_fw8 P_fw9 P_fw10 P_fwinit.
From Coq Require Import Init.Byte List ZArith Bool Lia.
Import ListNotations.
Open Scope Z_scope.

Definition rest (cs : list chain) (fw fw' : firewall) : Prop := forall t n, bare cs fw t n = bare cs fw' t n.
Lemma rest_refl cs fw : rest cs fw fw. Proof. intros t n. reflexivity. Qed.
Lemma rest_trans cs a b c : rest cs a b -> rest cs b c -> rest cs a c.
Proof. intros H G t n. rewrite H. apply G. Qed.
Lemma rest_own cs fw t n v : own cs t n -> rest cs fw (put_chain fw t n v).
Proof.
  intros O t' n'. unfold bare, put_chain. destruct (bseq t' t && bseq n' n) eqn:B; [|reflexivity].
  apply andb_true_iff in B as [B1 B2]. apply bseq_eq in B1, B2. subst. apply ownb_iff in O. now rewrite O.
Qed.
Lemma rest_put cs fw t n rs rs' : fw t n = Some rs -> filter (fun r => negb (jumpb cs t n r)) rs = filter (fun r => negb (jumpb cs t n r)) rs' ->
  rest cs fw (put_chain fw t n (Some rs')).
Proof.
  intros F E t' n'. unfold bare, put_chain. destruct (bseq t' t && bseq n' n) eqn:B; [|reflexivity].
  apply andb_true_iff in B as [B1 B2]. apply bseq_eq in B1, B2. subst. rewrite F, E. reflexivity.
Qed.
Lemma rest_grown cs (new : bytes -> bytes -> Prop) (P : bytes -> bytes -> rule -> Prop) fw fw' : (forall t n, new t n -> own cs t n) ->
  (forall t n r, P t n r -> own cs t n \/ jumps cs t n r) -> grown new P fw fw' -> rest cs fw fw'.
Proof.
  intros N Q G t n. unfold bare. destruct (ownb cs t n) eqn:O; [reflexivity|].
  assert (NO : ~ own cs t n) by (rewrite <- ownb_iff; congruence). specialize (G t n). destruct (fw t n) as [rs|].
  - destruct G as (rs' & -> & D). f_equal. clear - D NO Q. induction D; [reflexivity| |]; cbn [filter].
    + destruct (Q _ _ _ H) as [X|X]; [contradiction|]. apply jumpb_iff in X. rewrite X. cbn [negb]. exact IHD.
    + rewrite IHD. reflexivity.
  - destruct G as [->|(X & _)]; [reflexivity|]. exfalso. apply NO, N, X.
Qed.
Lemma names_own cs cs' t n : Forall2 same_names cs cs' -> ownb cs' t n = ownb cs t n.
Proof.
  unfold ownb. induction 1 as [|c c' l l' S F IH]; [reflexivity|]. cbn [existsb]. rewrite IH. destruct S as (E1 & E2 & E3 & E4 & E5). unfold inuse. now rewrite E1, E2, E5.
Qed.
Lemma names_jump cs cs' t n r : Forall2 same_names cs cs' -> jumpb cs' t n r = jumpb cs t n r.
Proof.
  unfold jumpb. induction 1 as [|c c' l l' S F IH]; [reflexivity|]. cbn [existsb]. rewrite IH. destruct S as (E1 & E2 & E3 & E4 & E5). unfold inuse. now rewrite E1, E2, E3, E5.
Qed.
Lemma names_bare cs cs' fw t n : Forall2 same_names cs cs' -> bare cs' fw t n = bare cs fw t n.
Proof. intros F. unfold bare. rewrite (names_own cs cs') by exact F. destruct (ownb cs t n); auto. destruct (fw t n); auto. f_equal. apply filter_fext. intros r. now rewrite (names_jump cs cs'). Qed.
Lemma names_fitting exe cs cs' : Forall2 same_names cs cs' -> fitting exe cs -> fitting exe cs'.
Proof.
  intros F H c' I. revert H. induction F as [|a b l l' S F IH]; [destruct I|]. intros H. destruct I as [<-|I].
  - destruct (H a (or_introl eq_refl)) as [(E1 & E2 & E3 & E4)|N].
    + left. destruct S as (-> & -> & -> & _ & ->). auto.
    + right. eapply names_fit_same; eauto.
  - apply IH; auto. intros x X. apply H. now right.
Qed.

Section Rest.
Variable K : iptables.
Hypothesis KO : iptables_ok K.
Variable cf : fwconf.
Notation run := (run_iptables K).
Ltac fits := rewrite ?zlen_app; cbn [join]; rewrite ?zlen_app; 
  repeat match goal with |- context [zlen (str ?s)] => let v := eval vm_compute in (zlen (str s)) in change (zlen (str s)) with v end;
  change (zlen [" "%byte]) with 1; lia.

Lemma own_in cs c : In c cs -> in_use c -> own cs (c_table c) (c_to c).
Proof. intros I U. exists c. auto. Qed.

Lemma make_rest cs0 cs : (forall c, In c cs -> In c cs0) -> fitting (f_cmd cf) cs0 -> forall (fw : firewall) fs, exists e fw' fs',
  create_fw_chains machine run cf cs (fw, fs) = Ok (e, (fw', fs')) /\ rest cs0 fw fw'.
Proof.
  intros S F. induction cs as [|c cs IH]; intros fw fs; cbn [create_fw_chains].
  - exists 0, fw, fs. split; [reflexivity|]. apply rest_refl.
  - assert (IH' := IH (fun x X => S x (or_intror X))). destruct (inuse c) eqn:U.
    + pose proof (proj1 (inuse_iff c) U) as UU. pose proof (fitting_in _ _ _ F (S c (or_introl eq_refl)) UU) as NF.
      unfold inuse in U. apply negb_true_iff in U. rewrite U.
      destruct (mk_chain_spec K KO cf c NF fw fs) as (e & fw1 & fs1 & R & G & _). rewrite R. cbn [bind].
      destruct (IH' fw1 fs1) as (e2 & fw2 & fs2 & R2 & G2). rewrite R2. cbn [bind]. exists (e + e2), fw2, fs2. split; [reflexivity|]. eapply rest_trans; [|exact G2].
      eapply rest_grown; [| |exact G].
      * intros t n (-> & ->). apply own_in; auto. apply S. now left.
      * intros t n r (-> & -> & ->). right. exists c. repeat split; auto. apply S. now left.
    + unfold inuse in U. apply negb_false_iff in U. rewrite U. cbn [bind]. destruct (IH' fw fs) as (e2 & fw2 & fs2 & R2 & G2). rewrite R2. cbn [bind].
      exists (0 + e2), fw2, fs2. split; [reflexivity|exact G2].
Qed.

Lemma remove_jump (f : rule -> bool) x rs rs' : f x = false -> remove_first x rs = Some rs' -> filter f rs' = filter f rs.
Proof.
  intros FX. revert rs'. induction rs as [|y r IH]; intros rs'; cbn [remove_first]; [discriminate|]. destruct (same_rule x y) eqn:E.
  - intros Q. injection Q as <-. apply same_rule_eq in E. subst y. cbn [filter]. now rewrite FX.
  - destruct (remove_first x r) as [r'|] eqn:R; [|discriminate]. intros Q. injection Q as <-. cbn [filter]. rewrite (IH r' eq_refl). reflexivity.
Qed.

Section One.
Variables (cs0 : list chain) (c : chain).
Hypothesis (IN : In c cs0) (UU : in_use c) (NF : names_fit (f_cmd cf) c).

Lemma cmd_del_jump (fw : firewall) : rest cs0 fw (fst (ipt K fw [f_cmd cf; $ "-t"; c_table c; $ "-D"; c_from c; $ "-j"; c_to c])).
Proof.
  cbn [ipt]. change (bseq ($ "-t") ($ "-t")) with true. cbn iota. unfold ipt_table. destruct (fw (c_table c) (c_from c)) as [rs|] eqn:F; [|apply rest_refl].
  change (bseq ($ "-D") ($ "-L")) with false. change (bseq ($ "-D") ($ "-F")) with false. change (bseq ($ "-D") ($ "-X")) with false. change (bseq ($ "-D") ($ "-D")) with true. cbn iota.
  destruct (remove_first _ rs) as [rs'|] eqn:R; [|apply rest_refl]. cbn [fst]. eapply rest_put; [exact F|]. symmetry. eapply remove_jump; [|exact R].
  apply negb_false_iff, jumpb_iff. exists c. auto.
Qed.
Lemma cmd_flush (fw : firewall) : rest cs0 fw (fst (ipt K fw [f_cmd cf; $ "-t"; c_table c; $ "-F"; c_to c])).
Proof.
  cbn [ipt]. change (bseq ($ "-t") ($ "-t")) with true. cbn iota. unfold ipt_table. destruct (fw (c_table c) (c_to c)) as [rs|] eqn:F; [|apply rest_refl].
  apply rest_own. now apply own_in.
Qed.
Lemma cmd_del (fw : firewall) : rest cs0 fw (fst (ipt K fw [f_cmd cf; $ "-t"; c_table c; $ "-X"; c_to c])).
Proof.
  cbn [ipt]. change (bseq ($ "-t") ($ "-t")) with true. cbn iota. unfold ipt_table. destruct (fw (c_table c) (c_to c)) as [[|x rs]|] eqn:F; try apply rest_refl.
  change (bseq ($ "-X") ($ "-L")) with false. change (bseq ($ "-X") ($ "-F")) with false. change (bseq ($ "-X") ($ "-X")) with true. cbn iota.
  destruct (referenced K fw (c_table c) (c_to c)); [apply rest_refl|]. apply rest_own. now apply own_in.
Qed.
Lemma cmd_del_number (fw : firewall) x : rest cs0 fw (fst (ipt K fw [f_cmd cf; $ "-t"; c_table c; $ "-D"; c_to c; x])).
Proof.
  cbn [ipt]. change (bseq ($ "-t") ($ "-t")) with true. cbn iota. unfold ipt_table. destruct (fw (c_table c) (c_to c)) as [rs|] eqn:F; [|apply rest_refl].
  change (bseq ($ "-D") ($ "-L")) with false. change (bseq ($ "-D") ($ "-F")) with false. change (bseq ($ "-D") ($ "-X")) with false. change (bseq ($ "-D") ($ "-D")) with true. cbn iota zeta.
  destruct (_ && _); [|apply rest_refl]. apply rest_own. now apply own_in.
Qed.
Lemma either (fw fw' g : firewall) : fw' = fw \/ fw' = g -> rest cs0 fw g -> rest cs0 fw fw'.
Proof. intros [->| ->] R; auto using rest_refl. Qed.

Lemma jumps_rest k : forall (fw : firewall) fs, exists fw' fs', delete_jumps machine run cf k c (fw, fs) = Ok (fw', fs') /\ rest cs0 fw fw'.
Proof.
  pose proof NF as (W1 & W2 & W3 & W4 & W5 & JR & UM & L).
  pose proof (zlen_nonneg (c_from c)). pose proof (zlen_nonneg (c_target c)).
  pose proof (zlen_nonneg (c_to c)). pose proof (zlen_nonneg (c_table c)). pose proof (zlen_nonneg (f_cmd cf)).
  induction k as [|k IH]; intros fw fs; cbn [delete_jumps]; [exists fw, fs; split; [reflexivity|apply rest_refl]|].
  unfold jump_rule_exists.
  assert (RT : fmt ($ "-t " ++ c_table c ++ $ " -j " ++ c_to c) = rule_text (c_table c) [$ "-j"; c_to c] ++ []).
  { rewrite fmt_id; [rewrite app_nil_r; reflexivity|fits]. }
  rewrite RT. destruct (exists_spec K KO cf (c_from c) (c_table c) [$ "-j"; c_to c] [] fw fs) as (there & R3 & A3); auto; try discriminate; try reflexivity.
  { words_ok. } { unfold rule_text. rewrite zlen_nil. fits. }
  rewrite R3. cbn [bind]. destruct there; [|exists fw, (tl fs); split; [reflexivity|apply rest_refl]].
  destruct (run_cmd K cf ($ "-t " ++ c_table c ++ $ " -D " ++ c_from c ++ $ " -j " ++ c_to c) [f_cmd cf; $ "-t"; c_table c; $ "-D"; c_from c; $ "-j"; c_to c] fw (tl fs))
    as (ok & fw1 & R1 & C1 & _); [cbn; rewrite <- ?app_assoc; reflexivity|words_ok|reflexivity|fits|].
  rewrite R1. cbn [bind]. destruct (IH fw1 (tl (tl fs))) as (fw2 & fs2 & R2 & G2). exists fw2, fs2. split; [exact R2|]. eapply rest_trans; [|exact G2].
  eapply either; [exact C1|apply cmd_del_jump].
Qed.
Lemma drop_chain_rest (fw : firewall) fs : exists fw' fs', delete_chain machine run cf c (fw, fs) = Ok (fw', fs') /\ rest cs0 fw fw'.
Proof.
  pose proof NF as (W1 & W2 & W3 & W4 & W5 & JR & UM & L).
  pose proof (zlen_nonneg (c_from c)). pose proof (zlen_nonneg (c_target c)).
  pose proof (zlen_nonneg (c_to c)). pose proof (zlen_nonneg (c_table c)). pose proof (zlen_nonneg (f_cmd cf)).
  unfold delete_chain. pose proof (proj2 (inuse_iff c) UU) as IU. unfold inuse in IU. apply negb_true_iff in IU. rewrite IU.
  destruct (jumps_rest 10 fw fs) as (fw1 & fs1 & R1 & G1). rewrite R1. cbn [bind].
  destruct (run_cmd K cf ($ "-t " ++ c_table c ++ $ " -F " ++ c_to c) [f_cmd cf; $ "-t"; c_table c; $ "-F"; c_to c] fw1 fs1)
    as (ok2 & fw2 & R2 & C2 & _); [cbn; rewrite <- ?app_assoc; reflexivity|words_ok|reflexivity|fits|].
  rewrite R2. cbn [bind].
  destruct (run_cmd K cf ($ "-t " ++ c_table c ++ $ " -X " ++ c_to c) [f_cmd cf; $ "-t"; c_table c; $ "-X"; c_to c] fw2 (tl fs1))
    as (ok3 & fw3 & R3 & C3 & _); [cbn; rewrite <- ?app_assoc; reflexivity|words_ok|reflexivity|fits|].
  rewrite R3. cbn [bind]. exists fw3, (tl (tl fs1)). split; [reflexivity|]. eapply rest_trans; [exact G1|]. eapply rest_trans.
  - eapply either; [exact C2|apply cmd_flush].
  - eapply either; [exact C3|apply cmd_del].
Qed.

(** One expired rule *)
Lemma expire_rest now before s st : forall go st', expire_one machine run cf c now before s st = Ok (go, st') ->
  0 <= r_off _ st <= 65537 -> rest cs0 (fst (r_w _ st)) (fst (r_w _ st')) /\ 0 <= r_off _ st' <= 65537.
Proof.
  pose proof NF as (W1 & W2 & W3 & W4 & W5 & JR & UM & L).
  pose proof (zlen_nonneg (c_from c)). pose proof (zlen_nonneg (c_target c)).
  pose proof (zlen_nonneg (c_to c)). pose proof (zlen_nonneg (c_table c)). pose proof (zlen_nonneg (f_cmd cf)).
  intros go st' Q B. unfold expire_one in Q.
  destruct (negb (is_digits (exp_str s))); [injection Q as <- <-; split; [apply rest_refl|exact B]|].
  destruct (_ <=? now); [|injection Q as <- <-; split; [apply rest_refl|exact B]].
  destruct (index_of x0a before) as [k|]; [|injection Q as <- <-; split; [apply rest_refl|exact B]].
  destruct (index_of " "%byte _) as [j|]; [|injection Q as <- <-; split; [apply rest_refl|exact B]].
  destruct (_ >? 6); [discriminate|]. destruct (strtol_wrapper _ (r_off _ st) RCHK_MAX_IPT_RULE_NUM) as [n err] eqn:SW.
  destruct (strtol_ok err) eqn:SO; cbn [negb] in Q; [|injection Q as <- <-; split; [apply rest_refl|exact B]].
  assert (RG : r_off _ st <= n <= 65536).
  { destruct err; try discriminate. apply strtol_wrapper_range in SW. unfold RCHK_MAX_IPT_RULE_NUM in SW. lia. }
  rewrite dec_i_dec in Q by lia. destruct st as [off mn act [fw fs]]. cbn [r_off r_w r_min r_active fst] in *.
  assert (NM : numeral (n - off) (dec (n - off))) by (apply dec_num; lia).
  assert (LN : zlen (dec (n - off)) <= 5) by (apply dec_len5; lia).
  set (dj := dec (n - off)) in *. clearbody dj.
  destruct (run_cmd K cf ($ "-t " ++ c_table c ++ $ " -D " ++ c_to c ++ $ " " ++ dj) [f_cmd cf; $ "-t"; c_table c; $ "-D"; c_to c; dj] fw fs)
    as (ok & fw1 & R1 & C1 & _); [cbn; rewrite <- ?app_assoc; reflexivity|words_ok|reflexivity|fits|].
  rewrite R1 in Q. cbn [bind] in Q. injection Q as <- <-. destruct ok; cbn [r_w r_off fst]; (split; [eapply either; [exact C1|apply cmd_del_number]|lia]).
Qed.
Lemma loop_rest now s : forall skip before st st', expire_loop machine run cf c now skip before s st = Ok st' ->
  0 <= r_off _ st <= 65537 -> rest cs0 (fst (r_w _ st)) (fst (r_w _ st')).
Proof.
  induction s as [|b r IH]; intros skip before st st' Q B; cbn [expire_loop] in Q.
  - injection Q as <-. apply rest_refl.
  - destruct skip as [|k]; [|eapply IH; eauto]. destruct (is_prefix _ _); [|eapply IH; eauto].
    destruct (expire_one machine run cf c now before (skipn 5 (b :: r)) st) as [[go st1]|] eqn:E; [|discriminate]. cbn [bind] in Q.
    destruct (expire_rest _ _ _ _ _ _ E B) as [G B1]. destruct go; [|injection Q as <-; exact G]. eapply rest_trans; [exact G|]. eapply IH; eauto.
Qed.
End One.

Lemma pass_chain_rest cs0 all now i c (fw : firewall) fs c' fw' fs' : In c cs0 -> fitting (f_cmd cf) cs0 ->
  check_chain machine run cf all now i c (fw, fs) = Ok (c', (fw', fs')) -> rest cs0 fw fw' /\ same_names c c'.
Proof.
  intros I F Q. unfold check_chain in Q. destruct (negb all && _); [injection Q as <- <- <-; split; [apply rest_refl|apply same_names_refl]|].
  destruct (zlen (c_table c) =? 0) eqn:Z0; [injection Q as <- <- <-; split; [apply rest_refl|apply same_names_refl]|].
  destruct (beq _ _); [injection Q as <- <- <-; split; [apply rest_refl|apply same_names_refl]|]. cbn [orb] in Q.
  assert (NF : names_fit (f_cmd cf) c). { apply (fitting_table _ cs0); auto. intros E. rewrite E in Z0. discriminate. }
  pose proof (names_in_use _ _ NF) as UU.
  rewrite list_command in Q by exact NF. cbn [bind] in Q.
  assert (CP : exists ok out, captured STANDARD_CMD_OUT_BUFSIZE (run (fw, fs) (list_words cf c)) = (ok, out, (fw, tl fs))).
  { destruct (run_effect K fw fs (list_words cf c)) as (fw1 & e & out & R & C & _). rewrite R.
    assert (E1 : fst (ipt K fw (list_words cf c)) = fw).
    { unfold list_words. cbn [ipt]. change (bseq ($ "-t") ($ "-t")) with true. cbn iota. unfold ipt_table.
      change (bseq ($ "-L") ($ "-N")) with false. change (bseq ($ "-L") ($ "-L")) with true. cbn iota. destruct (fw (c_table c) (c_to c)); reflexivity. }
    assert (fw1 = fw) as -> by (destruct C; congruence). destruct e; cbn [captured]; eauto. }
  destruct CP as (ok & out & CP). rewrite CP in Q.
  destruct ok; cbn [negb] in Q; [|injection Q as <- <- <-; split; [apply rest_refl|apply same_names_refl]].
  destruct (strstr _ _ _); [|injection Q as <- <- <-; split; [apply rest_refl|repeat split]].
  unfold rm_expired_rules in Q. destruct (expire_loop _ _ _ _ _ _ _ _ _) as [st|] eqn:E; [|discriminate]. cbn [bind] in Q. injection Q as <- QW.
  apply (loop_rest cs0 c I UU NF) in E; [|cbn [r_off]; lia]. cbn [r_w fst] in E. rewrite QW in E. split; [exact E|repeat split].
Qed.
Lemma pass_rest cs0 all now cs : (forall c, In c cs -> In c cs0) -> fitting (f_cmd cf) cs0 -> forall i (fw : firewall) fs cs' fw' fs',
  check_chains machine run cf all now i cs (fw, fs) = Ok (cs', (fw', fs')) -> rest cs0 fw fw' /\ Forall2 same_names cs cs'.
Proof.
  intros S F. induction cs as [|c cs IH]; intros i fw fs cs' fw' fs' Q; cbn [check_chains] in Q.
  - injection Q as <- <- <-. split; [apply rest_refl|constructor].
  - destruct (check_chain machine run cf all now i c (fw, fs)) as [[c1 [fw1 fs1]]|] eqn:E; [|discriminate]. cbn [bind] in Q.
    destruct (check_chains machine run cf all now (Datatypes.S i) cs (fw1, fs1)) as [[cs1 [fw2 fs2]]|] eqn:E2; [|discriminate]. cbn [bind] in Q. injection Q as <- <- <-.
    destruct (pass_chain_rest cs0 _ _ _ _ _ _ _ _ _ (S c (or_introl eq_refl)) F E) as [G N].
    destruct (IH (fun x X => S x (or_intror X)) _ _ _ _ _ _ E2) as [G2 N2]. split; [eapply rest_trans; eauto|constructor; auto].
Qed.
Lemma drop_rest cs0 cs : (forall c, In c cs -> In c cs0) -> fitting (f_cmd cf) cs0 -> forall (fw : firewall) fs, exists fw' fs',
  delete_all_chains machine run cf cs (fw, fs) = Ok (fw', fs') /\ rest cs0 fw fw'.
Proof.
  intros S F. induction cs as [|c cs IH]; intros fw fs; cbn [delete_all_chains].
  - exists fw, fs. split; [reflexivity|]. apply rest_refl.
  - assert (IH' := IH (fun x X => S x (or_intror X))). destruct (inuse c) eqn:U.
    + pose proof (proj1 (inuse_iff c) U) as UU. pose proof (fitting_in _ _ _ F (S c (or_introl eq_refl)) UU) as NF.
      destruct (drop_chain_rest cs0 c (S c (or_introl eq_refl)) UU NF fw fs) as (fw1 & fs1 & R & G). rewrite R. cbn [bind].
      destruct (IH' fw1 fs1) as (fw2 & fs2 & R2 & G2). exists fw2, fs2. split; [exact R2|]. eapply rest_trans; eauto.
    + unfold delete_chain. unfold inuse in U. apply negb_false_iff in U. rewrite U. cbn [bind]. apply IH'.
Qed.

Lemma chain_at_in j cs : c_to (chain_at j cs) <> [] \/ c_target (chain_at j cs) <> [] -> In (chain_at j cs) cs.
Proof.
  intros H. unfold chain_at in *. destruct (nth_in_or_default j cs no_chain) as [I|E]; [exact I|]. rewrite E in H. cbn in H. destruct H; congruence.
Qed.
Lemma is_own cs j t n : fitting (f_cmd cf) cs -> is_chain (chain_at j cs) t n -> own cs t n.
Proof.
  intros F (T & -> & ->). pose proof (chain_at_in j cs (or_introl T)) as I. apply own_in; auto. eapply names_in_use. eapply fitting_to; eauto.
Qed.
Lemma jump_own cs j t n r : fitting (f_cmd cf) cs -> c_to (chain_at j cs) <> [] -> jump_to (chain_at j cs) t n r -> jumps cs t n r.
Proof.
  intros F T (-> & -> & ->). pose proof (chain_at_in j cs (or_introl T)) as I. exists (chain_at j cs). repeat split; auto. eapply names_in_use. eapply fitting_to; eauto.
Qed.
Lemma within_own cs j Q t n r : fitting (f_cmd cf) cs -> within (chain_at j cs) Q t n r -> own cs t n \/ jumps cs t n r.
Proof.
  intros F (T & [J|(-> & -> & _)]); [right; eapply jump_own; eauto|left]. apply (is_own cs j); auto. repeat split. exact T.
Qed.
Lemma fit_at cs j : fitting (f_cmd cf) cs -> c_to (chain_at j cs) = [] \/ names_fit (f_cmd cf) (chain_at j cs).
Proof.
  intros F. destruct (c_to (chain_at j cs)) eqn:E; [now left|right]. assert (T : c_to (chain_at j cs) <> []) by congruence.
  apply (fitting_to _ cs); auto. apply chain_at_in. now left.
Qed.
Lemma fit_used cs j : fitting (f_cmd cf) cs -> in_use (chain_at j cs) -> names_fit (f_cmd cf) (chain_at j cs).
Proof. intros F U. apply (fitting_in _ cs); auto. apply chain_at_in. now right. Qed.

Lemma request_rest cs resolve nc d now (fw : firewall) fs : fitting (f_cmd cf) cs -> decent cf cs (Request resolve nc d now) ->
  exists cs' fw' fs', process_spa_request machine run cf resolve nc d now (cs, (fw, fs)) = Ok (cs', (fw', fs')) /\ rest cs fw fw' /\ Forall2 same_names cs cs'.
Proof.
  intros F (W1 & L1 & W2 & L2 & HE & S1 & S2 & U0 & U45 & proto & port & pl & RQ & NG).
  assert (WD : wants_nat nc (d_type d) \/ ~ wants_nat nc (d_type d)).
  { unfold wants_nat, local_nat. destruct (Z.eq_dec (d_type d) 5); [tauto|]. destruct (Z.eq_dec (d_type d) 6); [tauto|]. destruct (Z.eq_dec (d_type d) 2); [tauto|].
    destruct (Z.eq_dec (d_type d) 4); [tauto|]. destruct (n_force nc); [tauto|]. right. intros [[|]|[|[|]]]; congruence. }
  destruct WD as [WN|WN].
  - destruct (NG WN) as (ip & to & G).
    destruct (spa_nat K KO cf resolve nc d now W1 L1 W2 L2 HE pl proto port ip to cs fw fs WN RQ G) as (i & how & cs' & fw' & fs' & _ & R & N & GR & _); auto.
    { intros _. now apply fit_used. } { intros j _. now apply fit_at. } { intros X j [->| ->]; apply fit_used; auto; apply U45; exact X. }
    exists cs', fw', fs'. split; [exact R|]. split; [|exact N]. eapply rest_grown; [| |exact GR].
    + intros t n (j & X). eapply is_own; eauto.
    + intros t n r [(_ & X)|[(_ & X)|[(_ & X)|(_ & X)]]]; eapply within_own; eauto.
  - destruct (spa_access K KO cf resolve nc d now W1 L1 W2 L2 HE _ cs fw fs WN RQ) as (cs' & fw' & fs' & R & N & GR & _).
    { now apply fit_used. } { now apply fit_at. }
    exists cs', fw', fs'. split; [exact R|]. split; [|exact N].
    assert (T0 : c_to (chain_at 0 cs) <> []) by (destruct (fit_used cs 0 F U0) as (_ & _ & _ & (X & _) & _); exact X).
    eapply rest_grown; [| |exact GR].
    + intros t n [X|X]; eapply is_own; eauto.
    + intros t n r [X|[(X & Y)|(p & q & _ & [(X & _)|(X & _)])]]; [right|right|left|left].
      * eapply jump_own; eauto.
      * eapply jump_own; eauto.
      * eapply is_own; eauto.
      * eapply is_own; eauto.
Qed.

Lemma used_names cs cs' j : Forall2 same_names cs cs' -> in_use (chain_at j cs) -> in_use (chain_at j cs').
Proof. intros N U. destruct (nth_names j _ _ N) as (E & _). unfold in_use. now rewrite E. Qed.
Lemma decent_names cs cs' ev : Forall2 same_names cs cs' -> decent cf cs ev -> decent cf cs' ev.
Proof.
  intros N. destruct ev; auto. intros (W1 & L1 & W2 & L2 & HE & S1 & S2 & U0 & U45 & E). unfold decent. repeat (split; [assumption|]).
  split; [eapply used_names; eauto|]. split; [|exact E]. intros X. destruct (U45 X). split; eapply used_names; eauto.
Qed.
Lemma names_refl cs : Forall2 same_names cs cs.
Proof. induction cs; constructor; auto. repeat split. Qed.
Lemma happen_rest ev cs (fw : firewall) fs cs' fw' fs' : fitting (f_cmd cf) cs -> decent cf cs ev ->
  happen K cf ev (cs, (fw, fs)) = Ok (cs', (fw', fs')) -> rest cs fw fw' /\ Forall2 same_names cs cs'.
Proof.
  intros F D. destruct ev as [| |resolve nc d now|all now]; cbn [happen].
  - destruct (make_rest cs cs (fun _ x => x) F fw fs) as (e & fw1 & fs1 & R & G). rewrite R. cbn [bind snd]. intros Q. injection Q as <- <- <-. split; auto using names_refl.
  - destruct (drop_rest cs cs (fun _ x => x) F fw fs) as (fw1 & fs1 & R & G). rewrite R. cbn [bind snd]. intros Q. injection Q as <- <- <-. split; auto using names_refl.
  - destruct (request_rest cs resolve nc d now fw fs F D) as (cs1 & fw1 & fs1 & R & G & N). rewrite R. intros Q. injection Q as <- <- <-. auto.
  - apply pass_rest; auto.
Qed.
Theorem history_rest evs : forall cs (fw : firewall) fs cs' fw' fs', fitting (f_cmd cf) cs -> Forall (decent cf cs) evs ->
  history K cf evs (cs, (fw, fs)) = Ok (cs', (fw', fs')) -> rest cs fw fw' /\ Forall2 same_names cs cs'.
Proof.
  induction evs as [|ev evs IH]; intros cs fw fs cs' fw' fs' F D Q; cbn [history] in Q.
  - injection Q as <- <- <-. split; [apply rest_refl|apply names_refl].
  - inversion_clear D as [|? ? D1 D2]. destruct (happen K cf ev (cs, (fw, fs))) as [[cs1 [fw1 fs1]]|] eqn:E; [|discriminate]. cbn [bind] in Q.
    destruct (happen_rest _ _ _ _ _ _ _ F D1 E) as [G N].
    destruct (IH cs1 fw1 fs1 cs' fw' fs') as [G2 N2]; [eapply names_fitting; eauto| |exact Q|].
    { revert D2. apply Forall_impl. intros a. now apply decent_names. }
    split; [|eapply names_trans; eauto]. intros t n. rewrite (G t n). rewrite <- (names_bare cs cs1), <- (names_bare cs cs1 fw') by exact N. apply G2.
Qed.
End Rest.
