(** The turns of the daemon, and the rules that are there afterwards. *)
From Verif Require Import Bytes M_util M_message M_codec M_cipher M_ctx M_access M_replay M_cycle M_incoming M_packet M_fw M_fwinit M_daemon
  S_base64 S_text S_codec S_cipher S_ctx S_access S_replay S_cycle S_incoming S_fw S_fwinit S_daemon
  P_bytes P_util P_util2 P_access P_replay P_incoming P_incoming2 P_incoming3 P_incoming4 P_incoming5 P_incoming8
  P_fw P_fw2 P_fw3 P_fw4 P_fw5 P_fw6 P_fw7 P_fw8 P_fw9 P_fw10 P_fwinit P_fwinit2 P_daemon.
From Coq Require Import Init.Byte List ZArith Bool Lia.
Import ListNotations.
Open Scope Z_scope.

(** No rule is new. *)
Definition fewer (fw fw' : firewall) : Prop := forall t n r, was fw' t n r -> was fw t n r.
Lemma fewer_refl fw : fewer fw fw. Proof. intros t n r X. exact X. Qed.
Lemma fewer_trans a b c : fewer a b -> fewer b c -> fewer a c.
Proof. intros H G t n r X. apply H, G, X. Qed.
Lemma fewer_put fw t n v : (forall rs' r, v = Some rs' -> In r rs' -> was fw t n r) -> fewer fw (put_chain fw t n v).
Proof.
  intros Q t' n' r (rs & E & I). unfold put_chain in E. destruct (bseq t' t && bseq n' n) eqn:B; [|exists rs; auto].
  apply andb_true_iff in B as [B1 B2]. apply bseq_eq in B1, B2. subst. eapply Q; eauto.
Qed.

Section Fewer.
Variable K : iptables.
Hypothesis KO : iptables_ok K.
Variable cf : fwconf.
Notation run := (run_iptables K).
Ltac fits := rewrite ?zlen_app; cbn [join]; rewrite ?zlen_app; 
  repeat match goal with |- context [zlen (str ?s)] => let v := eval vm_compute in (zlen (str s)) in change (zlen (str s)) with v end;
  change (zlen [" "%byte]) with 1; lia.

Lemma in_remove_nth k : forall (rs : list rule) r, In r (remove_nth k rs) -> In r rs.
Proof. induction k; intros [|x rs] r; cbn; auto. intros [->|I]; auto. Qed.
Lemma in_remove_first x : forall (rs rs' : list rule) r, remove_first x rs = Some rs' -> In r rs' -> In r rs.
Proof.
  induction rs as [|y rs IH]; intros rs' r; cbn [remove_first]; [discriminate|]. destruct (same_rule x y).
  - intros Q I. injection Q as ->. now right.
  - destruct (remove_first x rs) as [l|]; [|discriminate]. intros Q. injection Q as <-. intros [->|I]; [now left|right]. eapply IH; eauto.
Qed.
Section One.
Variable c : chain.
Hypothesis (UU : in_use c) (NF : names_fit (f_cmd cf) c).
Lemma cmd_del_jump (fw : firewall) : fewer fw (fst (ipt K fw [f_cmd cf; $ "-t"; c_table c; $ "-D"; c_from c; $ "-j"; c_to c])).
Proof.
  cbn [ipt]. change (bseq ($ "-t") ($ "-t")) with true. cbn iota. unfold ipt_table. destruct (fw (c_table c) (c_from c)) as [rs|] eqn:F; [|apply fewer_refl].
  change (bseq ($ "-D") ($ "-L")) with false. change (bseq ($ "-D") ($ "-F")) with false. change (bseq ($ "-D") ($ "-X")) with false. change (bseq ($ "-D") ($ "-D")) with true. cbn iota.
  destruct (remove_first _ rs) as [rs'|] eqn:R; [|apply fewer_refl]. cbn [fst]. apply fewer_put. intros l r Q I. injection Q as <-. exists rs. split; auto. eapply in_remove_first; eauto.
Qed.
Lemma cmd_flush (fw : firewall) : fewer fw (fst (ipt K fw [f_cmd cf; $ "-t"; c_table c; $ "-F"; c_to c])).
Proof.
  cbn [ipt]. change (bseq ($ "-t") ($ "-t")) with true. cbn iota. unfold ipt_table. destruct (fw (c_table c) (c_to c)) as [rs|] eqn:F; [|apply fewer_refl].
  apply fewer_put. intros l r Q I. injection Q as <-. destruct I.
Qed.
Lemma cmd_del (fw : firewall) : fewer fw (fst (ipt K fw [f_cmd cf; $ "-t"; c_table c; $ "-X"; c_to c])).
Proof.
  cbn [ipt]. change (bseq ($ "-t") ($ "-t")) with true. cbn iota. unfold ipt_table. destruct (fw (c_table c) (c_to c)) as [[|x rs]|] eqn:F; try apply fewer_refl.
  change (bseq ($ "-X") ($ "-L")) with false. change (bseq ($ "-X") ($ "-F")) with false. change (bseq ($ "-X") ($ "-X")) with true. cbn iota.
  destruct (referenced K fw (c_table c) (c_to c)); [apply fewer_refl|]. apply fewer_put. discriminate.
Qed.
Lemma cmd_del_number (fw : firewall) x : fewer fw (fst (ipt K fw [f_cmd cf; $ "-t"; c_table c; $ "-D"; c_to c; x])).
Proof.
  cbn [ipt]. change (bseq ($ "-t") ($ "-t")) with true. cbn iota. unfold ipt_table. destruct (fw (c_table c) (c_to c)) as [rs|] eqn:F; [|apply fewer_refl].
  change (bseq ($ "-D") ($ "-L")) with false. change (bseq ($ "-D") ($ "-F")) with false. change (bseq ($ "-D") ($ "-X")) with false. change (bseq ($ "-D") ($ "-D")) with true. cbn iota zeta.
  destruct (_ && _); [|apply fewer_refl]. apply fewer_put. intros l r Q I. injection Q as <-. exists rs. split; auto. eapply in_remove_nth; eauto.
Qed.
Lemma either (fw fw' g : firewall) : fw' = fw \/ fw' = g -> fewer fw g -> fewer fw fw'.
Proof. intros [->| ->] R; auto using fewer_refl. Qed.

Lemma jumps_fewer k : forall (fw : firewall) fs, exists fw' fs', delete_jumps machine run cf k c (fw, fs) = Ok (fw', fs') /\ fewer fw fw'.
Proof.
  pose proof NF as (W1 & W2 & W3 & W4 & W5 & JR & UM & L).
  pose proof (zlen_nonneg (c_from c)). pose proof (zlen_nonneg (c_target c)).
  pose proof (zlen_nonneg (c_to c)). pose proof (zlen_nonneg (c_table c)). pose proof (zlen_nonneg (f_cmd cf)).
  induction k as [|k IH]; intros fw fs; cbn [delete_jumps]; [exists fw, fs; split; [reflexivity|apply fewer_refl]|].
  unfold jump_rule_exists.
  assert (RT : fmt ($ "-t " ++ c_table c ++ $ " -j " ++ c_to c) = rule_text (c_table c) [$ "-j"; c_to c] ++ []).
  { rewrite fmt_id; [rewrite app_nil_r; reflexivity|fits]. }
  rewrite RT. destruct (exists_spec K KO cf (c_from c) (c_table c) [$ "-j"; c_to c] [] fw fs) as (there & R3 & A3); auto; try discriminate; try reflexivity.
  { words_ok. } { unfold rule_text. rewrite zlen_nil. fits. }
  rewrite R3. cbn [bind]. destruct there; [|exists fw, (tl fs); split; [reflexivity|apply fewer_refl]].
  destruct (run_cmd K cf ($ "-t " ++ c_table c ++ $ " -D " ++ c_from c ++ $ " -j " ++ c_to c) [f_cmd cf; $ "-t"; c_table c; $ "-D"; c_from c; $ "-j"; c_to c] fw (tl fs))
    as (ok & fw1 & R1 & C1 & _); [cbn; rewrite <- ?app_assoc; reflexivity|words_ok|reflexivity|fits|].
  rewrite R1. cbn [bind]. destruct (IH fw1 (tl (tl fs))) as (fw2 & fs2 & R2 & G2). exists fw2, fs2. split; [exact R2|]. eapply fewer_trans; [|exact G2].
  eapply either; [exact C1|apply cmd_del_jump].
Qed.
Lemma drop_chain_fewer (fw : firewall) fs : exists fw' fs', delete_chain machine run cf c (fw, fs) = Ok (fw', fs') /\ fewer fw fw'.
Proof.
  pose proof NF as (W1 & W2 & W3 & W4 & W5 & JR & UM & L).
  pose proof (zlen_nonneg (c_from c)). pose proof (zlen_nonneg (c_target c)).
  pose proof (zlen_nonneg (c_to c)). pose proof (zlen_nonneg (c_table c)). pose proof (zlen_nonneg (f_cmd cf)).
  unfold delete_chain. pose proof (proj2 (inuse_iff c) UU) as IU. unfold inuse in IU. apply negb_true_iff in IU. rewrite IU.
  destruct (jumps_fewer 10 fw fs) as (fw1 & fs1 & R1 & G1). rewrite R1. cbn [bind].
  destruct (run_cmd K cf ($ "-t " ++ c_table c ++ $ " -F " ++ c_to c) [f_cmd cf; $ "-t"; c_table c; $ "-F"; c_to c] fw1 fs1)
    as (ok2 & fw2 & R2 & C2 & _); [cbn; rewrite <- ?app_assoc; reflexivity|words_ok|reflexivity|fits|].
  rewrite R2. cbn [bind].
  destruct (run_cmd K cf ($ "-t " ++ c_table c ++ $ " -X " ++ c_to c) [f_cmd cf; $ "-t"; c_table c; $ "-X"; c_to c] fw2 (tl fs1))
    as (ok3 & fw3 & R3 & C3 & _); [cbn; rewrite <- ?app_assoc; reflexivity|words_ok|reflexivity|fits|].
  rewrite R3. cbn [bind]. exists fw3, (tl (tl fs1)). split; [reflexivity|]. eapply fewer_trans; [exact G1|]. eapply fewer_trans.
  - eapply either; [exact C2|apply cmd_flush].
  - eapply either; [exact C3|apply cmd_del].
Qed.

(** One expired rule *)
Lemma expire_fewer now before s st : forall go st', expire_one machine run cf c now before s st = Ok (go, st') ->
  0 <= r_off _ st <= 65537 -> fewer (fst (r_w _ st)) (fst (r_w _ st')) /\ 0 <= r_off _ st' <= 65537.
Proof.
  pose proof NF as (W1 & W2 & W3 & W4 & W5 & JR & UM & L).
  pose proof (zlen_nonneg (c_from c)). pose proof (zlen_nonneg (c_target c)).
  pose proof (zlen_nonneg (c_to c)). pose proof (zlen_nonneg (c_table c)). pose proof (zlen_nonneg (f_cmd cf)).
  intros go st' Q B. unfold expire_one in Q.
  destruct (negb (is_digits (exp_str s))); [injection Q as <- <-; split; [apply fewer_refl|exact B]|].
  destruct (_ <=? now); [|injection Q as <- <-; split; [apply fewer_refl|exact B]].
  destruct (index_of x0a before) as [k|]; [|injection Q as <- <-; split; [apply fewer_refl|exact B]].
  destruct (index_of " "%byte _) as [j|]; [|injection Q as <- <-; split; [apply fewer_refl|exact B]].
  destruct (_ >? 6); [discriminate|]. destruct (strtol_wrapper _ (r_off _ st) RCHK_MAX_IPT_RULE_NUM) as [n err] eqn:SW.
  destruct (strtol_ok err) eqn:SO; cbn [negb] in Q; [|injection Q as <- <-; split; [apply fewer_refl|exact B]].
  assert (RG : r_off _ st <= n <= 65536).
  { destruct err; try discriminate. apply strtol_wrapper_range in SW. unfold RCHK_MAX_IPT_RULE_NUM in SW. lia. }
  rewrite dec_i_dec in Q by lia. destruct st as [off mn act [fw fs]]. cbn [r_off r_w r_min r_active fst] in *.
  assert (NM : numeral (n - off) (dec (n - off))) by (apply dec_num; lia).
  assert (LN : zlen (dec (n - off)) <= 5) by (apply dec_len5; lia).
  set (dj := dec (n - off)) in *. clearbody dj.
  destruct (run_cmd K cf ($ "-t " ++ c_table c ++ $ " -D " ++ c_to c ++ $ " " ++ dj) [f_cmd cf; $ "-t"; c_table c; $ "-D"; c_to c; dj] fw fs)
    as (ok & fw1 & R1 & C1 & _); [cbn; rewrite <- ?app_assoc; reflexivity|words_ok|reflexivity|fits|].
  rewrite R1 in Q. cbn [bind] in Q. injection Q as <- <-. destruct ok; cbn [r_w r_off fst]; (split; [eapply either; [exact C1|apply cmd_del_number]|lia]).
Qed.
Lemma loop_fewer now s : forall skip before st st', expire_loop machine run cf c now skip before s st = Ok st' ->
  0 <= r_off _ st <= 65537 -> fewer (fst (r_w _ st)) (fst (r_w _ st')).
Proof.
  induction s as [|b r IH]; intros skip before st st' Q B; cbn [expire_loop] in Q.
  - injection Q as <-. apply fewer_refl.
  - destruct skip as [|k]; [|eapply IH; eauto]. destruct (is_prefix _ _); [|eapply IH; eauto].
    destruct (expire_one machine run cf c now before (skipn 5 (b :: r)) st) as [[go st1]|] eqn:E; [|discriminate]. cbn [bind] in Q.
    destruct (expire_fewer _ _ _ _ _ _ E B) as [G B1]. destruct go; [|injection Q as <-; exact G]. eapply fewer_trans; [exact G|]. eapply IH; eauto.
Qed.
End One.

Lemma pass_chain_fewer cs0 all now i c (fw : firewall) fs c' fw' fs' : In c cs0 -> fitting (f_cmd cf) cs0 ->
  check_chain machine run cf all now i c (fw, fs) = Ok (c', (fw', fs')) -> fewer fw fw' /\ same_names c c'.
Proof.
  intros I F Q. unfold check_chain in Q. destruct (negb all && _); [injection Q as <- <- <-; split; [apply fewer_refl|apply same_names_refl]|].
  destruct (zlen (c_table c) =? 0) eqn:Z0; [injection Q as <- <- <-; split; [apply fewer_refl|apply same_names_refl]|].
  destruct (beq _ _); [injection Q as <- <- <-; split; [apply fewer_refl|apply same_names_refl]|]. cbn [orb] in Q.
  assert (NF : names_fit (f_cmd cf) c). { apply (fitting_table _ cs0); auto. intros E. rewrite E in Z0. discriminate. }
  pose proof (names_in_use _ _ NF) as UU.
  rewrite list_command in Q by exact NF. cbn [bind] in Q.
  assert (CP : exists ok out, captured STANDARD_CMD_OUT_BUFSIZE (run (fw, fs) (list_words cf c)) = (ok, out, (fw, tl fs))).
  { destruct (run_effect K fw fs (list_words cf c)) as (fw1 & e & out & R & C & _). rewrite R.
    assert (E1 : fst (ipt K fw (list_words cf c)) = fw).
    { unfold list_words. cbn [ipt]. change (bseq ($ "-t") ($ "-t")) with true. cbn iota. unfold ipt_table.
      change (bseq ($ "-L") ($ "-N")) with false. change (bseq ($ "-L") ($ "-L")) with true. cbn iota. destruct (fw (c_table c) (c_to c)); reflexivity. }
    assert (fw1 = fw) as -> by (destruct C; congruence). destruct e; cbn [captured]; eauto. }
  destruct CP as (ok & out & CP). rewrite CP in Q.
  destruct ok; cbn [negb] in Q; [|injection Q as <- <- <-; split; [apply fewer_refl|apply same_names_refl]].
  destruct (strstr _ _ _); [|injection Q as <- <- <-; split; [apply fewer_refl|repeat split]].
  unfold rm_expired_rules in Q. destruct (expire_loop _ _ _ _ _ _ _ _ _) as [st|] eqn:E; [|discriminate]. cbn [bind] in Q. injection Q as <- QW.
  apply (loop_fewer c NF) in E; [|cbn [r_off]; lia]. cbn [r_w fst] in E. rewrite QW in E. split; [exact E|repeat split].
Qed.
Lemma pass_fewer cs0 all now cs : (forall c, In c cs -> In c cs0) -> fitting (f_cmd cf) cs0 -> forall i (fw : firewall) fs cs' fw' fs',
  check_chains machine run cf all now i cs (fw, fs) = Ok (cs', (fw', fs')) -> fewer fw fw' /\ Forall2 same_names cs cs'.
Proof.
  intros S F. induction cs as [|c cs IH]; intros i fw fs cs' fw' fs' Q; cbn [check_chains] in Q.
  - injection Q as <- <- <-. split; [apply fewer_refl|constructor].
  - destruct (check_chain machine run cf all now i c (fw, fs)) as [[c1 [fw1 fs1]]|] eqn:E; [|discriminate]. cbn [bind] in Q.
    destruct (check_chains machine run cf all now (Datatypes.S i) cs (fw1, fs1)) as [[cs1 [fw2 fs2]]|] eqn:E2; [|discriminate]. cbn [bind] in Q. injection Q as <- <- <-.
    destruct (pass_chain_fewer cs0 _ _ _ _ _ _ _ _ _ (S c (or_introl eq_refl)) F E) as [G N].
    destruct (IH (fun x X => S x (or_intror X)) _ _ _ _ _ _ E2) as [G2 N2]. split; [eapply fewer_trans; eauto|constructor; auto].
Qed.
Lemma drop_fewer cs0 cs : (forall c, In c cs -> In c cs0) -> fitting (f_cmd cf) cs0 -> forall (fw : firewall) fs, exists fw' fs',
  delete_all_chains machine run cf cs (fw, fs) = Ok (fw', fs') /\ fewer fw fw'.
Proof.
  intros S F. induction cs as [|c cs IH]; intros fw fs; cbn [delete_all_chains].
  - exists fw, fs. split; [reflexivity|]. apply fewer_refl.
  - assert (IH' := IH (fun x X => S x (or_intror X))). destruct (inuse c) eqn:U.
    + pose proof (proj1 (inuse_iff c) U) as UU. pose proof (fitting_in _ _ _ F (S c (or_introl eq_refl)) UU) as NF.
      destruct (drop_chain_fewer c UU NF fw fs) as (fw1 & fs1 & R & G). rewrite R. cbn [bind].
      destruct (IH' fw1 fs1) as (fw2 & fs2 & R2 & G2). exists fw2, fs2. split; [exact R2|]. eapply fewer_trans; eauto.
    + unfold delete_chain. unfold inuse in U. apply negb_false_iff in U. rewrite U. cbn [bind]. apply IH'.
Qed.

End Fewer.
