(** The firewalld back end beside the iptables back end: chains, rules, requests, removal. *)
From Verif Require Import Bytes M_util M_message M_codec M_access M_cycle M_incoming M_packet M_fw M_fwinit
  S_text S_access S_incoming S_fw S_fwinit P_bytes P_util P_util2 P_access P_fw P_fw2 P_fw7 P_fw8 P_fw9 P_fw10 P_fwinit P_fwinit2 P_fwinit3
  M_firewd S_firewd P_firewd.
From Coq Require Import Init.Byte List ZArith Bool Lia.
Import ListNotations.
Open Scope Z_scope.

Lemma blanks_nil : blanks [] = 0. Proof. reflexivity. Qed.
Ltac blank_ok :=
  rewrite ?blanks_app, ?blanks_dec, ?blanks_dec_i; repeat match goal with H : word ?x |- context [blanks ?x] => rewrite (blanks_word x H) end;
  repeat match goal with |- context [blanks ($ ?l)] => let v := eval vm_compute in (blanks ($ l)) in change (blanks ($ l)) with v end; try lia.

Definition named (c : chain) : Prop :=
  word (c_table c) /\ word (c_from c) /\ word (c_to c) /\ word (c_target c) /\ zlen (c_table c) + zlen (c_to c) <= 71.
Lemma named_same c c' : same_names c c' -> named c -> named c'.
Proof. intros (A & B & C & D & E). unfold named. now rewrite A, B, C, E. Qed.
Lemma pass_named exe c : names_pass exe c -> named c.
Proof.
  intros ((W1 & W2 & W3 & W4 & W5 & _) & L). unfold names_short in L. pose proof (zlen_nonneg exe). pose proof (zlen_nonneg (c_from c)). pose proof (zlen_nonneg (c_target c)).
  repeat split; try apply W2; try apply W3; try apply W4; try apply W5; lia.
Qed.

Section Side.
Variable K : iptables.
Variable F : firewalld.
Hypothesis FO : firewalld_ok F.
Variable cf : fwconf.
Hypothesis WE : word (f_cmd cf).
Hypothesis SE : zlen (f_cmd cf) <= 71.
Notation fd := (run_firewall_cmd K F).
Notation ip := (run_iptables (quietly K)).
Notation cd := (through cf).
Notation ci := (beside cf).
Notation any := (fun _ => True).

Section Chain.
Variable c : chain.
Hypothesis NM : named c.

Lemma argv_words args ws : $ " " ++ args = flat_map (fun w => $ " " ++ w) ws -> Forall word ws -> zlen ws < 24 -> zlen args <= 150 -> blanks args <= 23 ->
  strtoargv (fmt (f_cmd cd ++ $ " " ++ args)) = Ok (Some ([f_cmd cf; $ "--direct"; $ "--passthrough"; $ "ipv4"] ++ ws)) /\
  strtoargv (fmt (f_cmd ci ++ $ " " ++ args)) = Ok (Some (f_cmd ci :: ws)).
Proof.
  intros E W N L B. destruct (argv_both cf WE SE args B) as (t & E1 & E2). rewrite E1, E2.
  assert (J : f_cmd ci ++ $ " " ++ args = join [" "%byte] (f_cmd ci :: ws)).
  { rewrite E. clear. generalize (f_cmd ci). induction ws as [|w ws IH]; intros x; [cbn; now rewrite app_nil_r|].
    cbn [flat_map]. change (join [" "%byte] (x :: w :: ws)) with (x ++ [" "%byte] ++ join [" "%byte] (w :: ws)). rewrite <- IH.
    change ($ " ") with [" "%byte]. rewrite <- !app_assoc. reflexivity. }
  rewrite fmt_id in E2.
  2:{ rewrite !zlen_app. rewrite (zlen_ci cf). change (zlen ($ " ")) with 1. lia. }
  rewrite J in E2. rewrite argv_join in E2.
  - injection E2 as ->. auto.
  - constructor; [apply (word_ci cf WE SE)|exact W].
  - rewrite zlen_cons. lia.
  - rewrite <- J, !zlen_app, (zlen_ci cf). change (zlen ($ " ")) with 1. lia.
Qed.

Lemma listed_chain (fw : firewall) : ipt (quietly K) fw [f_cmd ci; $ "-t"; c_table c; $ "-L"; c_to c; $ "-n"] =
  (fw, match fw (c_table c) (c_to c) with Some rs => listing K (c_to c) rs | None => $ "failed" ++ [x0a] end).
Proof.
  unfold ipt. change (bseq ($ "-t") ($ "-t")) with true. cbn iota. unfold ipt_table. change (bseq ($ "-L") ($ "-L")) with true. change (bseq ($ "-L") ($ "-N")) with false.
  cbn iota. destruct (fw (c_table c) (c_to c)); [unfold quietly; now rewrite listing_fail|reflexivity].
Qed.

Lemma strlen_args a b : $ " " ++ $ "-t " ++ a ++ $ " -L " ++ b ++ $ " -n" = flat_map (fun w => $ " " ++ w) [$ "-t"; a; $ "-L"; b; $ "-n"].
Proof. cbn [flat_map]. rewrite app_nil_r, <- ?app_assoc. reflexivity. Qed.
Lemma new_args a b : $ " " ++ $ "-t " ++ a ++ $ " -N " ++ b = flat_map (fun w => $ " " ++ w) [$ "-t"; a; $ "-N"; b].
Proof. cbn [flat_map]. rewrite app_nil_r, <- ?app_assoc. reflexivity. Qed.

Lemma fd_chain_exists_spec (fw : firewall) fs : exists there, fd_chain_exists machine fd cd c (fw, fs) = Ok (there, (fw, tl fs)) /\
  (fs = [] -> there = true -> fw (c_table c) (c_to c) <> None).
Proof.
  destruct NM as (W1 & W2 & W3 & W4 & L). unfold fd_chain_exists, run_extcmd.
  destruct (argv_words ($ "-t " ++ c_table c ++ $ " -L " ++ c_to c ++ $ " -n") [$ "-t"; c_table c; $ "-L"; c_to c; $ "-n"]) as [E1 E2].
  { apply strlen_args. } { words_ok. } { reflexivity. }
  { rewrite !zlen_app. change (zlen ($ "-t ")) with 3. change (zlen ($ " -L ")) with 4. change (zlen ($ " -n")) with 3. lia. } { blank_ok. }
  rewrite E1. cbn [bind]. destruct (fd_prefix K F FO cf fw [$ "-t"; c_table c; $ "-L"; c_to c; $ "-n"]) as (fw' & o & out & R1 & R2 & RO).
  rewrite listed_chain in R2. assert (fw' = fw) as -> by congruence. unfold run_firewall_cmd. rewrite R1.
  assert (Z : fw (c_table c) (c_to c) = None -> match strstr (fun b => b) FIREWD_CMD_FAIL_STR (chop_newline (truncate_partial_line (read_output CMD_BUFSIZE out [] []))) with None => true | Some _ => false end = false).
  { intros E. 
    assert (O : firewall_cmd K F fw ([f_cmd cf; $ "--direct"; $ "--passthrough"; $ "ipv4"] ++ [$ "-t"; c_table c; $ "-L"; c_to c; $ "-n"]) =
      (fw, fd_error F [$ "-t"; c_table c; $ "-L"; c_to c; $ "-n"] ++ fd_tail F)).
    { cbn [app firewall_cmd]. change (passes ($ "--direct") ($ "--passthrough") ($ "ipv4")) with true. cbn iota.
      unfold ipt. change (bseq ($ "-t") ($ "-t")) with true. cbn iota. unfold ipt_table. rewrite E. change (bseq ($ "-L") ($ "-N")) with false. cbn iota. cbn [trouble failing_with].
      destruct (proj1 FO [$ "-t"; c_table c; $ "-L"; c_to c; $ "-n"]) as (m & -> & _). reflexivity. }
    rewrite O in R1. assert (out = fd_error F [$ "-t"; c_table c; $ "-L"; c_to c; $ "-n"] ++ fd_tail F) as -> by congruence.
    destruct (error_read F FO [$ "-t"; c_table c; $ "-L"; c_to c; $ "-n"] (fd_tail F) (tail_no_nul F FO)) as (r & ->).
    change ($ "Error: COMMAND_FAILED" ++ r) with ($ "Error: " ++ FIREWD_CMD_FAIL_STR ++ r).
    destruct (strstr _ _ _) eqn:S; [reflexivity|]. exfalso. exact (strstr_found FIREWD_CMD_FAIL_STR ($ "Error: ") r S). }
  destruct fs as [|[] fs]; cbn [hd tl bind]; eexists; (split; [reflexivity|]); try discriminate.
  intros _ T N. rewrite Z in T by exact N. discriminate.
Qed.

Definition first_part (ex : machine -> list bytes -> machine * ended * bytes) cf' exists_ (w : machine) : outcome (Z * machine) :=
  get (there, w) <- exists_ c w;
  if there : bool then Ok (0, w) else get (ok, w) <- create_chain machine ex cf' c w; Ok (if ok : bool then 0 else 1, w).
Lemma first_sim : sim any (first_part fd cd (fd_chain_exists machine fd cd)) (first_part ip ci (chain_exists machine ip ci)).
Proof.
  intros fw fs. pose proof NM as (W1 & W2 & W3 & W4 & L). unfold first_part. destruct (fd_chain_exists_spec fw fs) as (there & R & T). rewrite R. cbn [bind].
  assert (Q : forall gs, chain_exists machine ip ci c (fw, gs) = Ok (match hd Runs gs with Runs | Refuses => false | _ => true end, (fw, tl gs))).
  { intros gs. unfold chain_exists, command, run_extcmd.
    destruct (argv_words ($ "-t " ++ c_table c ++ $ " -L " ++ c_to c ++ $ " -n") [$ "-t"; c_table c; $ "-L"; c_to c; $ "-n"]) as [E1 E2].
    { apply strlen_args. } { words_ok. } { reflexivity. }
    { rewrite !zlen_app. change (zlen ($ "-t ")) with 3. change (zlen ($ " -L ")) with 4. change (zlen ($ " -n")) with 3. lia. } { blank_ok. }
    rewrite E2. cbn [bind]. unfold run_iptables. rewrite listed_chain. destruct gs as [|[] gs]; reflexivity. }
  destruct there.
  - exists 0, fw, (tl fs). split; [reflexivity|]. split; [exact I|]. split.
    + exists [NoStart]. intros t. cbn [app]. rewrite Q. reflexivity.
    + intros ->. split; [reflexivity|]. rewrite Q. cbn [hd tl bind]. unfold create_chain, command, run_extcmd.
      destruct (argv_words ($ "-t " ++ c_table c ++ $ " -N " ++ c_to c) [$ "-t"; c_table c; $ "-N"; c_to c]) as [E1 E2].
      { apply new_args. } { words_ok. } { reflexivity. }
      { rewrite !zlen_app. change (zlen ($ "-t ")) with 3. change (zlen ($ " -N ")) with 4. lia. } { blank_ok. }
      rewrite E2. cbn [bind]. unfold run_iptables, ipt. change (bseq ($ "-t") ($ "-t")) with true. cbn iota. unfold ipt_table.
      destruct (fw (c_table c) (c_to c)); [|exfalso; exact (T eq_refl eq_refl eq_refl)]. reflexivity.
  - assert (B : blanks ($ "-t " ++ c_table c ++ $ " -N " ++ c_to c) <= 23) by blank_ok.
    destruct (command_sim K F FO cf WE SE _ B fw (tl fs)) as (ok & fw' & fs' & E & _ & (gs & G) & H).
    unfold create_chain. rewrite E. cbn [bind]. exists (if ok then 0 else 1), fw', fs'. split; [reflexivity|]. split; [exact I|]. split.
    + exists (Runs :: gs). intros t. cbn [app]. rewrite Q. cbn [hd tl bind]. rewrite G. reflexivity.
    + intros ->. destruct (H eq_refl) as [-> H']. split; [reflexivity|]. rewrite Q. cbn [hd tl bind]. rewrite H'. reflexivity.
Qed.

Lemma jump_exists_sim : sim any (fd_jump_rule_exists machine fd cd c) (jump_rule_exists machine ip ci c).
Proof.
  destruct NM as (W1 & W2 & W3 & W4 & L). unfold fd_jump_rule_exists, jump_rule_exists. apply exists_sim; auto.
  assert (B : blanks (fmt ($ "-t " ++ c_table c ++ $ " -j " ++ c_to c)) <= 4) by (eapply Z.le_trans; [apply blanks_fmt|blank_ok]).
  rewrite !blanks_app, (blanks_word _ W2). change (blanks ($ " ")) with 1. lia.
Qed.
Lemma mk_chain_sim : sim any (fd_mk_chain machine fd cd c) (mk_chain machine ip ci c).
Proof.
  pose proof NM as (W1 & W2 & W3 & W4 & L). unfold fd_mk_chain, mk_chain.
  apply (sim_bind any any (first_part fd cd (fd_chain_exists machine fd cd)) (first_part ip ci (chain_exists machine ip ci))); [apply first_sim|]. intros e1 _.
  apply (sim_bind any any (fun w => get (there, w) <- fd_jump_rule_exists machine fd cd c w; if there : bool then Ok (0, w) else get (ok, w) <- add_jump_rule machine fd cd c w; Ok (if ok : bool then 0 else 1, w))
    (fun w => get (there, w) <- jump_rule_exists machine ip ci c w; if there : bool then Ok (0, w) else get (ok, w) <- add_jump_rule machine ip ci c w; Ok (if ok : bool then 0 else 1, w))).
  - apply (sim_bind any any _ _ _ _ jump_exists_sim). intros there _. destruct there; [now apply sim_ret|].
    apply (sim_bind any any (add_jump_rule machine fd cd c) (add_jump_rule machine ip ci c)); [|intros ok _; now apply sim_ret].
    unfold add_jump_rule. apply command_sim; auto. blank_ok.
  - intros e2 _. now apply sim_ret.
Qed.

(** ** Removal *)
Definition plainly (p : machine -> outcome machine) (w : machine) : outcome (unit * machine) := bind (p w) (fun w => Ok (tt, w)).
Lemma jumps_sim k : sim any (plainly (fd_delete_jumps machine fd cd k c)) (plainly (delete_jumps machine ip ci k c)).
Proof.
  destruct NM as (W1 & W2 & W3 & W4 & L). induction k as [|k IH].
  - unfold plainly. cbn [fd_delete_jumps delete_jumps bind]. now apply sim_ret.
  - eapply sim_ext; [apply (sim_bind any any _ _
      (fun x => let '(there, w) := x in if there : bool then get (_, w) <- command machine fd cd ($ "-t " ++ c_table c ++ $ " -D " ++ c_from c ++ $ " -j " ++ c_to c) w; plainly (fd_delete_jumps machine fd cd k c) w else Ok (tt, w))
      (fun x => let '(there, w) := x in if there : bool then get (_, w) <- command machine ip ci ($ "-t " ++ c_table c ++ $ " -D " ++ c_from c ++ $ " -j " ++ c_to c) w; plainly (delete_jumps machine ip ci k c) w else Ok (tt, w)) jump_exists_sim)| |].
    + intros [|] _; [|now apply sim_ret]. apply (sim_bind any any (command machine fd cd ($ "-t " ++ c_table c ++ $ " -D " ++ c_from c ++ $ " -j " ++ c_to c)) (command machine ip ci ($ "-t " ++ c_table c ++ $ " -D " ++ c_from c ++ $ " -j " ++ c_to c))).
      * apply command_sim; auto. blank_ok.
      * intros ok _. exact IH.
    + intros w. unfold plainly. cbn [fd_delete_jumps]. destruct (fd_jump_rule_exists _ _ _ _ _) as [[[|] w']|]; cbn [bind]; [|reflexivity|reflexivity].
      destruct (command _ _ _ _ _) as [[ok w2]|]; reflexivity.
    + intros w. unfold plainly. cbn [delete_jumps]. destruct (jump_rule_exists _ _ _ _ _) as [[[|] w']|]; cbn [bind]; [|reflexivity|reflexivity].
      destruct (command _ _ _ _ _) as [[ok w2]|]; reflexivity.
Qed.
Lemma delete_chain_sim : sim any (plainly (fd_delete_chain machine fd cd c)) (plainly (delete_chain machine ip ci c)).
Proof.
  destruct NM as (W1 & W2 & W3 & W4 & L). unfold fd_delete_chain, delete_chain. destruct (zlen (c_target c) =? 0).
  { unfold plainly. cbn [bind]. now apply sim_ret. }
  eapply sim_ext; [apply (sim_bind any any _ _
      (fun x => let '(_, w) := x in get (_, w) <- command machine fd cd ($ "-t " ++ c_table c ++ $ " -F " ++ c_to c) w; get (_, w) <- command machine fd cd ($ "-t " ++ c_table c ++ $ " -X " ++ c_to c) w; Ok (tt, w))
      (fun x => let '(_, w) := x in get (_, w) <- command machine ip ci ($ "-t " ++ c_table c ++ $ " -F " ++ c_to c) w; get (_, w) <- command machine ip ci ($ "-t " ++ c_table c ++ $ " -X " ++ c_to c) w; Ok (tt, w)) (jumps_sim 10))| |].
  - intros _ _. apply (sim_bind any any (command machine fd cd ($ "-t " ++ c_table c ++ $ " -F " ++ c_to c)) (command machine ip ci ($ "-t " ++ c_table c ++ $ " -F " ++ c_to c))); [apply command_sim; auto; blank_ok|].
    intros _ _. apply (sim_bind any any (command machine fd cd ($ "-t " ++ c_table c ++ $ " -X " ++ c_to c)) (command machine ip ci ($ "-t " ++ c_table c ++ $ " -X " ++ c_to c))); [apply command_sim; auto; blank_ok|].
    intros _ _. now apply sim_ret.
  - intros w. unfold plainly. destruct (fd_delete_jumps _ _ _ _ _ _) as [w1|]; cbn [bind]; [|reflexivity].
    destruct (command _ _ _ _ _) as [[ok w2]|]; cbn [bind]; [|reflexivity]. destruct (command _ _ _ _ _) as [[ok2 w3]|]; reflexivity.
  - intros w. unfold plainly. destruct (delete_jumps _ _ _ _ _ _) as [w1|]; cbn [bind]; [|reflexivity].
    destruct (command _ _ _ _ _) as [[ok w2]|]; cbn [bind]; [|reflexivity]. destruct (command _ _ _ _ _) as [[ok2 w3]|]; reflexivity.
Qed.
End Chain.

Lemma delete_all_sim cs : (forall c, In c cs -> in_use c -> named c) -> sim any (plainly (fd_delete_all_chains machine fd cd cs)) (plainly (delete_all_chains machine ip ci cs)).
Proof.
  induction cs as [|c cs IH]; intros NM.
  - unfold plainly. cbn [fd_delete_all_chains delete_all_chains bind]. now apply sim_ret.
  - assert (S1 : sim any (plainly (fd_delete_chain machine fd cd c)) (plainly (delete_chain machine ip ci c))).
    { destruct (zlen (c_target c) =? 0) eqn:Z.
      - unfold fd_delete_chain, delete_chain, plainly. rewrite Z. cbn [bind]. now apply sim_ret.
      - apply delete_chain_sim. apply NM; [now left|]. intros E. rewrite E in Z. discriminate. }
    eapply sim_ext; [apply (sim_bind any any _ _ (fun x => plainly (fd_delete_all_chains machine fd cd cs) (snd x)) (fun x => plainly (delete_all_chains machine ip ci cs) (snd x)) S1)| |].
    + intros u _. cbn [snd]. apply IH. intros c' H. apply NM. now right.
    + intros w. unfold plainly. cbn [fd_delete_all_chains]. destruct (fd_delete_chain _ _ _ _ _) as [w1|]; reflexivity.
    + intros w. unfold plainly. cbn [delete_all_chains]. destruct (delete_chain _ _ _ _ _) as [w1|]; reflexivity.
Qed.
Lemma make_sim cs : (forall c, In c cs -> in_use c -> named c) -> sim any (fd_create_fw_chains machine fd cd cs) (create_fw_chains machine ip ci cs).
Proof.
  induction cs as [|c cs IH]; intros NM; cbn [fd_create_fw_chains create_fw_chains]; [now apply sim_ret|].
  apply (sim_bind any any (fun w => if zlen (c_target c) =? 0 then Ok (0, w) else fd_mk_chain machine fd cd c w) (fun w => if zlen (c_target c) =? 0 then Ok (0, w) else mk_chain machine ip ci c w)).
  - destruct (zlen (c_target c) =? 0) eqn:Z; [now apply sim_ret|]. apply mk_chain_sim. apply NM; [now left|]. intros E. rewrite E in Z. discriminate.
  - intros e _. apply (sim_bind any any (fd_create_fw_chains machine fd cd cs) (create_fw_chains machine ip ci cs)); [apply IH; intros c' H; apply NM; now right|]. intros e' _. now apply sim_ret.
Qed.

(** ** Rules *)
Notation names cs := (Forall2 same_names cs).
Lemma rule_sim i rl e now cs : named (chain_at i cs) -> blanks rl <= 20 ->
  sim (names cs) (fun w => firewd_rule machine fd cd i rl e now (cs, w)) (fun w => ipt_rule machine ip ci i rl e now (cs, w)).
Proof.
  intros NM B. pose proof NM as (W1 & W2 & W3 & W4 & L). unfold firewd_rule, ipt_rule. pose proof (blanks_fmt rl) as BF.
  apply (sim_bind any (names cs) (fd_mk_chain machine fd cd (chain_at i cs)) (mk_chain machine ip ci (chain_at i cs))); [now apply mk_chain_sim|]. intros n _.
  apply (sim_bind any (names cs) (fd_rule_exists machine fd cd (c_to (chain_at i cs)) (fmt rl)) (rule_exists machine ip ci (c_to (chain_at i cs)) (fmt rl))).
  { apply exists_sim; auto. blank_ok. }
  intros there _. destruct there; [apply sim_ret, P_fwinit2.names_refl|].
  apply (sim_bind any (names cs) (create_rule machine fd cd (c_to (chain_at i cs)) (fmt rl)) (create_rule machine ip ci (c_to (chain_at i cs)) (fmt rl))).
  { unfold create_rule. apply (sim_bind any any (command machine fd cd ((if f_prepend cf then $ "-I " else $ "-A ") ++ c_to (chain_at i cs) ++ $ " " ++ fmt rl))
      (command machine ip ci ((if f_prepend cf then $ "-I " else $ "-A ") ++ c_to (chain_at i cs) ++ $ " " ++ fmt rl))).
    - apply command_sim; auto. destruct (f_prepend cf); blank_ok.
    - intros ok _. now apply sim_ret. }
  intros made _. destruct made; [|apply sim_ret, P_fwinit2.names_refl]. apply sim_ret. apply set_names. repeat split.
Qed.
End Side.
