(** The commands of the firewalld back end have the effect of commands of the iptables back
    end: command lines, single commands, and whether a rule exists. *)
From Verif Require Import Bytes M_util M_message M_codec M_access M_cycle M_incoming M_packet M_fw M_fwinit
  S_text S_access S_incoming S_fw S_fwinit P_bytes P_util P_util2 P_fw P_fw2 P_fw7 P_fwinit3 M_firewd S_firewd.
From Coq Require Import Init.Byte List ZArith Bool Lia.
Import ListNotations.
Open Scope Z_scope.

(** ** Blanks of a text *)
Definition blanks (s : bytes) : Z := zlen (filter isspace s).
Lemma blanks_app a b : blanks (a ++ b) = blanks a + blanks b.
Proof. unfold blanks. rewrite filter_app. apply zlen_app. Qed.
Lemma blanks_pos s : 0 <= blanks s. Proof. apply zlen_nonneg. Qed.
Lemma blanks_take n s : blanks (ztake n s) <= blanks s.
Proof.
  unfold ztake. rewrite <- (firstn_skipn (Z.to_nat n) s) at 2. rewrite blanks_app. pose proof (blanks_pos (skipn (Z.to_nat n) s)). lia.
Qed.
Lemma take_le n (s : bytes) : 0 <= n -> zlen (ztake n s) <= n.
Proof. intros H. unfold ztake, zlen. pose proof (firstn_le_length (Z.to_nat n) s). lia. Qed.
Lemma blanks_word s : word s -> blanks s = 0.
Proof.
  intros (_ & F). unfold blanks. replace (filter isspace s) with (@nil Bytes.byte); [reflexivity|]. symmetry.
  induction F as [|c s [B _] F IH]; [reflexivity|]. cbn [filter]. destruct (isspace c) eqn:E; [|exact IH]. exfalso. apply B, isspace_blank, E.
Qed.
Lemma blanks_fmt s : blanks (fmt s) <= blanks s.
Proof. apply blanks_take. Qed.
Lemma dec_go_blanks f : forall n acc, blanks acc = 0 -> blanks (dec_go f n acc) = 0.
Proof.
  induction f as [|f IH]; intros n acc E; cbn [dec_go]; [exact E|].
  assert (B : blanks (zb (48 + n mod 10) :: acc) = 0).
  { change (zb (48 + n mod 10) :: acc) with ([zb (48 + n mod 10)] ++ acc). rewrite blanks_app, E.
    pose proof (Z.mod_pos_bound n 10 ltac:(lia)) as M. assert (C : n mod 10 = 0 \/ n mod 10 = 1 \/ n mod 10 = 2 \/ n mod 10 = 3 \/ n mod 10 = 4 \/ n mod 10 = 5 \/ n mod 10 = 6 \/ n mod 10 = 7 \/ n mod 10 = 8 \/ n mod 10 = 9) by lia.
    destruct C as [->|[->|[->|[->|[->|[->|[->|[->|[->| ->]]]]]]]]]; reflexivity. }
  destruct (n / 10 =? 0); auto.
Qed.
Lemma blanks_dec n : blanks (dec n) = 0. Proof. apply dec_go_blanks. reflexivity. Qed.
Lemma blanks_dec_i n : blanks (dec_i n) = 0.
Proof. unfold dec_i. destruct (n <? 0); [|apply blanks_dec]. change (blanks ([ "-"%byte] ++ dec (- n)) = 0). rewrite blanks_app, blanks_dec. reflexivity. Qed.

(** ** Splitting into words behind a beginning *)
Lemma go_behind s : forall a1 a2 arg, zlen a1 <= zlen a2 -> zlen s + zlen arg < 1024 -> zlen a2 + blanks s + 1 < 29 ->
  exists t, strtoargv_go s a1 arg = Ok (Some (a1 ++ t)) /\ strtoargv_go s a2 arg = Ok (Some (a2 ++ t)).
Proof.
  induction s as [|c s IH]; intros a1 a2 arg LE L B; cbn [strtoargv_go].
  - rewrite zlen_nil in L. assert (GE : zlen arg >=? MAX_ARGS_LINE_LEN = false) by (unfold MAX_ARGS_LINE_LEN; destruct (Z.geb_spec (zlen arg) 1024); lia || reflexivity).
    rewrite GE. destruct (zlen arg >? 0).
    + exists [arg]. unfold add_argv. rewrite !zlen_app. change (zlen [arg]) with 1. change (blanks []) with 0 in B. unfold MAX_CMDLINE_ARGS.
      destruct (Z.geb_spec (zlen a1 + 1) (30 - 1)); [lia|]. destruct (Z.geb_spec (zlen a2 + 1) (30 - 1)); [lia|]. auto.
    + exists []. rewrite !app_nil_r. auto.
  - rewrite zlen_cons in L. pose proof (zlen_nonneg s).
    assert (GE : zlen arg >=? MAX_ARGS_LINE_LEN = false) by (unfold MAX_ARGS_LINE_LEN; destruct (Z.geb_spec (zlen arg) 1024); lia || reflexivity).
    rewrite GE. change (c :: s) with ([c] ++ s) in B. rewrite blanks_app in B. unfold blanks at 1 in B. cbn [filter] in B. destruct (isspace c) eqn:SP; cbn [negb].
    + change (zlen [c]) with 1 in B. destruct (zlen arg >? 0).
      * unfold add_argv. rewrite !zlen_app. change (zlen [arg]) with 1. unfold MAX_CMDLINE_ARGS. pose proof (blanks_pos s).
        destruct (Z.geb_spec (zlen a1 + 1) (30 - 1)); [lia|]. destruct (Z.geb_spec (zlen a2 + 1) (30 - 1)); [lia|]. cbn [negb].
        destruct (IH (a1 ++ [arg]) (a2 ++ [arg]) []) as (t & E1 & E2); [rewrite !zlen_app; lia|rewrite zlen_nil; pose proof (zlen_nonneg arg); lia|rewrite zlen_app; change (zlen [arg]) with 1; lia|].
        exists (arg :: t). rewrite E1, E2, <- !app_assoc. auto.
      * apply IH; [exact LE|rewrite zlen_nil; pose proof (zlen_nonneg arg); lia|lia].
    + change (zlen []) with 0 in B. apply IH; [exact LE|rewrite zlen_app; change (zlen [c]) with 1; lia|lia].
Qed.
Lemma go_chars w : forall r argv arg, Forall (fun c => ~ blank c /\ c <> x00) w -> zlen arg + zlen w < 1024 ->
  strtoargv_go (w ++ r) argv arg = strtoargv_go r argv (arg ++ w).
Proof.
  induction w as [|c w IH]; intros r argv arg FW L; [now rewrite app_nil_r|]. pose proof (Forall_inv FW) as [B _]. pose proof (Forall_inv_tail FW) as F2. clear FW.
  rewrite zlen_cons in L. pose proof (zlen_nonneg w). cbn [app strtoargv_go]. destruct (isspace c) eqn:SP; [exfalso; apply B, isspace_blank, SP|]. cbn [negb].
  unfold MAX_ARGS_LINE_LEN. destruct (Z.geb_spec (zlen arg) 1024); [lia|]. rewrite IH; auto; [now rewrite <- app_assoc|]. rewrite zlen_app. change (zlen [c]) with 1. lia.
Qed.
Lemma go_word w r argv : word w -> zlen w < 1024 -> zlen argv < 28 -> strtoargv_go (w ++ " "%byte :: r) argv [] = strtoargv_go r (argv ++ [w]) [].
Proof.
  intros (NE & FW) L A. rewrite go_chars by (auto; rewrite zlen_nil; lia). cbn [app]. cbn [strtoargv_go]. change (isspace " "%byte) with true. cbn [negb].
  destruct w as [|x w]; [contradiction|]. pose proof (zlen_nonneg w). assert (P : zlen (x :: w) >? 0 = true) by (rewrite zlen_cons; destruct (Z.gtb_spec (1 + zlen w) 0); lia || reflexivity).
  rewrite P. unfold MAX_ARGS_LINE_LEN. destruct (Z.geb_spec (zlen (x :: w)) 1024); [lia|]. unfold add_argv, MAX_CMDLINE_ARGS. rewrite zlen_app. change (zlen [x :: w]) with 1.
  destruct (Z.geb_spec (zlen argv + 1) (30 - 1)); [lia|]. reflexivity.
Qed.
Lemma go_blank r argv : strtoargv_go (" "%byte :: r) argv [] = strtoargv_go r argv [].
Proof. reflexivity. Qed.

(** ** iptables with another error message, and another name *)
Lemma lines_fail K m rs : forall k, rule_lines (failing_with K m) k rs = rule_lines K k rs.
Proof. induction rs as [|r rs IH]; intros k; cbn [rule_lines]; [reflexivity|]. now rewrite IH. Qed.
Lemma listing_fail K m c rs : listing (failing_with K m) c rs = listing K c rs.
Proof. unfold listing. now rewrite lines_fail. Qed.
(** What iptables writes if it does its work; None: it refuses *)
Definition told (o : option bytes) (m : bytes) : bytes := match o with Some x => x | None => m end.
Lemma ipt_told K m1 m2 e1 e2 fw t : exists fw' o,
  ipt (failing_with K m1) fw (e1 :: t) = (fw', told o m1) /\ ipt (failing_with K m2) fw (e2 :: t) = (fw', told o m2).
Proof.
  assert (X : forall fw' : firewall, exists f o, (fw', m1) = (f, told o m1) /\ (fw', m2) = (f, told o m2)) by (intros fw'; exists fw', None; auto).
  assert (Y : forall (fw' : firewall) x, exists f o, (fw', x) = (f, told o m1) /\ (fw', x) = (f, told o m2)) by (intros fw' x; exists fw', (Some x); auto).
  destruct t as [|a [|b [|c [|d r]]]]; cbn [ipt]; try apply X.
  destruct (bseq a ($ "-t")).
  - unfold ipt_table. destruct (fw b d) as [rs|].
    + destruct (bseq c ($ "-L")); [rewrite !listing_fail; apply Y|]. destruct (bseq c ($ "-F")); [apply Y|].
      destruct (bseq c ($ "-X")). { destruct rs; [|apply X]. cbn [referenced failing_with]. destruct (referenced K fw b d); [apply X|apply Y]. }
      destruct (bseq c ($ "-D")).
      { destruct r as [|x [|y r]].
        - destruct (remove_first [] rs); [apply Y|apply X].
        - cbn zeta. destruct (_ && _); [apply Y|apply X].
        - destruct (remove_first _ rs); [apply Y|apply X]. }
      destruct (bseq c ($ "-I")).
      { destruct r as [|x r]; [apply X|]. cbn [legal failing_with]. cbn zeta. destruct (_ && _); [apply Y|apply X]. }
      destruct (bseq c ($ "-C")); [|apply X]. destruct (existsb _ rs); [apply Y|apply X].
    + destruct (bseq c ($ "-N")); [apply Y|apply X].
  - destruct (bseq c ($ "-t")); [|apply X]. unfold ipt_chain. destruct (fw d b) as [rs|]; [|apply X].
    destruct (bseq a ($ "-C")). { destruct (existsb _ rs); [apply Y|apply X]. }
    cbn [legal failing_with]. destruct (bseq a ($ "-A")). { destruct (legal K r); [apply Y|apply X]. }
    destruct (bseq a ($ "-I")); [|apply X]. destruct (legal K r); [apply Y|apply X].
Qed.
(** A check changes nothing and writes nothing. *)
Lemma ipt_check K m e fw t : exists o, ipt (failing_with K m) fw (e :: $ "-C" :: t) = (fw, told o m) /\ (o = None \/ o = Some []).
Proof.
  assert (X : exists o, (fw, m) = (fw, told o m) /\ (o = None \/ o = Some [])) by (exists None; auto).
  assert (Y : exists o, (fw, @nil Bytes.byte) = (fw, told o m) /\ (o = None \/ o = Some [])) by (exists (Some []); auto).
  destruct t as [|b [|c [|d r]]]; cbn [ipt]; try apply X.
  change (bseq ($ "-C") ($ "-t")) with false. cbn iota. destruct (bseq c ($ "-t")); [|apply X]. unfold ipt_chain. destruct (fw d b) as [rs|]; [|apply X].
  change (bseq ($ "-C") ($ "-C")) with true. cbn iota. destruct (existsb _ rs); [apply Y|apply X].
Qed.

(** ** The beginning of the error message is read *)
Lemma head_kept x r : ~ In x0a x -> x <> [] -> zlen x <= 255 -> exists r', chop_newline (truncate_partial_line (ztake 255 (x ++ r))) = x ++ r'.
Proof.
  intros NI NE L. destruct (ztake_keeps x r 255 L) as (r1 & ->).
  assert (T : exists r2, truncate_partial_line (x ++ r1) = x ++ r2).
  { unfold truncate_partial_line at 1. destruct (memb x0a (x ++ r1)) eqn:M; [|eauto].
    apply memb_In in M. apply in_app_iff in M as [M|M]; [contradiction|]. apply in_split in M as (a & b & ->).
    change (rev (cut_rev (rev (x ++ a ++ x0a :: b)))) with (rev (cut_rev (rev (x ++ a ++ [x0a] ++ b)))).
    destruct (truncate_keeps (x ++ a) b) as (b' & E). unfold truncate_partial_line in E. rewrite <- !app_assoc in E.
    replace (memb x0a (x ++ a ++ [x0a] ++ b)) with true in E. { rewrite E. eauto. }
    symmetry. apply memb_In. rewrite !in_app_iff. right. right. left. now left. }
  destruct T as (r2 & ->). unfold chop_newline. destruct (_ && _) eqn:C; [|eauto].
  destruct r2 as [|y r2]; [|rewrite removelast_app by discriminate; eauto].
  exfalso. rewrite app_nil_r in C. apply andb_true_iff in C as [_ C]. apply beq_eq in C. apply NI. rewrite <- C.
  rewrite (app_removelast_last x00 NE) at 2. apply in_app_iff. right. now left.
Qed.

(** ** Both back ends side by side *)
Definition quietly (K : iptables) : iptables := failing_with K ($ "failed" ++ [x0a]).
Definition exe_of (exe : bytes) : bytes := exe ++ $ "_--direct_--passthrough_ipv4_".
Definition beside (cf : fwconf) : fwconf := mkFw (exe_of (f_cmd cf)) (f_prepend cf) (f_use_dst cf) (f_snat cf) (f_snat_ip cf) (f_nat_dns cf).

(** Whatever happens to the runs of [p], [q] does the same with some other fates of its runs,
    and with no mishap if there was none. *)
Definition sim {A} (P : A -> Prop) (p q : machine -> outcome (A * machine)) : Prop :=
  forall fw fs, exists a fw' fs', p (fw, fs) = Ok (a, (fw', fs')) /\ P a /\
    (exists gs, forall t, q (fw, gs ++ t) = Ok (a, (fw', t))) /\ (fs = [] -> fs' = [] /\ q (fw, []) = Ok (a, (fw', []))).
Lemma sim_ret {A} (P : A -> Prop) a : P a -> sim P (fun w => Ok (a, w)) (fun w => Ok (a, w)).
Proof. intros H fw fs. exists a, fw, fs. split; [reflexivity|]. split; [exact H|]. split; [exists []; reflexivity|]. intros ->. auto. Qed.
Lemma sim_bind {A B} (P : A -> Prop) (Q : B -> Prop) p q (f g : A * machine -> outcome (B * machine)) :
  sim P p q -> (forall a, P a -> sim Q (fun w => f (a, w)) (fun w => g (a, w))) -> sim Q (fun w => bind (p w) f) (fun w => bind (q w) g).
Proof.
  intros S1 S2 fw fs. destruct (S1 fw fs) as (a & fw1 & fs1 & E1 & PA & (gs1 & G1) & H1).
  destruct (S2 a PA fw1 fs1) as (b & fw2 & fs2 & E2 & QB & (gs2 & G2) & H2). exists b, fw2, fs2. rewrite E1. cbn [bind]. split; [exact E2|].
  split; [exact QB|]. split.
  - exists (gs1 ++ gs2). intros t. rewrite <- app_assoc, G1. apply G2.
  - intros Z. destruct (H1 Z) as [Z1 ->]. destruct (H2 Z1) as [Z2 W]. split; [exact Z2|exact W].
Qed.
Lemma sim_weak {A} (P Q : A -> Prop) p q : sim P p q -> (forall a, P a -> Q a) -> sim Q p q.
Proof. intros S H fw fs. destruct (S fw fs) as (a & fw1 & fs1 & E1 & PA & X). exists a, fw1, fs1. auto. Qed.
Lemma sim_ext {A} (P : A -> Prop) p q p' q' : sim P p q -> (forall w, p' w = p w) -> (forall w, q' w = q w) -> sim P p' q'.
Proof. intros S E1 E2 fw fs. destruct (S fw fs) as (a & fw1 & fs1 & X1 & PA & (gs & G) & H). exists a, fw1, fs1. rewrite E1, E2. split; [exact X1|]. split; [exact PA|]. split; [exists gs; intros t; now rewrite E2|exact H]. Qed.

Section Side.
Variable K : iptables.
Variable F : firewalld.
Hypothesis FO : firewalld_ok F.
Variable cf : fwconf.
Hypothesis WE : word (f_cmd cf).
Hypothesis SE : zlen (f_cmd cf) <= 71.
Notation fd := (run_firewall_cmd K F).
Notation ip := (run_iptables (quietly K)).
Notation cd := (through cf).
Notation ci := (beside cf).
Notation prefix := [f_cmd cf; $ "--direct"; $ "--passthrough"; $ "ipv4"].

Lemma cmd_through : f_cmd cd = f_cmd cf ++ $ " --direct --passthrough ipv4 ".
Proof.
  unfold through, snprintf. cbn [f_cmd]. pose proof (zlen_nonneg (f_cmd cf)). unfold ztake. rewrite firstn_all2; [reflexivity|].
  assert (L : zlen (f_cmd cf ++ $ " " ++ FIREWD_CMD_PREFIX ++ $ " ") <= 511).
  { rewrite !zlen_app. change (zlen ($ " ")) with 1. change (zlen FIREWD_CMD_PREFIX) with 27. lia. }
  unfold zlen in L. lia.
Qed.
Lemma word_ci : word (f_cmd ci).
Proof.
  destruct WE as (NE & FW). unfold beside, exe_of. cbn [f_cmd]. split; [destruct (f_cmd cf); discriminate|]. apply Forall_app. split; [exact FW|].
  assert (X : word ($ "_--direct_--passthrough_ipv4_")) by lit. exact (proj2 X).
Qed.
Lemma zlen_cd : zlen (f_cmd cd) = zlen (f_cmd cf) + 29.
Proof. rewrite cmd_through, zlen_app. reflexivity. Qed.
Lemma zlen_ci : zlen (f_cmd ci) = zlen (f_cmd cf) + 29.
Proof. unfold beside, exe_of. cbn [f_cmd]. rewrite zlen_app. reflexivity. Qed.
Lemma fmt_cut x args : zlen x <= 100 -> fmt (x ++ $ " " ++ args) = x ++ " "%byte :: ztake (253 - zlen x) args.
Proof.
  intros L. pose proof (zlen_nonneg x). unfold fmt, snprintf, CMD_BUFSIZE, ztake. rewrite firstn_app, firstn_all2 by (unfold zlen in L; lia).
  f_equal. replace (Z.to_nat (256 - 1 - 1) - length x)%nat with (S (Z.to_nat (253 - zlen x)))%nat; [reflexivity|]. unfold zlen in *. lia.
Qed.

(** The words of a command *)
Lemma argv_cd r : strtoargv (f_cmd cd ++ " "%byte :: r) = strtoargv_go r prefix [].
Proof.
  rewrite cmd_through. unfold strtoargv.
  replace ((f_cmd cf ++ $ " --direct --passthrough ipv4 ") ++ " "%byte :: r) with
    (f_cmd cf ++ " "%byte :: $ "--direct" ++ " "%byte :: $ "--passthrough" ++ " "%byte :: $ "ipv4" ++ " "%byte :: " "%byte :: r) by (rewrite <- app_assoc; reflexivity).
  rewrite go_word by (auto; lia || reflexivity). cbn [app]. 
  rewrite (go_word ($ "--direct")) by (lit || reflexivity). cbn [app]. rewrite (go_word ($ "--passthrough")) by (lit || reflexivity). cbn [app].
  rewrite (go_word ($ "ipv4")) by (lit || reflexivity). cbn [app]. apply go_blank.
Qed.
Lemma argv_ci r : strtoargv (f_cmd ci ++ " "%byte :: r) = strtoargv_go r [f_cmd ci] [].
Proof. unfold strtoargv. rewrite go_word; [reflexivity|apply word_ci|rewrite zlen_ci; lia|reflexivity]. Qed.
Lemma argv_both args : blanks args <= 23 -> exists t,
  strtoargv (fmt (f_cmd cd ++ $ " " ++ args)) = Ok (Some (prefix ++ t)) /\ strtoargv (fmt (f_cmd ci ++ $ " " ++ args)) = Ok (Some (f_cmd ci :: t)).
Proof.
  intros B. rewrite !fmt_cut by (rewrite ?zlen_cd, ?zlen_ci; lia). rewrite zlen_cd, zlen_ci, argv_cd, argv_ci.
  destruct (go_behind (ztake (253 - (zlen (f_cmd cf) + 29)) args) [f_cmd ci] prefix []) as (t & E1 & E2).
  - change (zlen [f_cmd ci]) with 1. change (zlen prefix) with 4. lia.
  - rewrite zlen_nil. pose proof (zlen_nonneg (f_cmd cf)). pose proof (take_le (253 - (zlen (f_cmd cf) + 29)) args ltac:(lia)). lia.
  - change (zlen prefix) with 4. pose proof (blanks_take (253 - (zlen (f_cmd cf) + 29)) args). lia.
  - exists t. auto.
Qed.
(** Of a check, the first word is known. *)
Lemma argv_check args : blanks args <= 22 -> exists t,
  strtoargv (fmt (f_cmd cd ++ $ " -C " ++ args)) = Ok (Some (prefix ++ $ "-C" :: t)) /\ strtoargv (fmt (f_cmd ci ++ $ " -C " ++ args)) = Ok (Some (f_cmd ci :: $ "-C" :: t)).
Proof.
  intros B. pose proof (zlen_nonneg (f_cmd cf)). change ($ " -C " ++ args) with ($ " " ++ ($ "-C" ++ " "%byte :: args)).
  rewrite !fmt_cut by (rewrite ?zlen_cd, ?zlen_ci; lia). rewrite zlen_cd, zlen_ci, argv_cd, argv_ci. set (n := 253 - (zlen (f_cmd cf) + 29)).
  assert (E : ztake n ($ "-C" ++ " "%byte :: args) = $ "-C" ++ " "%byte :: ztake (n - 3) args).
  { unfold ztake. replace (Z.to_nat n) with (3 + Z.to_nat (n - 3))%nat by lia. reflexivity. }
  rewrite E, !go_word by (lit || reflexivity).
  destruct (go_behind (ztake (n - 3) args) ([f_cmd ci] ++ [$ "-C"]) (prefix ++ [$ "-C"]) []) as (t & E1 & E2).
  - rewrite !zlen_app. change (zlen [f_cmd ci]) with 1. change (zlen prefix) with 4. lia.
  - rewrite zlen_nil. pose proof (take_le (n - 3) args ltac:(lia)). lia.
  - rewrite zlen_app. change (zlen prefix) with 4. change (zlen [$ "-C"]) with 1. pose proof (blanks_take (n - 3) args). lia.
  - exists t. rewrite E1, E2, <- !app_assoc. auto.
Qed.

(** Runs *)
Lemma fd_prefix fw t : exists fw' o out, firewall_cmd K F fw (prefix ++ t) = (fw', out) /\
  ipt (quietly K) fw (f_cmd ci :: t) = (fw', told o ($ "failed" ++ [x0a])) /\
  out = match o with None => fd_error F t ++ fd_tail F | Some [] => $ "success" ++ [x0a] | Some x => x ++ fd_tail F end.
Proof.
  cbn [app firewall_cmd]. change (passes ($ "--direct") ($ "--passthrough") ($ "ipv4")) with true. cbn iota.
  destruct (ipt_told K (fd_error F t) ($ "failed" ++ [x0a]) (f_cmd cf) (f_cmd ci) fw t) as (fw' & o & E1 & E2).
  rewrite E1. exists fw', o. eexists. split; [reflexivity|]. split; [exact E2|]. destruct o as [[|x l]|]; [reflexivity|reflexivity|]. cbn [told].
  destruct (proj1 FO t) as (m & -> & _). reflexivity.
Qed.

Lemma command_sim args : blanks args <= 23 -> sim (fun _ => True) (command machine fd cd args) (command machine ip ci args).
Proof.
  intros B fw fs. destruct (argv_both args B) as (t & E1 & E2). unfold command, run_extcmd. rewrite E1, E2. cbn [bind].
  destruct (fd_prefix fw t) as (fw' & o & out & R1 & R2 & _). unfold run_firewall_cmd. rewrite R1.
  assert (Q : forall gs, run_iptables (quietly K) (fw, gs) (f_cmd ci :: t) = match hd Runs gs with
    | Runs => ((fw', tl gs), Exited, told o ($ "failed" ++ [x0a])) | Refuses => ((fw, tl gs), Exited, $ "failed" ++ [x0a])
    | DiesBefore => ((fw, tl gs), Killed, []) | DiesAfter => ((fw', tl gs), Killed, told o ($ "failed" ++ [x0a])) | NoStart => ((fw, tl gs), NotStarted, []) end).
  { intros gs. unfold run_iptables. rewrite R2. reflexivity. }
  destruct fs as [|f fs]; cbn [hd tl].
  - exists true, fw', []. cbn [bind]. split; [reflexivity|]. split; [exact I|]. split; [exists [Runs]; intros tt; rewrite Q; reflexivity|]. intros _. split; [reflexivity|]. rewrite Q. reflexivity.
  - destruct f; cbn [bind]; do 3 eexists; (split; [reflexivity|]; split; [exact I|]; split; [|discriminate]).
    + exists [Runs]. intros tt. rewrite Q. reflexivity.
    + exists [Refuses]. intros tt. rewrite Q. reflexivity.
    + exists [DiesBefore]. intros tt. rewrite Q. reflexivity.
    + exists [DiesAfter]. intros tt. rewrite Q. reflexivity.
    + exists [NoStart]. intros tt. rewrite Q. reflexivity.
Qed.

Lemma error_no_nul a : no_nul (fd_error F a).
Proof. destruct (proj1 FO a) as (m & -> & _ & Z). apply no_nul_app. split; [intros H; vm_compute in H; intuition discriminate|]. apply no_nul_app. split; [exact Z|intros [|[]]; discriminate]. Qed.
Lemma error_read a y : no_nul y -> exists r, chop_newline (truncate_partial_line (read_output CMD_BUFSIZE (fd_error F a ++ y) [] [])) = $ "Error: COMMAND_FAILED" ++ r.
Proof.
  intros Y. rewrite read_output_spec; [|apply no_nul_app; split; [apply error_no_nul|exact Y]|apply no_nul_nil|reflexivity].
  cbn [app]. change (CMD_BUFSIZE - 1 - zlen []) with 255. destruct (proj1 FO a) as (m & -> & _ & _). rewrite <- app_assoc.
  apply head_kept; [intros H; vm_compute in H; intuition discriminate|discriminate|vm_compute; discriminate].
Qed.
Lemma tail_no_nul : no_nul (fd_tail F). Proof. exact (proj1 (proj2 FO)). Qed.

Lemma exists_sim n rule : blanks (n ++ $ " " ++ rule) <= 22 ->
  sim (fun _ => True) (fd_rule_exists machine fd cd n rule) (rule_exists machine ip ci n rule).
Proof.
  intros B fw fs. destruct (argv_check _ B) as (t & E1 & E2). unfold fd_rule_exists, rule_exists, run_extcmd. rewrite E1, E2. cbn [bind].
  destruct (fd_prefix fw ($ "-C" :: t)) as (fw' & o & out & R1 & R2 & RO).
  destruct (ipt_check K ($ "failed" ++ [x0a]) (f_cmd ci) fw t) as (o' & R3 & RC). unfold quietly in R2. rewrite R3 in R2.
  assert (fw' = fw) as -> by congruence.
  unfold run_firewall_cmd. rewrite R1.
  assert (Q : forall gs, run_iptables (quietly K) (fw, gs) (f_cmd ci :: $ "-C" :: t) = match hd Runs gs with
    | Runs => ((fw, tl gs), Exited, told o' ($ "failed" ++ [x0a])) | Refuses => ((fw, tl gs), Exited, $ "failed" ++ [x0a])
    | DiesBefore => ((fw, tl gs), Killed, []) | DiesAfter => ((fw, tl gs), Killed, told o' ($ "failed" ++ [x0a])) | NoStart => ((fw, tl gs), NotStarted, []) end).
  { intros gs. unfold run_iptables, quietly. rewrite R3. reflexivity. }
  assert (X : forall y, no_nul y -> forall a, says_success (chop_newline (truncate_partial_line (read_output CMD_BUFSIZE (fd_error F a ++ y) [] []))) = false).
  { intros y Y a. destruct (error_read a y Y) as (r & ->). reflexivity. }
  assert (X0 : forall a, says_success (chop_newline (truncate_partial_line (read_output CMD_BUFSIZE (fd_error F a) [] []))) = false).
  { intros a. specialize (X [] no_nul_nil a). now rewrite app_nil_r in X. }
  assert (N : forall gs, match run_iptables (quietly K) (fw, Refuses :: gs) (f_cmd ci :: $ "-C" :: t) with
     | (w', NotStarted, _) => Ok (false, [], w') | (w', Killed, o0) => Ok (false, truncate_partial_line (read_output CMD_BUFSIZE o0 [] []), w')
     | (w', Exited, o0) => Ok (true, truncate_partial_line (read_output CMD_BUFSIZE o0 [] []), w') end =
     Ok (true, truncate_partial_line (read_output CMD_BUFSIZE ($ "failed" ++ [x0a]) [] []), (fw, gs))).
  { intros gs. rewrite Q. reflexivity. }
  destruct RC as [-> | ->].
  - (* there is no such rule *)
    assert (o = None \/ o = Some ($ "failed" ++ [x0a])) as OO by (destruct o as [o|]; [right; cbn [told] in R2; congruence|left; reflexivity]).
    assert (SO : says_success (chop_newline (truncate_partial_line (read_output CMD_BUFSIZE out [] []))) = false).
    { destruct OO as [-> | ->]; subst out; [apply X, tail_no_nul|].
      rewrite read_output_spec; [|apply no_nul_app; split; [intros H; vm_compute in H; intuition discriminate|apply tail_no_nul]|apply no_nul_nil|reflexivity].
      cbn [app]. change (CMD_BUFSIZE - 1 - zlen []) with 255. change ($ "failed" ++ [x0a] ++ fd_tail F) with ($ "failed" ++ (x0a :: fd_tail F)).
      destruct (head_kept ($ "failed") (x0a :: fd_tail F)) as (r & E); [intros H; vm_compute in H; intuition discriminate|discriminate|vm_compute; discriminate|].
      change (([x0a] ++ fd_tail F)) with (x0a :: fd_tail F). 
      match goal with |- says_success (chop_newline (truncate_partial_line (ztake 255 ?a))) = _ => change a with ($ "failed" ++ (x0a :: fd_tail F)) end.
      rewrite E. reflexivity. }
    destruct fs as [|f fs]; cbn [hd tl].
    + exists false, fw, []. cbn [bind]. rewrite SO. split; [reflexivity|]. split; [exact I|]. split; [exists [Refuses]; intros tt; cbn [app]; rewrite N; reflexivity|].
      intros _. split; [reflexivity|]. rewrite Q. reflexivity.
    + destruct f; cbn [bind]; rewrite ?SO, ?X0; (exists false, fw, fs; split; [reflexivity|]; split; [exact I|]; split; [exists [Refuses]; intros tt; cbn [app]; rewrite N; reflexivity|discriminate]).
  - (* there is *)
    assert (o = Some []) as -> by (destruct o as [o|]; [cbn [told] in R2; congruence|discriminate R2]). subst out.
    destruct fs as [|f fs]; cbn [hd tl].
    + exists true, fw, []. cbn [bind]. split; [reflexivity|]. split; [exact I|]. split; [exists [Runs]; intros tt; cbn [app]; rewrite Q; reflexivity|].
      intros _. split; [reflexivity|]. rewrite Q. reflexivity.
    + destruct f; cbn [bind]; rewrite ?X0.
      * exists true, fw, fs. split; [reflexivity|]. split; [exact I|]. split; [exists [Runs]; intros tt; cbn [app]; rewrite Q; reflexivity|discriminate].
      * exists false, fw, fs. split; [reflexivity|]. split; [exact I|]. split; [exists [Refuses]; intros tt; cbn [app]; rewrite N; reflexivity|discriminate].
      * exists false, fw, fs. split; [reflexivity|]. split; [exact I|]. split; [exists [Refuses]; intros tt; cbn [app]; rewrite N; reflexivity|discriminate].
      * exists true, fw, fs. split; [reflexivity|]. split; [exact I|]. split; [exists [Runs]; intros tt; cbn [app]; rewrite Q; reflexivity|discriminate].
      * exists false, fw, fs. split; [reflexivity|]. split; [exact I|]. split; [exists [Refuses]; intros tt; cbn [app]; rewrite N; reflexivity|discriminate].
Qed.
End Side.
