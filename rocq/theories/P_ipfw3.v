(** Proofs about the ipfw back end: a check, in a tidy state. *)
From Verif Require Import Bytes M_util M_message M_codec M_access M_cycle M_incoming M_packet M_fw M_extcmd M_pf
  S_text S_access S_incoming S_fw S_pf P_bytes P_util P_util2 P_access P_fw P_fw2 P_fw3 P_fw5 P_fw9 P_fwinit3 P_incoming3 P_incoming5 P_pf P_pf2 M_ipfw S_ipfw P_ipfw P_ipfw2.
From Coq Require Import Init.Byte List ZArith Bool Lia Permutation.
Import ListNotations.
Open Scope Z_scope.

Lemma memz_In n l : memz n l = true <-> In n l.
Proof. unfold memz. rewrite existsb_exists. split; [intros (x & I & E); apply Z.eqb_eq in E; now subst|intro I; exists n; split; [exact I|apply Z.eqb_refl]]. Qed.
Lemma memz_out n l : ~ In n l -> memz n l = false.
Proof. intro N. destruct (memz n l) eqn:E; [apply memz_In in E; easy|reflexivity]. Qed.
Lemma in_set_In s l r : In r (in_set s l) <-> In r l /\ r_set r = s.
Proof. unfold in_set. rewrite filter_In, Z.eqb_eq. reflexivity. Qed.

Section Ipfw.
Variable K : ipfw.
Variable cf : ipfwconf.
Hypothesis CF : conf_fits cf.
Hypothesis KO : ipfw_ok K.
Notation run := (exec_ipfw K).

Lemma sets_small : 0 <= i_active cf <= 65535 /\ 0 <= i_expire cf <= 65535.
Proof. destruct CF as (_ & _ & A & B & _). lia. Qed.
Lemma range_small n : in_range cf n -> 0 <= n <= 65535.
Proof. intros (A & B). destruct CF as (_ & _ & _ & _ & _ & C & D & E). lia. Qed.

(** The commands *)
Lemma list_run t fs : ~ In (i_active cf) (t_off t) -> (forall r, In r (in_set (i_active cf) (t_rules t)) -> one_line (rule_line K r)) ->
  zlen (lines (set_lines K (i_active cf) t)) <= 4095 ->
  exists ok o, ask_ipfw machine run cf (list_args cf) STANDARD_CMD_OUT_BUFSIZE (t, fs) = Ok (ok, o, (t, tl fs)) /\
    (o = [] \/ o = lines (map (rule_line K) (in_set (i_active cf) (t_rules t)))) /\
    (hd Runs fs = Runs -> ok = true /\ o = lines (map (rule_line K) (in_set (i_active cf) (t_rules t)))).
Proof.
  intros ON OL L. destruct (num_small (i_active cf)) as (W1 & L1 & D1); [apply sets_small|].
  assert (SL : set_lines K (i_active cf) t = map (rule_line K) (in_set (i_active cf) (t_rules t))) by (unfold set_lines; now rewrite memz_out).
  rewrite SL in L.
  destruct (command_run K cf CF [$ "set"; dec (i_active cf); $ "list"] (list_args cf) STANDARD_CMD_OUT_BUFSIZE t fs t (lines (map (rule_line K) (in_set (i_active cf) (t_rules t)))))
    as (ok & o & t1 & E & T & O & RR).
  - reflexivity.
  - discriminate.
  - repeat (apply Forall_cons; [first [assumption|lit]|]). apply Forall_nil.
  - reflexivity.
  - cbn [fold_right]. change (zlen ($ "set")) with 3. change (zlen ($ "list")) with 4. lia.
  - cbn [ipfw_run]. change (bseq ($ "set") ($ "add")) with false. change (bseq ($ "set") ($ "set")) with true. cbn iota. cbn [run_set].
    assert (B : bseq (dec (i_active cf)) ($ "disable") = false).
    { destruct (bseq (dec (i_active cf)) ($ "disable")) eqn:B; [|reflexivity]. apply bseq_eq in B. rewrite B in L1. vm_compute in L1. destruct L1. reflexivity. }
    rewrite B. change (bseq ($ "list") ($ "list")) with true. cbn iota. now rewrite D1, SL.
  - assert (RO : truncate_partial_line (read_output STANDARD_CMD_OUT_BUFSIZE (lines (map (rule_line K) (in_set (i_active cf) (t_rules t)))) [] []) = lines (map (rule_line K) (in_set (i_active cf) (t_rules t)))).
    { rewrite read_all; [apply truncated_lines| |exact L|reflexivity]. apply lines_no_nul. apply Forall_forall. intros x I. apply in_map_iff in I as (r & <- & I). apply OL. exact I. }
    rewrite RO in *. assert (t1 = t) by (destruct T; assumption). subst t1. exists ok, o. split; [exact E|]. split; [exact O|].
    intro H. destruct (RR H) as (A & _ & B). auto.
Qed.
Lemma move_run n t fs : in_range cf n ->
  exists ok o t1, ask_ipfw machine run cf (move_args cf n) CMD_BUFSIZE (t, fs) = Ok (ok, o, (t1, tl fs)) /\
    (t1 = t \/ t1 = with_rules t (map (moved n (i_expire cf)) (t_rules t))) /\
    (hd Runs fs = Runs -> ok = true /\ t1 = with_rules t (map (moved n (i_expire cf)) (t_rules t))).
Proof.
  intro R. destruct (num_small n) as (W1 & L1 & D1); [now apply range_small|]. destruct (num_small (i_expire cf)) as (W2 & L2 & D2); [apply sets_small|].
  destruct (command_run K cf CF [$ "set"; $ "move"; $ "rule"; dec n; $ "to"; dec (i_expire cf)] (move_args cf n) CMD_BUFSIZE t fs
             (with_rules t (map (moved n (i_expire cf)) (t_rules t))) []) as (ok & o & t1 & E & T & _ & RR).
  - reflexivity.
  - discriminate.
  - repeat (apply Forall_cons; [first [assumption|lit]|]). apply Forall_nil.
  - reflexivity.
  - cbn [fold_right]. change (zlen ($ "set")) with 3. change (zlen ($ "move")) with 4. change (zlen ($ "rule")) with 4. change (zlen ($ "to")) with 2. lia.
  - cbn [ipfw_run]. change (bseq ($ "set") ($ "add")) with false. change (bseq ($ "set") ($ "set")) with true. cbn iota. cbn [run_set].
    change (bseq ($ "move") ($ "move") && bseq ($ "rule") ($ "rule") && bseq ($ "to") ($ "to")) with true. cbn iota. now rewrite D1, D2.
  - exists ok, o, t1. split; [exact E|]. split; [exact T|]. intro H. destruct (RR H) as (A & B & _). auto.
Qed.

Definition now_active (k : books) : Z := if b_active k >? i_max cf then 0 else b_active k.
(** What a check does when nothing fails *)
Inductive checked (now : Z) (k : books) (t : table) : books -> table -> Prop :=
| ch_skip : now_active k = 0 \/ now < b_next k ->
    checked now k t (mkBooks (now_active k) (b_total k) (b_next k) (b_purged k) (b_map k)) t
| ch_empty : now_active k <> 0 -> b_next k <= now -> in_set (i_active cf) (t_rules t) = [] ->
    checked now k t (mkBooks (now_active k - 1) (b_total k) (b_next k) (b_purged k) (b_map k)) t
| ch_later l r e : now_active k <> 0 -> b_next k <= now -> in_set (i_active cf) (t_rules t) = l ++ [r] -> ends_at K r e -> now < e ->
    checked now k t (mkBooks (now_active k) (b_total k) (b_next k) (b_purged k) (b_map k)) t
| ch_move l r e m : now_active k <> 0 -> b_next k <= now -> in_set (i_active cf) (t_rules t) = l ++ [r] -> ends_at K r e -> e <= now ->
    put_map (r_num r - i_start cf) 2 (b_map k) = Ok m ->
    checked now k t (mkBooks (now_active k - 1) (b_total k) (if now_active k - 1 <? 1 then 0 else b_next k) (b_purged k) m)
            (with_rules t (map (moved (r_num r) (i_expire cf)) (t_rules t))).

Definition closes (now : Z) (t t' : table) : Prop :=
  t' = t \/ exists r e, In r (t_rules t) /\ r_set r = i_active cf /\ ends_at K r e /\ e <= now /\ t' = with_rules t (map (moved (r_num r) (i_expire cf)) (t_rules t)).
Lemma check_pass now k t fs : tidy K cf k t -> zlen (lines (set_lines K (i_active cf) t)) <= 4095 ->
  exists k' t' fs', check_firewall_rules machine run cf now k (t, fs) = Ok (k', (t', fs')) /\ closes now t t' /\
    (fs = [] -> 0 <= b_active k -> fs' = [] /\ checked now k t k' t').
Proof.
  intros TD L. unfold check_firewall_rules. fold (now_active k). set (act := now_active k).
  destruct ((act =? 0) || (b_next k >? now)) eqn:B.
  { exists (mkBooks act (b_total k) (b_next k) (b_purged k) (b_map k)), t, fs. split; [reflexivity|]. split; [left; reflexivity|]. intros -> _. split; [reflexivity|].
    apply ch_skip. apply orb_true_iff in B as [B|B]; [left; now apply Z.eqb_eq|right; lia]. }
  apply orb_false_iff in B as [B1 B2]. apply Z.eqb_neq in B1. assert (NX : b_next k <= now) by lia. clear B2.
  destruct KO as (NK & _).
  assert (RL : forall r, In r (in_set (i_active cf) (t_rules t)) -> in_range cf (r_num r) /\ exists e, ends_at K r e).
  { intros r I. apply in_set_In in I as (I & S1). destruct (tidy_active _ _ _ _ TD r I S1) as (A & _ & C). auto. }
  destruct (list_run t fs) as (ok & o & LR & O & RR); auto.
  { apply (tidy_on _ _ _ _ TD). }
  { intros r I. destruct (RL r I) as (A & e & C). apply (line_of K NK r e); [now apply range_small|exact C]. }
  rewrite LR. cbn [bind].
  assert (PASS : forall x, exists k' t' fs', Ok (x, (t, tl fs)) = Ok (k', (t', fs')) /\ closes now t t' /\ (fs = [] -> 0 <= b_active k -> checked now k t x t -> fs' = [] /\ checked now k t k' t')).
  { intro x. exists x, t, (tl fs). split; [reflexivity|]. split; [left; reflexivity|]. intros -> _ C. auto. }
  destruct ok; cbn [negb]. 2:{ edestruct PASS as (k' & t' & fs' & E & C & _). rewrite E. exists k', t', fs'. split; [reflexivity|]. split; [exact C|]. intros -> _. destruct (RR eq_refl) as (Q & _). discriminate Q. }
  assert (LESS : 0 <= b_active k -> less act = act - 1).
  { intro P. unfold less. destruct (Z.gtb_spec act 0); [reflexivity|]. unfold act, now_active in *. destruct (b_active k >? i_max cf); lia. }
  destruct (in_set (i_active cf) (t_rules t)) as [|r0 l0] eqn:IS0 using rev_ind.
  - assert (o = []) as -> by (destruct O as [->| ->]; reflexivity).
    change (strstr (fun b => b) EXPIRE_COMMENT_PREFIX (chop_newline [])) with (@None bytes). cbn iota.
    do 3 eexists. split; [reflexivity|]. split; [left; reflexivity|]. intros -> P. split; [reflexivity|]. rewrite (LESS P). apply ch_empty; assumption.
  - clear IHl0. rename l0 into l, r0 into r. 
    destruct (RL r) as (RR1 & e & EA); [apply in_app_iff; right; left; reflexivity|].
    destruct O as [->|EO].
    { change (strstr (fun b => b) EXPIRE_COMMENT_PREFIX (chop_newline [])) with (@None bytes). cbn iota.
      do 3 eexists. split; [reflexivity|]. split; [left; reflexivity|]. intros -> _. destruct (RR eq_refl) as (_ & Q). exfalso.
      rewrite map_app, lines_app in Q. symmetry in Q. apply app_eq_nil in Q as (_ & Q). unfold lines in Q. cbn in Q. rewrite app_nil_r in Q. apply app_eq_nil in Q as (_ & Q). discriminate Q. }
    assert (CH : exists x rest, l ++ [r] = x :: rest /\ chop_newline o = rule_line K x ++ body (map (rule_line K) rest)).
    { destruct l as [|x l']; [exists r, []|exists x, (l' ++ [r])]; (split; [reflexivity|]); rewrite EO; cbn [app map]; apply lines_chop, line_not_nil. }
    destruct CH as (x & rest & XR & CH). rewrite CH.
    assert (RI : In x (l ++ [r])) by (rewrite XR; left; reflexivity). destruct (RL x RI) as (RX & f & EX).
    destruct (line_of K NK x f (range_small _ RX) EX) as ((pre & ds & SX & _) & _).
    destruct (strstr (fun b => b) EXPIRE_COMMENT_PREFIX (rule_line K x ++ body (map (rule_line K) rest))) eqn:SS.
    2:{ exfalso. revert SS. rewrite SX, <- !app_assoc. apply strstr_found. }
    rewrite (loop_lines now K l NK [] r e 0 (rule_line K x ++ body (map (rule_line K) rest))); auto.
    + cbn [bind]. destruct (Z.leb_spec e now) as [Q|Q]; cbn iota.
      * destruct (move_run (r_num r) t (tl fs) RR1) as (ok & o2 & t1 & ME & MT & MR). rewrite ME. cbn [bind].
        destruct (put_look cf (r_num r) RULE_EXPIRED (b_map k) RR1 (tidy_map _ _ _ _ TD)) as (m' & EM & LM & SM & OM).
        assert (CL : closes now t t1).
        { destruct MT as [->| ->]; [left; reflexivity|right]. exists r, e. assert (I : In r (in_set (i_active cf) (t_rules t))) by (rewrite IS0; apply in_app_iff; right; left; reflexivity).
          apply in_set_In in I as (I1 & I2). auto. }
        destruct ok.
        -- rewrite EM. cbn [bind]. do 3 eexists. split; [reflexivity|]. split; [exact CL|]. intros -> P. split; [reflexivity|]. destruct (MR eq_refl) as (_ & ->). rewrite (LESS P).
           change (negb (0 =? 0)) with false. cbn iota. eapply ch_move; eauto.
        -- do 3 eexists. split; [reflexivity|]. split; [exact CL|]. intros -> _. destruct (MR eq_refl) as (X & _). discriminate X.
      * assert (P0 : 0 <? e = true) by (apply Z.ltb_lt; destruct EA as (U & _); exact (until_pos _ _ U)). rewrite P0. change (negb (0 =? 0)) with false. cbn iota.
        do 3 eexists. split; [reflexivity|]. split; [left; reflexivity|]. intros -> P. split; [reflexivity|].
        assert (A1 : act <? 1 = false). { apply Z.ltb_ge. unfold act, now_active in *. destruct (b_active k >? i_max cf); lia. }
        rewrite A1. eapply ch_later; eauto.
    + apply Forall_forall. intros y IY. destruct (RL y) as (A & C); [apply in_app_iff; left; exact IY|]. split; [now apply range_small|exact C].
    + now apply range_small.
    + right. exists x, rest. split; [exact XR|]. split; [reflexivity|]. left. reflexivity.
Qed.
End Ipfw.
