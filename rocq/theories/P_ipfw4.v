(** Proofs about the ipfw back end: purging. *)
From Verif Require Import Bytes M_util M_message M_codec M_access M_cycle M_incoming M_packet M_fw M_extcmd M_pf
  S_text S_access S_incoming S_fw S_pf P_bytes P_util P_util2 P_access P_fw P_fw2 P_fw3 P_fw5 P_fw9 P_fwinit3 P_incoming3 P_incoming5 P_pf P_pf2 M_ipfw S_ipfw P_ipfw P_ipfw2 P_ipfw3.
From Coq Require Import Init.Byte List ZArith Bool Lia Permutation.
Import ListNotations.
Open Scope Z_scope.

Section Ipfw.
Variable K : ipfw.
Variable cf : ipfwconf.
Hypothesis CF : conf_fits cf.
Hypothesis KO : ipfw_ok K.
Notation run := (exec_ipfw K).

(** ** The dynamic rules *)
Lemma mark_line u v m : ~ In x0a u -> mark_dynamic cf false (u ++ x0a :: v) m = mark_dynamic cf true v m.
Proof.
  induction u as [|c u IH]; intro N.
  - cbn [app mark_dynamic]. reflexivity.
  - cbn [app mark_dynamic]. assert (B : beq c x0a = false) by (apply beq_neq; intros ->; apply N; left; reflexivity). rewrite B. apply IH. intro I. apply N. right. exact I.
Qed.
Lemma number_read n rest : 0 <= n <= 65535 -> ~ digit (hd x00 rest) -> strtol_wrapper (number K n ++ rest) 0 (-1) = (n, STRTOL_OK).
Proof.
  intros R N. destruct KO as (NK & _). destruct (NK n R) as (N0 & NA & NV & _).
  destruct (strtol_wrapper (number K n ++ rest) 0 (-1)) as [v er] eqn:E.
  assert (D0 : digit (hd x00 (number K n ++ rest))).
  { destruct (number K n) as [|c u]; [easy|]. cbn [app hd]. now inversion NA. }
  assert (IT : integer_text (number K n ++ rest) n).
  { exists [], (number K n ++ rest). split; [reflexivity|]. split; [constructor|].
    unfold digit in D0. split; [unfold blank; intros [B|B]; rewrite ?B in D0; [vm_compute in D0; destruct D0 as [D0 _]; now apply D0|lia]|].
    right. right. split; [intros Q; rewrite Q in D0; vm_compute in D0; destruct D0 as [D0 _]; now apply D0|].
    split; [intros Q; rewrite Q in D0; vm_compute in D0; destruct D0 as [D0 _]; now apply D0|].
    exists (number K n), rest. split; [reflexivity|]. split; [exact NA|]. split; [right; exact N|congruence]. }
  destruct (strtol_wrapper_reads _ 0 (-1) n IT ltac:(lia) v er E) as (-> & Q). f_equal. apply Q. split; [lia|]. lia.
Qed.
Lemma mark_lines ds : forall m, Forall (fun c : Z * bytes => in_range cf (fst c) /\ ~ In x0a (snd c) /\ ~ digit (hd x00 (snd c))) ds -> zlen m = i_max cf ->
  exists m', mark_dynamic cf true (lines (map (fun c => number K (fst c) ++ snd c) ds)) m = Ok m' /\ zlen m' = i_max cf /\
    (forall j, In j (map fst ds) -> look cf m' j = Some 3) /\ (forall j, ~ In j (map fst ds) -> look cf m' j = look cf m j).
Proof.
  induction ds as [|(n, u) ds IH]; intros m F L.
  - exists m. repeat split; auto. intros j [].
  - pose proof (Forall_inv F) as (R & N1 & N2). pose proof (Forall_inv_tail F) as F'. cbn [fst snd] in R, N1, N2.
    pose proof (range_small cf CF n R) as RS. destruct KO as (NK & _). destruct (NK n RS) as (N0 & NA & NV & _).
    cbn [map fst snd]. rewrite lines_cons. set (tail := lines (map (fun c => number K (fst c) ++ snd c) ds)) in *.
    assert (RD : strtol_wrapper ((number K n ++ u) ++ x0a :: tail) 0 (-1) = (n, STRTOL_OK)).
    { rewrite <- app_assoc. apply number_read; [exact RS|]. destruct u as [|c u]; [cbn [app hd]; unfold digit; vm_compute; intuition|exact N2]. }
    destruct (number K n) as [|c nn] eqn:EN; [easy|]. assert (DC : isdigit c = true) by (apply isdigit_digit; now inversion NA).
    cbn [app mark_dynamic] in *. rewrite DC, RD. unfold u16. rewrite Z.mod_small by lia.
    assert (B : (i_start cf <=? n) && (n <? i_start cf + i_max cf) = true) by (destruct R; apply andb_true_iff; split; [apply Z.leb_le|apply Z.ltb_lt]; lia). rewrite B.
    destruct (put_look cf n RULE_TMP_MARKED m R L) as (m1 & EM & LM & SM & OM). rewrite EM. cbn [bind].
    rewrite mark_line. 2:{ intro I. apply in_app_iff in I as [I|I]; [|auto]. inversion NA as [|? ? _ NA']; subst. revert I. apply digits_no_star; [exact NA'|]. unfold digit. vm_compute. intuition. }
    destruct (IH m1 F' LM) as (m' & E & LM' & S3 & SO). exists m'. split; [exact E|]. split; [exact LM'|]. split.
    + intros j [<-|I]; [|now apply S3]. destruct (in_dec Z.eq_dec n (map fst ds)) as [I|I]; [now apply S3|]. rewrite SO by exact I. exact SM.
    + intros j NI. rewrite SO by (intro I; apply NI; right; exact I). apply OM. intros ->. apply NI. left. reflexivity.
Qed.

Lemma dyn_run t fs : In (i_expire cf) (t_off t) -> Forall (fun c => one_line (snd c) /\ ~ digit (hd x00 (snd c))) (t_dyn t) ->
  (forall c, In c (dyn_of (i_expire cf) t) -> in_range cf (fst c)) ->
  zlen (lines (dyn_lines K (i_expire cf) t)) <= 4095 ->
  exists ok o, ask_ipfw machine run cf (list_dyn_args cf) STANDARD_CMD_OUT_BUFSIZE (t, fs) = Ok (ok, o, (t, tl fs)) /\
    (o = [] \/ o = lines (dyn_lines K (i_expire cf) t)) /\
    (hd Runs fs = Runs -> ok = true /\ o = lines (dyn_lines K (i_expire cf) t)).
Proof.
  intros OFF DY RG L. destruct (num_small (i_expire cf)) as (W1 & L1 & D1); [apply (sets_small cf CF)|].
  assert (SL : set_lines K (i_expire cf) t = []) by (unfold set_lines; apply memz_In in OFF; now rewrite OFF).
  destruct (command_run K cf CF [$ "-d"; $ "set"; dec (i_expire cf); $ "list"] (list_dyn_args cf) STANDARD_CMD_OUT_BUFSIZE t fs t (lines (dyn_lines K (i_expire cf) t)))
    as (ok & o & t1 & E & T & O & RR).
  - reflexivity.
  - discriminate.
  - repeat (apply Forall_cons; [first [assumption|lit]|]). apply Forall_nil.
  - reflexivity.
  - cbn [fold_right]. change (zlen ($ "-d")) with 2. change (zlen ($ "set")) with 3. change (zlen ($ "list")) with 4. lia.
  - cbn [ipfw_run]. change (bseq ($ "-d") ($ "add")) with false. change (bseq ($ "-d") ($ "set")) with false. change (bseq ($ "-d") ($ "delete")) with false. cbn iota. cbn [run_list].
    change (bseq ($ "set") ($ "set") && bseq ($ "list") ($ "list")) with true. change (bseq ($ "-d") ($ "-S")) with false. change (bseq ($ "-d") ($ "-d")) with true. cbn iota. now rewrite D1, SL.
  - assert (RO : truncate_partial_line (read_output STANDARD_CMD_OUT_BUFSIZE (lines (dyn_lines K (i_expire cf) t)) [] []) = lines (dyn_lines K (i_expire cf) t)).
    { rewrite read_all; [apply truncated_lines| |exact L|reflexivity]. apply lines_no_nul.
      destruct KO as (NK & _ & (HL & _)). unfold dyn_lines. destruct (t_dyn t) eqn:ED; [constructor|]. rewrite <- ED in DY. constructor; [apply HL|].
      apply Forall_forall. intros x I. apply in_map_iff in I as (c & <- & I). pose proof (RG c I) as RC. apply filter_In in I as (I & _).
      rewrite Forall_forall in DY. destruct (DY c I) as ((_ & NN) & _). rewrite in_app_iff. intros [Q|Q]; [|auto]. revert Q.
      apply (number_chars K NK); [apply (range_small cf CF); exact RC|]. unfold digit. vm_compute. intuition. }
    rewrite RO in *. assert (t1 = t) by (destruct T; assumption). subst t1. exists ok, o. split; [exact E|]. split; [exact O|]. intro H. destruct (RR H) as (A & _ & B). auto.
Qed.

Lemma heading_found rest : exists r h2, strstr tolower ($ "## dynamic rules") (dyn_heading K ++ x0a :: rest) = Some r /\ r = h2 ++ x0a :: rest /\ ~ In x0a h2.
Proof.
  destruct KO as (_ & _ & ((NL & _) & a & b & MA)).
  apply map_eq_app in MA as (a0 & x0 & H0 & EA & MB). apply map_eq_app in MB as (h0 & b0 & H1 & EH & EB). subst x0.
  assert (OUT : dyn_heading K ++ x0a :: rest = a0 ++ h0 ++ (b0 ++ x0a :: rest)) by (rewrite H0, <- !app_assoc; reflexivity).
  destruct (strstr tolower ($ "## dynamic rules") (dyn_heading K ++ x0a :: rest)) as [r|] eqn:E.
  2:{ exfalso. exact (strstr_none _ _ _ E a0 h0 (b0 ++ x0a :: rest) OUT EH). }
  apply strstr_some in E as (a1 & h1 & b1 & E1 & E2 & M1 & MIN). specialize (MIN a0 h0 (b0 ++ x0a :: rest) OUT EH).
  exists r. destruct (app_split _ _ _ _ E1) as [(h2 & Q1 & Q2)|(h2 & Q1 & Q2 & Q3)].
  - exists h2. split; [reflexivity|]. split; [exact Q2|]. intro I. apply NL. rewrite Q1. apply in_app_iff. right. exact I.
  - exfalso. assert (Q : zlen a1 = zlen (a0 ++ h0 ++ b0) + zlen h2) by (rewrite <- H0; rewrite Q1; apply zlen_app).
    rewrite !zlen_app in Q. pose proof (zlen_nonneg h0). pose proof (zlen_nonneg b0). destruct h2 as [|c2 h2]; [now apply Q3|]. rewrite zlen_cons in Q. pose proof (zlen_nonneg h2). lia.
Qed.

(** ** Deleting *)
Lemma delete_run n t fs : in_range cf n ->
  exists ok o t1, ask_ipfw machine run cf (delete_args cf n) STANDARD_CMD_OUT_BUFSIZE (t, fs) = Ok (ok, o, (t1, tl fs)) /\
    (t1 = t \/ t1 = with_rules t (filter (fun r => negb (is_at n (i_expire cf) r)) (t_rules t))) /\
    (hd Runs fs = Runs -> ok = true /\ t1 = with_rules t (filter (fun r => negb (is_at n (i_expire cf) r)) (t_rules t))).
Proof.
  intro R. destruct (num_small n) as (W1 & L1 & D1); [now apply (range_small cf CF)|]. destruct (num_small (i_expire cf)) as (W2 & L2 & D2); [apply (sets_small cf CF)|].
  destruct (command_run K cf CF [$ "set"; dec (i_expire cf); $ "delete"; dec n] (delete_args cf n) STANDARD_CMD_OUT_BUFSIZE t fs
             (with_rules t (filter (fun r => negb (is_at n (i_expire cf) r)) (t_rules t))) []) as (ok & o & t1 & E & T & _ & RR).
  - reflexivity.
  - discriminate.
  - repeat (apply Forall_cons; [first [assumption|lit]|]). apply Forall_nil.
  - reflexivity.
  - cbn [fold_right]. change (zlen ($ "set")) with 3. change (zlen ($ "delete")) with 6. lia.
  - cbn [ipfw_run]. change (bseq ($ "set") ($ "add")) with false. change (bseq ($ "set") ($ "set")) with true. cbn iota. cbn [run_set].
    change (bseq ($ "delete") ($ "delete")) with true. cbn iota. now rewrite D1, D2.
  - exists ok, o, t1. split; [exact E|]. split; [exact T|]. intro H. destruct (RR H) as (A & B & _). auto.
Qed.

(** Whatever fails, only rules in the expire set are deleted; and the numbers that are freed *)
Definition pruned (t t' : table) : Prop :=
  t_off t' = t_off t /\ t_dyn t' = t_dyn t /\ exists f, t_rules t' = filter f (t_rules t) /\ forall r, f r = false -> r_set r = i_expire cf.
Lemma pruned_refl t : pruned t t.
Proof.
  split; [reflexivity|]. split; [reflexivity|]. exists (fun _ => true). split; [|discriminate]. induction (t_rules t) as [|r l IH]; [reflexivity|cbn [filter]; f_equal; exact IH].
Qed.
Lemma pruned_trans t1 t2 t3 : pruned t1 t2 -> pruned t2 t3 -> pruned t1 t3.
Proof.
  intros (A & B & f & C & D) (A' & B' & g & C' & D'). split; [congruence|]. split; [congruence|]. exists (fun r => f r && g r). split.
  - rewrite C', C. clear. induction (t_rules t1) as [|r l IH]; [reflexivity|]. cbn [filter]. destruct (f r); cbn [andb filter]; [destruct (g r); now rewrite IH|exact IH].
  - intros r E. apply andb_false_iff in E as [E|E]; auto.
Qed.
Lemma pruned_delete n t : pruned t (with_rules t (filter (fun r => negb (is_at n (i_expire cf) r)) (t_rules t))).
Proof.
  split; [reflexivity|]. split; [reflexivity|]. eexists. split; [reflexivity|]. intros r E. apply negb_false_iff in E. unfold is_at in E. apply andb_true_iff in E as (_ & E). now apply Z.eqb_eq.
Qed.
Definition after (x : option Z) : option Z :=
  match x with Some v => Some (if v =? 3 then 2 else if v =? 2 then 0 else v) | None => None end.
Lemma purge_map_pass l : forall i m total t fs, 0 <= i -> zlen m = i_max cf -> i + zlen l = i_max cf ->
  exists m' total' t' fs', purge_map machine run cf i l m total (t, fs) = Ok (m', total', (t', fs')) /\ pruned t t' /\ zlen m' = i_max cf /\
    (fs = [] -> (forall j, nth_error l j = nth_error m (Z.to_nat i + j)) ->
       fs' = [] /\
       (forall j, (j < Z.to_nat i)%nat -> nth_error m' j = nth_error m j) /\ (forall j, nth_error m' (Z.to_nat i + j) = after (nth_error l j)) /\
       (forall r, In r (t_rules t') <-> In r (t_rules t) /\ ~ (r_set r = i_expire cf /\ exists j, nth_error l j = Some 2 /\ r_num r = i_start cf + i + Z.of_nat j))).
Proof.
  pose proof CF as (_ & _ & _ & _ & _ & S0 & M0 & SM).
  induction l as [|x l IH]; intros i m total t fs I L LL.
  - exists m, total, t, fs. split; [reflexivity|]. split; [apply pruned_refl|]. split; [exact L|]. intros -> N. split; [reflexivity|]. split; [reflexivity|].
    split; [intro j; rewrite <- N; destruct j; reflexivity|]. intro r. split; [|tauto]. intro H. split; [exact H|]. intros (_ & [|j] & E & _); discriminate E.
  - rewrite zlen_cons in LL. pose proof (zlen_nonneg l) as L0. assert (IM : 0 <= i < zlen m) by lia. cbn [purge_map].
    (* a step that writes [v] at [i] and leaves the table *)
    assert (REST : forall m1 total1 t1 fs1, zlen m1 = i_max cf -> pruned t t1 ->
      (fs = [] -> (forall j, nth_error (x :: l) j = nth_error m (Z.to_nat i + j)) -> fs1 = [] /\ (forall j, nth_error m1 j = if Nat.eqb j (Z.to_nat i) then after (Some x) else nth_error m j) /\
         (forall r, In r (t_rules t1) <-> In r (t_rules t) /\ ~ (r_set r = i_expire cf /\ x = 2 /\ r_num r = i_start cf + i))) ->
      exists m' total' t' fs', purge_map machine run cf (i + 1) l m1 total1 (t1, fs1) = Ok (m', total', (t', fs')) /\ pruned t t' /\ zlen m' = i_max cf /\
       (fs = [] -> (forall j, nth_error (x :: l) j = nth_error m (Z.to_nat i + j)) -> fs' = [] /\
       (forall j, (j < Z.to_nat i)%nat -> nth_error m' j = nth_error m j) /\ (forall j, nth_error m' (Z.to_nat i + j) = after (nth_error (x :: l) j)) /\
       (forall r, In r (t_rules t') <-> In r (t_rules t) /\ ~ (r_set r = i_expire cf /\ exists j, nth_error (x :: l) j = Some 2 /\ r_num r = i_start cf + i + Z.of_nat j)))).
    { intros m1 total1 t1 fs1 L1 PR N1. destruct (IH (i + 1) m1 total1 t1 fs1) as (m' & total' & t' & fs' & E & PR' & L' & Q); [lia|exact L1|lia|].
      exists m', total', t', fs'. split; [exact E|]. split; [exact (pruned_trans _ _ _ PR PR')|]. split; [exact L'|].
      intros F N. destruct (N1 F N) as (F1 & NM & NT). destruct (Q F1) as (F' & A & B & C).
      { intro j. rewrite NM. destruct (Nat.eqb_spec (Z.to_nat (i + 1) + j) (Z.to_nat i)); [lia|]. specialize (N (S j)). cbn [nth_error] in N. rewrite N. f_equal. lia. }
      split; [exact F'|]. split.
      { intros j J. rewrite A by lia. rewrite NM. destruct (Nat.eqb_spec j (Z.to_nat i)); [lia|reflexivity]. }
      split.
      { intros [|j].
        - rewrite Nat.add_0_r. rewrite A by lia. rewrite NM, Nat.eqb_refl. reflexivity.
        - cbn [nth_error]. rewrite <- B. f_equal. lia. }
      intro r. rewrite C, NT. split.
      - intros ((H1 & H2) & H3). split; [exact H1|]. intros (S1 & [|j] & J1 & J2).
        + cbn [nth_error] in J1. injection J1 as J1. apply H2. split; [exact S1|]. split; [exact J1|lia].
        + apply H3. split; [exact S1|]. exists j. split; [exact J1|lia].
      - intros (H1 & H2). split; [split; [exact H1|]|].
        + intros (S1 & X2 & J2). apply H2. split; [exact S1|]. exists 0%nat. cbn [nth_error]. split; [now rewrite X2|lia].
        + intros (S1 & j & J1 & J2). apply H2. split; [exact S1|]. exists (S j). split; [exact J1|lia]. }
    destruct (Z.eqb_spec x RULE_TMP_MARKED) as [->|X3].
    { destruct (put_map_ok i RULE_EXPIRED m IM) as (m1 & E1 & L1 & N1). rewrite E1. cbn [bind]. apply REST; [congruence|apply pruned_refl|].
      intros F _. split; [exact F|]. split; [exact N1|]. intro r. split; [|tauto]. intro H. split; [exact H|]. intros (_ & Q & _). discriminate Q. }
    destruct (Z.eqb_spec x RULE_EXPIRED) as [->|X2]; cbn [negb].
    + assert (RG : in_range cf (i_start cf + i)) by (split; lia). unfold u16. rewrite Z.mod_small by lia.
      destruct (delete_run (i_start cf + i) t fs RG) as (ok & o & t1 & E & T & RR). rewrite E. cbn [bind].
      assert (PR : pruned t t1) by (destruct T as [->| ->]; [apply pruned_refl|apply pruned_delete]).
      replace (i_start cf + i - i_start cf) with i by lia.
      destruct ok.
      * destruct (put_map_ok i RULE_FREE m IM) as (m1 & E1 & L1 & N1). rewrite E1. cbn [bind]. apply REST; [congruence|exact PR|].
        intros -> _. split; [reflexivity|]. split; [exact N1|]. destruct (RR eq_refl) as (_ & ->). intro r. cbn [t_rules with_rules]. rewrite filter_In, negb_true_iff.
        unfold is_at. split.
        -- intros (H1 & H2). split; [exact H1|]. intros (S1 & _ & S2). rewrite S1, S2, !Z.eqb_refl in H2. discriminate H2.
        -- intros (H1 & H2). split; [exact H1|]. apply andb_false_iff. destruct (Z.eqb_spec (r_num r) (i_start cf + i)); [|left; reflexivity].
           destruct (Z.eqb_spec (r_set r) (i_expire cf)); [|right; reflexivity]. exfalso. apply H2. auto.
      * apply REST; [exact L|exact PR|]. intros ->. destruct (RR eq_refl) as (Q & _). discriminate Q.
    + apply REST; [exact L|apply pruned_refl|]. intros -> N. split; [reflexivity|]. split.
      * intro j. destruct (Nat.eqb_spec j (Z.to_nat i)) as [->|]; [|reflexivity]. cbn [after]. unfold RULE_TMP_MARKED, RULE_EXPIRED in *.
        destruct (Z.eqb_spec x 3); [lia|]. destruct (Z.eqb_spec x 2); [lia|]. specialize (N 0%nat). rewrite Nat.add_0_r in N. now rewrite <- N.
      * intro r. split; [|tauto]. intro H. split; [exact H|]. intros (_ & Q & _). auto.
Qed.

(** ** A purge *)
Definition has_dynamic (t : table) (n : Z) : Prop := exists c, In c (t_dyn t) /\ fst c = n.
Inductive purged (now : Z) (k : books) (t : table) : books -> table -> Prop :=
| pu_skip : b_total k <= 0 \/ now - i_interval cf <= b_purged k -> purged now k t k t
| pu_done k' t' : pruned t t' -> zlen (b_map k') = i_max cf -> b_active k' = b_active k -> b_next k' = b_next k ->
    (forall r, In r (t_rules t') <-> In r (t_rules t) /\ (r_set r = i_expire cf -> has_dynamic t (r_num r))) ->
    (forall r, In r (t_rules t) -> r_set r = i_expire cf -> status cf k' (r_num r) = Some (if existsb (fun c => fst c =? r_num r) (t_dyn t) then 2 else 0)) ->
    (forall n, (forall r, In r (t_rules t) -> r_set r = i_expire cf -> r_num r <> n) -> status cf k' n = after (status cf k n)) ->
    purged now k t k' t'.

Lemma dyn_in t n : In n (map fst (dyn_of (i_expire cf) t)) <-> has_dynamic t n /\ exists r, In r (t_rules t) /\ r_set r = i_expire cf /\ r_num r = n.
Proof.
  unfold dyn_of. rewrite in_map_iff. split.
  - intros (c & <- & I). apply filter_In in I as (I & X). apply existsb_exists in X as (r & R & X). unfold is_at in X. apply andb_true_iff in X as (X1 & X2). apply Z.eqb_eq in X1, X2.
    split; [exists c; auto|]. exists r. auto.
  - intros ((c & I & <-) & r & R & X1 & X2). exists c. split; [reflexivity|]. apply filter_In. split; [exact I|]. apply existsb_exists. exists r. split; [exact R|].
    unfold is_at. now rewrite X1, X2, !Z.eqb_refl.
Qed.

Lemma purge_pass now k t fs : tidy K cf k t -> zlen (lines (dyn_lines K (i_expire cf) t)) <= 4095 ->
  exists k' t' fs', purge_round machine run cf now k (t, fs) = Ok (k', (t', fs')) /\ pruned t t' /\ b_active k' = b_active k /\ b_next k' = b_next k /\ zlen (b_map k') = i_max cf /\
    (fs = [] -> fs' = [] /\ purged now k t k' t').
Proof.
  intros TD L. unfold purge_round. destruct ((b_total k >? 0) && (b_purged k <? now - i_interval cf)) eqn:B.
  2:{ exists k, t, fs. split; [reflexivity|]. split; [apply pruned_refl|]. split; [reflexivity|]. split; [reflexivity|]. split; [apply (tidy_map _ _ _ _ TD)|]. intros ->. split; [reflexivity|].
      apply pu_skip. apply andb_false_iff in B as [B|B]; [left; lia|right; apply Z.ltb_ge in B; exact B]. }
  assert (RG : forall c, In c (dyn_of (i_expire cf) t) -> in_range cf (fst c)).
  { intros c I. apply (in_map fst) in I. apply dyn_in in I as (_ & r & R & S1 & <-). now apply (tidy_expire _ _ _ _ TD r R S1). }
  pose proof (tidy_map _ _ _ _ TD) as ML. pose proof (tidy_dyn _ _ _ _ TD) as DY.
  destruct (dyn_run t fs (tidy_off _ _ _ _ TD) DY RG L) as (ok & o & E & O & RR).
  unfold ipfw_purge_expired_rules. rewrite E. cbn [bind].
  destruct ok; cbn [negb].
  2:{ do 3 eexists. split; [reflexivity|]. split; [apply pruned_refl|]. split; [reflexivity|]. split; [reflexivity|]. split; [exact ML|]. intros ->. destruct (RR eq_refl) as (Q & _). discriminate Q. }
  set (rest := fun m : list Z => bind (purge_map machine run cf 0 m m (b_total k) (t, tl fs)) (fun r => let '(map, total, w) := r in Ok (mkBooks (b_active k) total (b_next k) (b_purged k) map, w))).
  assert (REST : forall m1, zlen m1 = i_max cf ->
    (fs = [] -> (forall j, In j (map fst (dyn_of (i_expire cf) t)) -> look cf m1 j = Some 3) /\ (forall j, ~ In j (map fst (dyn_of (i_expire cf) t)) -> look cf m1 j = look cf (b_map k) j)) ->
    exists k' t' fs', bind (rest m1) (fun r => let '(k, w) := r in Ok (mkBooks (b_active k) (b_total k) (b_next k) now (b_map k), w)) = Ok (k', (t', fs')) /\
      pruned t t' /\ b_active k' = b_active k /\ b_next k' = b_next k /\ zlen (b_map k') = i_max cf /\ (fs = [] -> fs' = [] /\ purged now k t k' t')).
  { intros m1 L1 N1. unfold rest. destruct (purge_map_pass m1 0 m1 (b_total k) t (tl fs)) as (m' & total' & t' & fs' & PE & PR & LM & Q); [lia|exact L1|lia|].
    rewrite PE. cbn [bind b_active b_total b_next b_map]. do 3 eexists. split; [reflexivity|]. split; [exact PR|]. split; [reflexivity|]. split; [reflexivity|]. split; [exact LM|].
    intros F. destruct (N1 F) as (M3 & MO). destruct Q as (F' & _ & QM & QT); [rewrite F; reflexivity|reflexivity|]. split; [exact F'|].
    assert (LK : forall n, look cf m' n = after (look cf m1 n)).
    { intro n. unfold look. destruct (n <? i_start cf); [reflexivity|]. exact (QM (Z.to_nat (n - i_start cf))). }
    assert (L2 : forall r, In r (t_rules t) -> r_set r = i_expire cf -> look cf m1 (r_num r) = Some (if existsb (fun c => fst c =? r_num r) (t_dyn t) then 3 else 2)).
    { intros r R S1. destruct (existsb (fun c => fst c =? r_num r) (t_dyn t)) eqn:X.
      - apply M3, dyn_in. apply existsb_exists in X as (c & I & X). apply Z.eqb_eq in X. split; [exists c; auto|exists r; auto].
      - rewrite MO. + apply (tidy_expire _ _ _ _ TD r R S1).
        + intro I. apply dyn_in in I as ((c & I & X1) & _). enough (Y : existsb (fun c => fst c =? r_num r) (t_dyn t) = true) by congruence.
          apply existsb_exists. exists c. split; [exact I|]. now apply Z.eqb_eq. }
    apply pu_done; cbn [b_active b_next b_map]; auto.
    - intro r. rewrite QT. split.
      + intros (R & N). split; [exact R|]. intro S1. destruct (existsb (fun c => fst c =? r_num r) (t_dyn t)) eqn:X.
        * apply existsb_exists in X as (c & I & X). apply Z.eqb_eq in X. exists c. auto.
        * exfalso. apply N. split; [exact S1|]. specialize (L2 r R S1). rewrite X in L2. destruct (tidy_expire _ _ _ _ TD r R S1) as ((R1 & R2) & _).
          unfold look in L2. destruct (Z.ltb_spec (r_num r) (i_start cf)); [lia|]. exists (Z.to_nat (r_num r - i_start cf)). split; [exact L2|lia].
      + intros (R & N). split; [exact R|]. intros (S1 & j & J1 & J2). specialize (L2 r R S1). destruct (N S1) as (c & I & X).
        assert (Y : existsb (fun c => fst c =? r_num r) (t_dyn t) = true) by (apply existsb_exists; exists c; split; [exact I|now apply Z.eqb_eq]).
        rewrite Y in L2. unfold look in L2. destruct (Z.ltb_spec (r_num r) (i_start cf)); [lia|]. replace (Z.to_nat (r_num r - i_start cf)) with j in L2 by lia. congruence.
    - intros r R S1. rewrite status_look. cbn [b_map]. rewrite LK, (L2 r R S1). destruct (existsb (fun c => fst c =? r_num r) (t_dyn t)); reflexivity.
    - intros n N. rewrite !status_look. cbn [b_map]. rewrite LK, MO; [reflexivity|]. intro I. apply dyn_in in I as (_ & r & R & S1 & X). exact (N r R S1 X). }
  destruct O as [->|EO].
  { change (zlen (@nil byte) =? 0) with true. cbn iota. apply (REST (b_map k) ML). intros ->. destruct (RR eq_refl) as (_ & Q).
    assert (D : t_dyn t = []). { unfold dyn_lines in Q. destruct (t_dyn t); [reflexivity|]. exfalso. rewrite lines_cons in Q. symmetry in Q. apply app_eq_nil in Q as (_ & Q). discriminate Q. }
    unfold dyn_of. rewrite D. split; [intros j []|reflexivity]. }
  destruct (t_dyn t) as [|c0 ds0] eqn:D.
  { assert (EQ : o = []) by (rewrite EO; unfold dyn_lines; rewrite D; reflexivity). rewrite EQ. change (zlen (@nil byte) =? 0) with true. cbn iota. apply (REST (b_map k) ML). intros _.
    unfold dyn_of. rewrite D. split; [intros j []|reflexivity]. }
  assert (EL : o = dyn_heading K ++ x0a :: lines (map (fun c => number K (fst c) ++ snd c) (dyn_of (i_expire cf) t))) by (rewrite EO; unfold dyn_lines; rewrite D; apply lines_cons).
  assert (NZ : zlen o =? 0 = false). { apply Z.eqb_neq. rewrite EL, zlen_app, zlen_cons. pose proof (zlen_nonneg (dyn_heading K)). pose proof (zlen_nonneg (lines (map (fun c => number K (fst c) ++ snd c) (dyn_of (i_expire cf) t)))). lia. }
  rewrite NZ. destruct (heading_found (lines (map (fun c => number K (fst c) ++ snd c) (dyn_of (i_expire cf) t)))) as (r & h2 & SE & RE & NI).
  rewrite EL, SE, RE. rewrite (index_of_app x0a h2) by exact NI. cbn iota.
  replace (skipn (S (List.length h2)) (h2 ++ x0a :: lines (map (fun c => number K (fst c) ++ snd c) (dyn_of (i_expire cf) t)))) with (lines (map (fun c => number K (fst c) ++ snd c) (dyn_of (i_expire cf) t))).
  2:{ clear. induction h2 as [|c h2 IH]; [reflexivity|exact IH]. }
  destruct (mark_lines (dyn_of (i_expire cf) t) (b_map k)) as (m' & ME & LM & M3 & MO).
  { apply Forall_forall. intros c I. split; [now apply RG|]. apply filter_In in I as (I & _). rewrite D, Forall_forall in *. destruct (DY c I) as ((A & _) & C). auto. }
  { exact ML. }
  rewrite ME. rewrite bind_ok. apply (REST m' LM). intros _. auto.
Qed.
End Ipfw.
