(** Proofs about the ipfw back end: the start and the end. *)
From Verif Require Import Bytes M_util M_message M_codec M_access M_cycle M_incoming M_packet M_fw M_extcmd M_pf
  S_text S_access S_incoming S_fw S_pf P_bytes P_util P_util2 P_access P_fw P_fw2 P_fw3 P_fw5 P_fw8 P_fw9 P_fwinit3 P_incoming3 P_incoming5 P_pf P_pf2 M_ipfw S_ipfw P_ipfw P_ipfw2 P_ipfw3 P_ipfw4 P_ipfw5 P_ipfw6.
From Coq Require Import Init.Byte List ZArith Bool Lia Permutation.
Import ListNotations.
Open Scope Z_scope.

Section Ipfw.
Variable K : ipfw.
Variable cf : ipfwconf.
Hypothesis CF : conf_fits cf.
Hypothesis KO : ipfw_ok K.
Notation run := (exec_ipfw K).

Definition flushed (t : table) : table := with_rules t (filter (fun r => negb (r_set r =? i_active cf)) (t_rules t)).
Lemma flush_run t fs :
  exists ok o t1, ask_ipfw machine run cf (flush_args cf) CMD_BUFSIZE (t, fs) = Ok (ok, o, (t1, tl fs)) /\ (t1 = t \/ t1 = flushed t) /\ (hd Runs fs = Runs -> ok = true /\ t1 = flushed t).
Proof.
  destruct (num_small (i_active cf)) as (W1 & L1 & D1); [apply (sets_small cf CF)|].
  destruct (command_run K cf CF [$ "delete"; $ "set"; dec (i_active cf)] (flush_args cf) CMD_BUFSIZE t fs (flushed t) []) as (ok & o & t1 & E & T & _ & RR).
  - reflexivity.
  - discriminate.
  - repeat (apply Forall_cons; [first [assumption|lit]|]). apply Forall_nil.
  - reflexivity.
  - cbn [fold_right]. change (zlen ($ "delete")) with 6. change (zlen ($ "set")) with 3. lia.
  - cbn [ipfw_run]. change (bseq ($ "delete") ($ "add")) with false. change (bseq ($ "delete") ($ "set")) with false. change (bseq ($ "delete") ($ "delete")) with true. cbn iota. cbn [run_delete].
    change (bseq ($ "set") ($ "set")) with true. cbn iota. unfold flushed. now rewrite D1.
  - exists ok, o, t1. split; [exact E|]. split; [exact T|]. intro H. destruct (RR H) as (A & B & _). auto.
Qed.
Lemma disable_run t : exists o, ask_ipfw machine run cf (disable_args cf) CMD_BUFSIZE (t, []) = Ok (true, o, (mkTable (t_rules t) (i_expire cf :: t_off t) (t_dyn t), [])).
Proof.
  destruct (num_small (i_expire cf)) as (W1 & L1 & D1); [apply (sets_small cf CF)|].
  destruct (command_run K cf CF [$ "set"; $ "disable"; dec (i_expire cf)] (disable_args cf) CMD_BUFSIZE t [] (mkTable (t_rules t) (i_expire cf :: t_off t) (t_dyn t)) []) as (ok & o & t1 & E & T & _ & RR).
  - reflexivity.
  - discriminate.
  - repeat (apply Forall_cons; [first [assumption|lit]|]). apply Forall_nil.
  - reflexivity.
  - cbn [fold_right]. change (zlen ($ "disable")) with 7. change (zlen ($ "set")) with 3. lia.
  - cbn [ipfw_run]. change (bseq ($ "set") ($ "add")) with false. change (bseq ($ "set") ($ "set")) with true. cbn iota. cbn [run_set].
    change (bseq ($ "disable") ($ "disable")) with true. cbn iota. now rewrite D1.
  - exists o. destruct (RR eq_refl) as (-> & -> & _). exact E.
Qed.
Definition off_lines (t : table) : list bytes := map (fun r => $ "# DISABLED " ++ rule_line K r) (in_set (i_expire cf) (t_rules t)).
Lemma list_exp_run t : In (i_expire cf) (t_off t) -> Forall one_line (off_lines t) -> zlen (lines (off_lines t)) <= 4095 ->
  ask_ipfw machine run cf (list_exp_args cf) STANDARD_CMD_OUT_BUFSIZE (t, []) = Ok (true, lines (off_lines t), (t, [])).
Proof.
  intros OFF OL L. destruct (num_small (i_expire cf)) as (W1 & L1 & D1); [apply (sets_small cf CF)|].
  assert (SL : set_lines_off K (i_expire cf) t = off_lines t) by (unfold set_lines_off, off_lines; apply memz_In in OFF; now rewrite OFF).
  destruct (command_run K cf CF [$ "-S"; $ "set"; dec (i_expire cf); $ "list"] (list_exp_args cf) STANDARD_CMD_OUT_BUFSIZE t [] t (lines (off_lines t)))
    as (ok & o & t1 & E & T & O & RR).
  - reflexivity.
  - discriminate.
  - repeat (apply Forall_cons; [first [assumption|lit]|]). apply Forall_nil.
  - reflexivity.
  - cbn [fold_right]. change (zlen ($ "-S")) with 2. change (zlen ($ "set")) with 3. change (zlen ($ "list")) with 4. lia.
  - cbn [ipfw_run]. change (bseq ($ "-S") ($ "add")) with false. change (bseq ($ "-S") ($ "set")) with false. change (bseq ($ "-S") ($ "delete")) with false. cbn iota. cbn [run_list].
    change (bseq ($ "set") ($ "set") && bseq ($ "list") ($ "list")) with true. change (bseq ($ "-S") ($ "-S")) with true. cbn iota. now rewrite D1, SL.
  - destruct (RR eq_refl) as (-> & -> & ->). rewrite E. rewrite read_all; [now rewrite truncated_lines| |exact L|reflexivity]. apply lines_no_nul. eapply Forall_impl; [|exact OL]. intros x X. apply X.
Qed.

(** ** The end *)
Lemma flushed_none t : in_set (i_active cf) (t_rules t) = [] -> flushed t = t.
Proof.
  intro E. unfold flushed. destruct t as [rs off dyn]. cbn [t_rules with_rules t_off t_dyn] in *. unfold with_rules. cbn [t_off t_dyn]. f_equal.
  induction rs as [|r rs IH]; [reflexivity|]. unfold in_set in *. cbn [filter] in *. destruct (r_set r =? i_active cf); [discriminate E|]. cbn [negb]. f_equal. exact (IH E).
Qed.
Lemma cleanup_pass t fs : ~ In (i_active cf) (t_off t) -> (forall r, In r (t_rules t) -> r_set r = i_active cf -> one_line (rule_line K r)) -> zlen (lines (set_lines K (i_active cf) t)) <= 4095 ->
  exists ok t' fs', fw_cleanup machine run cf (t, fs) = Ok (ok, (t', fs')) /\ (t' = t \/ t' = flushed t) /\
    (says "n"%byte (i_flush_exit cf) = true -> ok = true /\ t' = t /\ fs' = fs) /\
    (fs = [] -> says "n"%byte (i_flush_exit cf) = false -> ok = true /\ t' = flushed t /\ fs' = []).
Proof.
  intros ON OL L. unfold fw_cleanup. destruct (says "n"%byte (i_flush_exit cf)).
  { exists true, t, fs. split; [reflexivity|]. split; [left; reflexivity|]. split; [auto|]. discriminate. }
  assert (A : i_active cf >? 0 = true) by (destruct CF as (_ & _ & A & _); lia). rewrite A. unfold set_exists.
  destruct (list_run K cf CF t fs) as (ok & o & LR & O & RR); auto. { intros r I. apply in_set_In in I as (I & S1). auto. }
  rewrite LR. cbn [bind]. destruct (ok && negb (zlen o =? 0)) eqn:B.
  - destruct (flush_run t (tl fs)) as (ok2 & o2 & t1 & E & T & R2). rewrite E. cbn [bind]. exists ok2, t1, (tl (tl fs)). split; [reflexivity|]. split; [exact T|]. split; [discriminate|].
    intros -> _. destruct (R2 eq_refl). auto.
  - exists true, t, (tl fs). split; [reflexivity|]. split; [left; reflexivity|]. split; [discriminate|]. intros -> _. destruct (RR eq_refl) as (-> & EO). split; [reflexivity|]. split; [|reflexivity].
    symmetry. apply flushed_none. destruct (in_set (i_active cf) (t_rules t)) as [|r l]; [reflexivity|]. exfalso. rewrite EO in B. cbn [map] in B. rewrite lines_cons, zlen_app, zlen_cons in B. cbn [andb] in B.
    apply negb_false_iff, Z.eqb_eq in B. pose proof (zlen_nonneg (rule_line K r)). pose proof (zlen_nonneg (lines (map (rule_line K) l))). lia.
Qed.

(** ** The expired rules *)
Lemma expired_quiet u : forall v m tot, ~ In "#"%byte u -> read_expired cf 0 (u ++ v) m tot = read_expired cf 0 v m tot.
Proof.
  induction u as [|c u IH]; intros v m tot N; [reflexivity|]. cbn [app read_expired].
  assert (B : is_prefix DISABLED (c :: u ++ v) = false).
  { unfold DISABLED. cbn [is_prefix]. change ($ "# DISABLED ") with ("#"%byte :: $ " DISABLED "). cbn [is_prefix]. assert (Q : beq "#"%byte c = false) by (apply beq_neq; intros <-; apply N; left; reflexivity). now rewrite Q. }
  rewrite B. apply IH. intro I. apply N. right. exact I.
Qed.
Lemma expired_lines rs : forall m tot, Forall (fun r => in_range cf (r_num r) /\ ~ In "#"%byte (show K (r_body r))) rs -> zlen m = i_max cf ->
  exists m' tot', read_expired cf 0 (lines (map (fun r => $ "# DISABLED " ++ rule_line K r) rs)) m tot = Ok (m', tot') /\ zlen m' = i_max cf /\
    (forall r, In r rs -> look cf m' (r_num r) = Some 2) /\ (forall j, (forall r, In r rs -> r_num r <> j) -> look cf m' j = look cf m j).
Proof.
  induction rs as [|r rs IH]; intros m tot F L.
  - exists m, tot. split; [reflexivity|]. split; [exact L|]. split; [intros r []|reflexivity].
  - pose proof (Forall_inv F) as (R & NH). pose proof (Forall_inv_tail F) as F'. pose proof (range_small cf CF _ R) as RS.
    pose proof KO as (NK & _). destruct (NK _ RS) as (N0 & NA & NV & _). cbn [map]. rewrite lines_cons. set (tail := lines (map (fun r => $ "# DISABLED " ++ rule_line K r) rs)) in *.
    assert (RD : strtol_wrapper (rule_line K r ++ x0a :: tail) 0 (-1) = (r_num r, STRTOL_OK)).
    { unfold rule_line. rewrite <- app_assoc. apply (number_read K KO); [exact RS|]. cbn [app hd]. unfold digit. vm_compute. intuition. }
    destruct (put_look cf (r_num r) RULE_EXPIRED m R L) as (m1 & EM & LM & SM & OM).
    assert (STEP : read_expired cf 0 (($ "# DISABLED " ++ rule_line K r) ++ x0a :: tail) m tot = read_expired cf 0 tail m1 (u16 (tot + 1))).
    { rewrite <- app_assoc. set (v := rule_line K r ++ x0a :: tail) in *.
      assert (V : exists c v', v = c :: v' /\ isdigit c = true).
      { unfold v, rule_line. destruct (number K (r_num r)) as [|c nn]; [easy|]. exists c. eexists. split; [reflexivity|]. apply isdigit_digit. now inversion NA. }
      destruct V as (c & v' & EV & DC).
      change ($ "# DISABLED " ++ v) with ("#"%byte :: ($ " DISABLED " ++ v)). cbn [read_expired].
      change (is_prefix DISABLED ("#"%byte :: ($ " DISABLED " ++ v))) with true. cbn iota.
      change (skipn 11 ("#"%byte :: ($ " DISABLED " ++ v))) with v. rewrite RD, EV, DC. cbn iota. unfold u16 at 1 2 3 4. rewrite Z.mod_small by lia.
      assert (B : (i_start cf <=? r_num r) && (r_num r <? i_start cf + i_max cf) = true) by (destruct R; apply andb_true_iff; split; [apply Z.leb_le|apply Z.ltb_lt]; lia). rewrite B, EM. cbn [bind].
      rewrite <- EV. transitivity (read_expired cf 0 v m1 (u16 (tot + 1))).
      - reflexivity.
      - unfold v. change (x0a :: tail) with ([x0a] ++ tail). rewrite app_assoc. apply expired_quiet. unfold rule_line. rewrite !in_app_iff. intros [[I|[[I|[]]|I]]|[I|[]]]; try discriminate I; [|auto].
        revert I. apply (number_chars K NK _ RS). unfold digit. vm_compute. intuition. }
    rewrite STEP. destruct (IH m1 (u16 (tot + 1)) F' LM) as (m' & tot' & E & LM' & S2 & SO). exists m', tot'. split; [exact E|]. split; [exact LM'|]. split.
    + intros x [<-|I]; [|now apply S2]. destruct (in_dec Z.eq_dec (r_num r) (map r_num rs)) as [I|I].
      * apply in_map_iff in I as (y & EY & I). rewrite <- EY. now apply S2.
      * rewrite SO; [exact SM|]. intros y IY EY. apply I. apply in_map_iff. exists y. auto.
    + intros j NJ. rewrite SO by (intros y IY; apply NJ; right; exact IY). apply OM. intros ->. exact (NJ r (or_introl eq_refl) eq_refl).
Qed.

(** ** The start *)
Lemma look_fresh n : in_range cf n -> look cf (repeat RULE_FREE (Z.to_nat (i_max cf))) n = Some 0.
Proof.
  intros (A & B). unfold look. destruct (Z.ltb_spec n (i_start cf)); [lia|]. apply nth_error_repeat. lia.
Qed.
Lemma start_pass t : startable K cf t -> says "y"%byte (i_flush_init cf) = true -> says "n"%byte (i_flush_exit cf) = false -> says "y"%byte (i_check_state cf) = false ->
  exists k t', fw_initialize machine run cf (t, []) = Ok (Some k, (t', [])) /\
    t_rules t' = filter (fun r => negb (r_set r =? i_active cf)) (t_rules t) /\ t_off t' = i_expire cf :: t_off t /\ t_dyn t' = t_dyn t /\
    (forall now, 0 <= now -> sound K cf now k t') /\
    (forall n, in_range cf n -> (forall r, In r (t_rules t) -> r_set r = i_expire cf -> r_num r <> n) -> status cf k n = Some 0).
Proof.
  intros ST FI FE CS. pose proof (sets_differ cf CF) as SD. pose proof KO as (NK & _). unfold fw_initialize. rewrite FI, CS.
  destruct (cleanup_pass t []) as (ok & t1 & fs' & E & _ & _ & Q); [apply (start_on _ _ _ ST)|apply (start_active _ _ _ ST)|apply (start_fit _ _ _ ST)|].
  destruct (Q eq_refl FE) as (-> & -> & ->). rewrite E. cbn [bind negb].
  assert (XP : i_expire cf >? 0 = true) by (destruct CF as (_ & _ & _ & X & _); lia). rewrite XP. cbn [andb].
  destruct (disable_run (flushed t)) as (o & ED). rewrite ED. cbn [bind].
  set (t' := mkTable (t_rules (flushed t)) (i_expire cf :: t_off (flushed t)) (t_dyn (flushed t))).
  assert (IE : in_set (i_expire cf) (t_rules t') = in_set (i_expire cf) (t_rules t)).
  { unfold t', flushed. cbn [t_rules with_rules]. clear -SD. unfold in_set. induction (t_rules t) as [|r l IH]; [reflexivity|]. cbn [filter]. destruct (Z.eqb_spec (r_set r) (i_active cf)) as [EQ|N]; cbn [negb filter].
    - destruct (Z.eqb_spec (r_set r) (i_expire cf)); [congruence|exact IH].
    - now rewrite IH. }
  assert (OL : Forall one_line (off_lines t')).
  { unfold off_lines. rewrite IE. apply Forall_forall. intros x I. apply in_map_iff in I as (r & <- & I). apply in_set_In in I as (I & S1). destruct (start_expire _ _ _ ST r I S1) as (R & (A & B) & _).
    pose proof (range_small cf CF _ R) as RS. unfold rule_line. split; rewrite !in_app_iff; intros [J|[J|[[J|[]]|J]]]; try discriminate J; auto; revert J; first [apply (number_chars K NK _ RS); unfold digit; vm_compute; intuition|vm_compute; intuition discriminate]. }
  rewrite (list_exp_run t'); [|left; reflexivity|exact OL|unfold off_lines; rewrite IE; apply (start_fit_off _ _ _ ST)].
  cbn [bind negb].
  destruct (expired_lines (in_set (i_expire cf) (t_rules t')) (repeat RULE_FREE (Z.to_nat (i_max cf))) 0) as (m' & tot' & EE & LM & S2 & SO).
  { rewrite IE. apply Forall_forall. intros r I. apply in_set_In in I as (I & S1). destruct (start_expire _ _ _ ST r I S1) as (R & _ & B). auto. }
  { unfold zlen. rewrite repeat_length. destruct CF as (_ & _ & _ & _ & _ & _ & M0 & _). lia. }
  fold (off_lines t') in EE. rewrite EE. cbn [bind]. eexists. exists t'. split; [reflexivity|]. split; [reflexivity|]. split; [reflexivity|]. split; [reflexivity|].
  assert (NOA : forall r, In r (t_rules t') -> In r (t_rules t) /\ r_set r <> i_active cf).
  { intros r I. unfold t', flushed in I. cbn [t_rules with_rules] in I. apply filter_In in I as (I & X). apply negb_true_iff in X. apply Z.eqb_neq in X. auto. }
  split.
  - intros now N0. constructor; cbn [b_active b_next].
    + constructor; cbn [b_map].
      * exact LM.
      * intros [J|J]; [congruence|]. exact (start_on _ _ _ ST J).
      * left. reflexivity.
      * intros r I S1. now apply NOA in I as (_ & X).
      * intros r I S1. split; [apply NOA in I as (I & _); apply (start_expire _ _ _ ST r I S1)|]. rewrite status_look. cbn [b_map]. apply S2. apply in_set_In. auto.
      * intros r I R. apply NOA in I as (I & _). exact (start_else _ _ _ ST r I R).
      * intros r r' e e' I _ S1. now apply NOA in I as (_ & X).
      * exact (start_dyn _ _ _ ST).
    + assert (X : active_numbers cf t' = []).
      { unfold active_numbers. assert (Y : in_set (i_active cf) (t_rules t') = []); [|rewrite Y; reflexivity]. destruct (in_set (i_active cf) (t_rules t')) as [|r l] eqn:IS; [reflexivity|]. exfalso.
        assert (J : In r (in_set (i_active cf) (t_rules t'))) by (rewrite IS; left; reflexivity). apply in_set_In in J as (J & S1). now apply NOA in J as (_ & X). }
      rewrite X. cbn. lia.
    + destruct CF as (_ & _ & _ & _ & _ & _ & M0 & _). lia.
    + left. exact N0.
  - intros n R N. rewrite status_look. cbn [b_map]. rewrite SO; [now apply look_fresh|]. intros r I. rewrite IE in I. apply in_set_In in I as (I & S1). now apply N.
Qed.
End Ipfw.
