(** Proofs about the configuration of the client: lines and stanzas of the rc file. *)
From Verif Require Import Bytes M_accfile M_base64 M_util M_message M_codec M_cipher M_ctx M_access M_replay M_cycle M_incoming M_conf M_codec M_client M_send
  S_base64 S_text S_conf S_accfile P_bytes P_base64 P_util P_util2 P_access P_replay P_conf P_accfile P_accfile2 P_accfile3 P_accfile4 P_message P_codec P_client P_client4 M_rc S_rc P_rc.
From Coq Require Import Init.Byte List ZArith Bool Lia.
Import ListNotations.
Open Scope Z_scope.

Local Ltac ands := repeat match goal with |- _ /\ _ => split end.

(** ** Headings *)
Lemma rc_section_heading l n : rc_section l = Some n -> ~ comment l -> heading l n.
Proof.
  unfold rc_section. destruct (skip_space_split l) as (sp & E & F & _). destruct (skip_space l) as [|c r]; [discriminate|].
  destruct (beq_spec c "["%byte) as [->|]; [|discriminate]. pose proof (strchr_split "]"%byte r) as S.
  destruct (strchr "]"%byte r) as [t|]; [|discriminate]. destruct S as (p & q & -> & -> & N). intros X NC. injection X as <-.
  split; [exact NC|]. exists sp, q. replace (zlen (p ++ "]"%byte :: q) - zlen ("]"%byte :: q)) with (zlen p) by (rewrite zlen_app; lia).
  rewrite ztake_app by reflexivity. ands; auto.
Qed.
Lemma heading_rc_section l n : heading l n -> rc_section l = Some n.
Proof.
  intros (_ & sp & rest & -> & F & N). unfold rc_section. cbn [app]. rewrite skip_space_spec; auto.
  - rewrite beq_refl. rewrite strchr_app by auto. f_equal. apply ztake_app. rewrite zlen_app. lia.
  - vm_compute. intuition congruence.
Qed.
Lemma strchr_snoc c s x : x <> c -> strchr c (s ++ [x]) = match strchr c s with Some t => Some (t ++ [x]) | None => None end.
Proof.
  intro N. induction s as [|d s IH]; cbn [app strchr].
  - now rewrite (proj2 (beq_neq x c)).
  - destruct (beq d c); [reflexivity|exact IH].
Qed.
Lemma strchr_short c s t : strchr c s = Some t -> zlen t <= zlen s.
Proof.
  revert t. induction s as [|d s IH]; intros t; cbn; [discriminate|]. destruct (beq d c); [intros E; inversion E; lia|].
  intros E. apply IH in E. rewrite zlen_cons. lia.
Qed.
Lemma rc_section_nl l : rc_section (l ++ [x0a]) = rc_section l.
Proof.
  unfold rc_section. rewrite skip_space_snoc by reflexivity. destruct (skip_space l) as [|c r]; [reflexivity|]. cbn [app].
  destruct (beq c "["%byte); [|reflexivity]. rewrite strchr_snoc by discriminate. destruct (strchr "]"%byte r) as [t|] eqn:S; [|reflexivity].
  f_equal. pose proof (strchr_short _ _ _ S). rewrite !zlen_app. change (zlen [x0a]) with 1.
  replace (zlen r + 1 - (zlen t + 1)) with (zlen r - zlen t) by lia. unfold ztake. rewrite firstn_app.
  pose proof (zlen_nonneg t). replace (Z.to_nat (zlen r - zlen t) - length r)%nat with 0%nat by (unfold zlen in *; lia). cbn [firstn]. apply app_nil_r.
Qed.
Lemma rc_param_nl l : rc_param (l ++ [x0a]) = rc_param l.
Proof.
  unfold rc_param. rewrite skip_space_snoc by reflexivity. destruct (skip_space l) as [|c t] eqn:E; [reflexivity|].
  destruct (span (fun c => negb (isspace c)) (c :: t)) as [var r] eqn:V.
  rewrite (span_snoc (fun c => negb (isspace c)) (c :: t) x0a var r eq_refl V). destruct var; [reflexivity|].
  rewrite skip_space_snoc by reflexivity. destruct (skip_space r) as [|d u] eqn:E2; [reflexivity|].
  destruct (span rc_value_char (d :: u)) as [val r'] eqn:W.
  rewrite (span_snoc rc_value_char (d :: u) x0a val r' eq_refl W). reflexivity.
Qed.

(** ** Entries *)
Lemma named_cut nm : named nm (cut_colon nm).
Proof.
  induction nm as [|c nm IH]; cbn [cut_colon]; [left; split; [reflexivity|intros []]|].
  destruct (beq_spec c ":"%byte) as [->|NC].
  - destruct (memb ":"%byte nm) eqn:M; cbn [andb negb].
    + destruct IH as [[E N]|(x & E & N)]; [apply memb_In in M; rewrite E in M; contradiction|].
      right. exists x. split; [|exact N]. rewrite E at 1. reflexivity.
    + right. exists nm. split; [reflexivity|]. intros I. apply memb_In in I. congruence.
  - cbn [andb]. destruct IH as [[E N]|(x & E & N)].
    + left. split; [now rewrite <- E|]. intros [I|I]; [congruence|auto].
    + right. exists x. split; [|exact N]. rewrite E at 1. reflexivity.
Qed.
(** No vertical tab and no form feed in the line *)
Definition simple (l : bytes) : Prop := ~ In x0b l /\ ~ In x0c l.
Lemma rc_value_char_spec c : rc_value_char c = true <-> ~ In c [" "%byte; ";"%byte; x09; x0a; x0d; "#"%byte].
Proof.
  unfold rc_value_char. rewrite negb_true_iff. rewrite <- memb_In. destruct (memb _ _); split; intuition congruence.
Qed.
Lemma not_blank c : ~ blank c <-> ~ In c [" "%byte; x09; x0a; x0b; x0c; x0d].
Proof. rewrite <- isspace_not_blank. destruct c; vm_compute; intuition (try discriminate). Qed.
Lemma chop_nonblank v : Forall (fun c => ~ blank c) v -> chop_whitespace v = v.
Proof.
  intros F. destruct v as [|c v]; [reflexivity|]. cbn [chop_whitespace]. apply Forall_inv_tail in F.
  assert (R : rtrim v = v).
  { rewrite <- (app_nil_r v) at 1. apply rtrim_spec; [|constructor]. intros NE. destruct (exists_last NE) as (v' & z & ->). rewrite last_last.
    apply Forall_app in F as [_ F]. now apply Forall_inv in F. }
  rewrite R. destruct v; reflexivity.
Qed.
Lemma rc_param_sets l n v : ~ comment l -> (forall h, ~ heading l h) -> simple l -> ~ In x0a l -> rc_param l = Some (n, v) -> sets l n v.
Proof.
  intros NC NH (NB & NF) NL. unfold rc_param. destruct (skip_space_split l) as (sp1 & E1 & F1 & _).
  destruct (span (fun c => negb (isspace c)) (skip_space l)) as [nm r] eqn:V. destruct (span_split _ _ _ _ V) as (E2 & F2 & _).
  destruct nm as [|c0 nm0] eqn:ENM; [discriminate|]. rewrite <- ENM in *. assert (NN : nm <> []) by (rewrite ENM; discriminate). clear ENM.
  destruct (skip_space_split r) as (sp2 & E3 & F3 & B3). destruct (span rc_value_char (skip_space r)) as [w rest] eqn:W.
  destruct (span_split _ _ _ _ W) as (E4 & F4 & R4). destruct w as [|d w0] eqn:EW; [discriminate|]. rewrite <- EW in *.
  assert (NW : w <> []) by (rewrite EW; discriminate). intros X. injection X as EN EV.
  assert (EL : l = sp1 ++ nm ++ sp2 ++ w ++ rest) by (rewrite E1, E2, E3, E4; reflexivity).
  assert (FW : Forall (fun c => ~ blank c /\ c <> ";"%byte /\ c <> "#"%byte) w).
  { apply Forall_forall. intros c I. rewrite Forall_forall in F4. pose proof (F4 c I) as Q. apply rc_value_char_spec in Q.
    rewrite not_blank. assert (c <> x0b) by (intros ->; apply NB; rewrite EL, !in_app_iff; tauto).
    assert (c <> x0c) by (intros ->; apply NF; rewrite EL, !in_app_iff; tauto). cbn [In] in *. intuition congruence. }
  assert (CW : chop_whitespace w = w) by (apply chop_nonblank; eapply Forall_impl; [|exact FW]; intros c [? _]; auto).
  rewrite CW in EV. clear EW. subst n v.
  split; [exact NC|]. split; [exact NH|]. exists sp1, nm, sp2, rest. ands; auto.
  - eapply Forall_impl; [|exact F2]. intros c. apply nonspace_blank.
  - apply named_cut.
  - intros ->. cbn [app] in E3. rewrite <- E3 in *.
    destruct (span_split _ _ _ _ V) as (_ & _ & [RS|RS]); [rewrite RS in E4; destruct w; [congruence|discriminate]|].
    apply negb_false_iff, isspace_blank in RS. contradiction.
  - destruct R4 as [->|R4]; [left; reflexivity|]. right.
    assert (Q : ~ rc_value_char (hd x00 rest) = true) by congruence. rewrite rc_value_char_spec in Q.
    destruct (in_dec Byte.byte_eq_dec (hd x00 rest) [" "%byte; ";"%byte; x09; x0a; x0d; "#"%byte]) as [I|I]; [|contradiction].
    assert (H : hd x00 rest <> x0a).
    { intros H. destruct rest as [|z rest]; [discriminate H|]. cbn [hd] in H. subst z. apply NL. rewrite EL, !in_app_iff. cbn [In]. tauto. }
    cbn [In] in I |- *. intuition congruence.
Qed.
Lemma sets_rc_param l n v : sets l n v -> ~ In x0a l -> rc_section l = None /\ rc_param l = Some (n, v).
Proof.
  intros (NC & NH & sp1 & nm & sp2 & rest & EL & F1 & NN & FN & NM & N2 & F2 & NV & FV & R) NL. split.
  - destruct (rc_section l) as [h|] eqn:S; [|reflexivity]. exfalso. apply (NH h). apply rc_section_heading; auto.
  - unfold rc_param. rewrite EL. rewrite skip_space_spec; auto.
    2: { destruct nm; [congruence|]. now apply Forall_inv in FN. }
    rewrite span_app.
    2: { eapply Forall_impl; [|exact FN]. intros c. apply nonspace_blank. }
    2: { right. destruct sp2 as [|z sp2]; [congruence|]. cbn [app hd]. apply Forall_inv in F2. apply negb_false_iff, isspace_blank, F2. }
    destruct nm as [|c0 nm0] eqn:ENM; [congruence|]. rewrite <- ENM in *. rewrite skip_space_spec; auto.
    2: { destruct v; [congruence|]. now apply Forall_inv in FV. }
    rewrite span_app.
    2: { eapply Forall_impl; [|exact FV]. intros c (A & B & C). apply rc_value_char_spec. rewrite not_blank in A. cbn [In] in *. intuition congruence. }
    2: { destruct R as [R|R]; [auto|]. right. destruct (rc_value_char (hd x00 rest)) eqn:Q; [|reflexivity]. apply rc_value_char_spec in Q.
         cbn [In] in *. intuition congruence. }
    destruct v as [|d v0] eqn:EV; [congruence|]. rewrite <- EV in *. rewrite (cut_colon_named _ _ NM), chop_nonblank; [reflexivity|].
    eapply Forall_impl; [|exact FV]. intros c [? _]; auto.
Qed.
Lemma same_name_eq a b : strcaseeq a b = true <-> same_name a b.
Proof.
  unfold strcaseeq, same_name. rewrite bseq_eq. rewrite (map_ext _ _ tolower_lower a), (map_ext _ _ tolower_lower b). reflexivity.
Qed.

(** ** The loop *)
Definition nls (b : bool) (l : bytes) : bytes := if b then l ++ [x0a] else l.
Lemma rc_section_nls b l : rc_section (nls b l) = rc_section l.
Proof. destruct b; [apply rc_section_nl|reflexivity]. Qed.
Lemma rc_param_nls b l : rc_param (nls b l) = rc_param l.
Proof. destruct b; [apply rc_param_nl|reflexivity]. Qed.
Lemma empty_nls b l : is_empty_line (hd x00 (nls b l)) = is_empty_line (hd x00 l).
Proof. destruct b; [|reflexivity]. destruct l; reflexivity. Qed.
Lemma nl_lines_cons l ls : exists b, nl_lines (l :: ls) = (if b : bool then nls true l :: nl_lines ls else match l with [] => nl_lines ls | _ => nls false l :: nl_lines ls end).
Proof. destruct ls as [|m ls]; [exists false; destruct l; reflexivity|exists true; reflexivity]. Qed.

(** The entry is one that is known and has a value that is accepted. *)
Definition taken (e : bytes * bytes) : Prop :=
  exists x o o', lookup var_array (fst e) = Some x /\ parse_rc_param x (snd e) o = Ok (true, o').
Lemma rc_lines_bad sec ls : forall here o o', rc_lines sec ls here true o = Ok (Some o') -> False.
Proof.
  induction ls as [|l ls IH]; intros here o o'; cbn [rc_lines]; [discriminate|].
  destruct (is_empty_line (hd x00 l)); [apply IH|]. destruct (rc_section l); [apply IH|]. destruct here; cbn [negb]; [|apply IH].
  destruct (rc_param l) as [[n v]|]; [|discriminate].
  destruct (lookup var_array n) as [x|]; [destruct (parse_rc_param x v o) as [[g o1]|]; [|discriminate]|]; apply IH.
Qed.
Definition got_heading (lines : list bytes) (name : bytes) : Prop := exists l n, In l lines /\ heading l n /\ same_name n name.
Lemma rc_lines_stanza sec lines : Forall line_ok lines -> Forall simple lines -> forall here o o',
  rc_lines sec (nl_lines lines) here false o = Ok (Some o') ->
  exists es, stanza sec here lines es /\ moved es o o' /\ Forall taken es /\
    ((got_heading lines (txt o t_stanza) /\ num o' q_got = 1) \/ (~ got_heading lines (txt o t_stanza) /\ num o' q_got = num o q_got)).
Proof.
  intros LO SI. induction lines as [|l lines IH]; intros here o o' E.
  - injection E as <-. exists []. ands; [constructor|apply moved_nil|constructor|]. right. split; [|reflexivity]. intros (? & ? & [] & _).
  - pose proof (Forall_inv LO) as (NL & N0 & _). apply Forall_inv_tail in LO. pose proof (Forall_inv SI) as SL. apply Forall_inv_tail in SI.
    specialize (IH LO SI). destruct (nl_lines_cons l lines) as (b & NLC). rewrite NLC in E.
    assert (E' : (l = [] /\ rc_lines sec (nl_lines lines) here false o = Ok (Some o')) \/
                 exists b, rc_lines sec (nls b l :: nl_lines lines) here false o = Ok (Some o')).
    { destruct b; [eauto|]. destruct l; [auto|eauto]. }
    clear E NLC b. 
    assert (SKIP : forall o1, (forall n, heading l n -> False) -> ~ got_heading lines (txt o1 t_stanza) -> ~ got_heading (l :: lines) (txt o1 t_stanza)).
    { intros o1 NH NG (l' & n & [->|I] & H & S); [eapply NH; eauto|]. apply NG. exists l', n. auto. }
    assert (KEEP : forall nm, got_heading lines nm -> got_heading (l :: lines) nm).
    { intros nm (l' & n & I & H). exists l', n. split; [now right|exact H]. }
    destruct E' as [[-> E]|(b & E)].
    + destruct (IH _ _ _ E) as (es & ST & MV & TK & G). exists es. ands; auto.
      * apply st_comment; [left; reflexivity|exact ST].
      * destruct G as [[G H]|[G H]]; [left; auto|right]. split; [|exact H]. apply SKIP; [|exact G]. intros n (NC & _). apply NC. left; reflexivity.
    + cbn [rc_lines] in E. rewrite empty_nls, rc_section_nls, rc_param_nls in E.
      destruct (is_empty_line (hd x00 l)) eqn:EL.
      { apply empty_line_comment in EL; [|auto]. destruct (IH _ _ _ E) as (es & ST & MV & TK & G). exists es. ands; auto.
        - apply st_comment; auto.
        - destruct G as [[G H]|[G H]]; [left; auto|right]. split; [|exact H]. apply SKIP; [|exact G]. intros n (NC & _). contradiction. }
      assert (NC : ~ comment l) by (rewrite <- empty_line_comment by auto; congruence).
      destruct (rc_section l) as [h|] eqn:S.
      { apply rc_section_heading in S; [|exact NC].
        set (o1 := if strcaseeq h (txt o t_stanza) then set_n q_got 1 o else o) in *.
        assert (T1 : txt o1 t_stanza = txt o t_stanza) by (unfold o1; destruct (strcaseeq h (txt o t_stanza)); reflexivity).
        assert (M1 : moved [] o o1) by (unfold o1; destruct (strcaseeq h (txt o t_stanza)); fields).
        destruct (IH _ _ _ E) as (es & ST & MV & TK & G). rewrite T1 in G. exists es. ands; auto.
        - destruct (strcaseeq h sec) eqn:C.
          + eapply st_enter; eauto. now apply same_name_eq.
          + eapply st_leave; eauto. rewrite <- same_name_eq. congruence.
        - exact (moved_app [] es o o1 o' M1 MV).
        - destruct G as [[G H]|[G H]]; [left; auto|]. rewrite H. unfold o1. destruct (strcaseeq h (txt o t_stanza)) eqn:C.
          + left. split; [|reflexivity]. exists l, h. apply same_name_eq in C. split; [now left|auto].
          + right. split; [|reflexivity]. intros (l' & n & [->|I] & HH & SN); [|apply G; exists l', n; auto].
            apply heading_rc_section in HH. apply heading_rc_section in S. rewrite S in HH. injection HH as <-. apply same_name_eq in SN. congruence. }
      assert (NH : forall n, ~ heading l n) by (intros n H; apply heading_rc_section in H; congruence).
      destruct here; cbn [negb] in E.
      * destruct (rc_param l) as [[n v]|] eqn:PR; [|discriminate]. pose proof (rc_param_sets _ _ _ NC NH SL NL PR) as SE.
        destruct (lookup var_array n) as [x|] eqn:LK; [|apply rc_lines_bad in E; contradiction].
        destruct (parse_rc_param x v o) as [[g o1]|] eqn:PP; [|discriminate].
        destruct g; cbn [orb negb] in E; [|apply rc_lines_bad in E; contradiction].
        pose proof (entry_moved _ _ _ _ _ LK PP) as M1.
        assert (T1 : txt o1 t_stanza = txt o t_stanza) by (rewrite (proj1 M1 t_stanza eq_refl); reflexivity).
        assert (G1 : num o1 q_got = num o q_got).
        { clear - PP. destruct x; cbn [parse_rc_param] in PP; cbv beta zeta in PP; first
            [ apply e_number_ok in PP; subst; reflexivity | apply e_name_ok in PP; subst; reflexivity
            | unfold e_yes in PP; apply ok_snd in PP; subst; destruct (is_yes v); reflexivity
            | unfold e_text in PP; apply ok_snd in PP; subst; reflexivity
            | apply ok_snd in PP; subst; reflexivity
            | destruct (strcaseeq v ($ "source")); [|destruct (strcaseeq v ($ "resolve"))]; apply ok_snd in PP; subst; reflexivity
            | destruct (is_yes v); [apply ok_snd in PP; subst; reflexivity|apply e_number_ok in PP; subst; reflexivity]
            | destruct v as [|c r]; [|destruct (beq c "-"%byte)]; apply e_offset_ok in PP as (z & _ & ->); reflexivity ]. }
        destruct (IH _ _ _ E) as (es & ST & MV & TK & G). rewrite T1, G1 in G. exists ((n, v) :: es). ands; auto.
        -- apply st_entry; auto.
        -- exact (moved_app [(n, v)] es o o1 o' M1 MV).
        -- constructor; [|exact TK]. exists x, o, o1. auto.
        -- destruct G as [[G H]|[G H]]; [left; auto|right]. split; [|exact H]. apply SKIP; auto.
      * destruct (IH _ _ _ E) as (es & ST & MV & TK & G). exists es. ands; auto.
        -- apply st_skip; auto.
        -- destruct G as [[G H]|[G H]]; [left; auto|right]. split; [|exact H]. apply SKIP; auto.
Qed.
