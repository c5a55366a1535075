(** Proofs about the pf back end: requests and checks. *)
From Verif Require Import Bytes M_util M_message M_codec M_access M_cycle M_incoming M_packet M_fw M_extcmd M_pf
  S_text S_access S_incoming S_fw S_pf P_bytes P_util P_util2 P_access P_fw P_fw2 P_fw3 P_fw5 P_fw6 P_fw7 P_fw8 P_fw9 P_incoming3 P_incoming5 P_pf.
From Coq Require Import Init.Byte List ZArith Bool Lia.
Import ListNotations.
Open Scope Z_scope.

(** ** The port list *)
Lemma entries_expand s : forall cur l pl, expand_list ACCESS_BUF_LEN add_port_list_ent s cur l = Some pl -> entries_read s cur l = pl.
Proof.
  induction s as [|c s IH]; intros cur l pl E; cbn [expand_list entries_read] in *.
  - destruct (_ >=? _); [discriminate E|]. destruct (add_port_list_ent _); [injection E as <-; reflexivity|discriminate E].
  - destruct (beq c ","%byte); [|now apply IH]. destruct (_ >=? _); [discriminate E|]. destruct (add_port_list_ent _); [now apply IH|discriminate E].
Qed.
Lemma entries_requested s pl : requested s pl -> entries_read s [] [] = pl.
Proof. intros (items & L & F). apply entries_expand. eapply expand_port_list_ok; eauto. Qed.

(** ** The new rule *)
Lemma new_rule_asks src dst proto port e : word src -> zlen src <= 15 -> word dst -> zlen dst <= 15 ->
  0 <= proto <= 255 -> 0 <= port <= 65535 -> ten_digits e ->
  exists y, new_rule proto src dst port e = y ++ [x0a] /\ asks src dst proto port e y /\ zlen (y ++ [x0a]) <= 139 /\ ~ In x0a y /\ ~ In x00 y.
Proof.
  intros W1 L1 W2 L2 P Q (E1 & E2).
  assert (NP : numeral proto (dec proto)) by (apply dec_num; lia). assert (NQ : numeral port (dec port)) by (apply dec_num; lia).
  assert (NE : numeral e (dec e)) by (apply dec_num; lia).
  assert (ZP : zlen (dec proto) <= 5) by (apply dec_len5; lia). assert (ZQ : zlen (dec port) <= 5) by (apply dec_len5; lia).
  assert (ZE : zlen (dec e) <= 10) by (apply dec_len10; lia).
  set (y := $ "pass in quick proto " ++ dec proto ++ $ " from " ++ src ++ $ " to " ++ dst ++ $ " port " ++ dec port ++ $ " keep state label " ++ mark ++ dec e).
  assert (ZY : zlen y <= 112).
  { unfold y. rewrite !zlen_app. change (zlen ($ "pass in quick proto ")) with 20. change (zlen ($ " from ")) with 6. change (zlen ($ " to ")) with 4.
    change (zlen ($ " port ")) with 6. change (zlen ($ " keep state label ")) with 18. change (zlen mark) with 5. lia. }
  exists y. split; [|split; [|split]].
  - unfold new_rule, snprintf. rewrite !u32_small by lia.
    transitivity (ztake (MAX_PF_NEW_RULE_LEN - 1 - 1) (y ++ [x0a])).
    { f_equal. unfold y. rewrite <- !app_assoc. reflexivity. }
    apply ztake_all. rewrite zlen_app. change (zlen [x0a]) with 1. unfold MAX_PF_NEW_RULE_LEN. lia.
  - exists (dec proto), (dec port), (dec e). repeat split; auto; try apply NP; try apply NQ; try apply NE.
  - rewrite zlen_app. change (zlen [x0a]) with 1. lia.
  - assert (WD : forall c, c = x0a \/ c = x00 -> ~ In c y).
    { assert (ND : forall n s, numeral n s -> forall c, c = x0a \/ c = x00 -> ~ In c s).
      { intros n s (_ & A & _) c C. apply digits_no_star; [exact A|]. unfold digit. destruct C as [->| ->]; vm_compute; intuition. }
      assert (NW : forall s, word s -> forall c, c = x0a \/ c = x00 -> ~ In c s).
      { intros s (_ & F) c C I. rewrite Forall_forall in F. destruct (F _ I) as (B & Z0). destruct C as [->| ->]; [|now apply Z0].
        apply B. right. vm_compute. split; discriminate. }
      intros c C. unfold y. rewrite !in_app_iff.
      assert (LIT : forall t, memb x0a t = false -> memb x00 t = false -> ~ In c t).
      { intros t M1 M2 I. apply memb_In in I. destruct C as [->| ->]; congruence. }
      intros [I|[I|[I|[I|[I|[I|[I|[I|[I|[I|I]]]]]]]]]]; revert I;
        first [apply LIT; reflexivity | apply (ND proto); assumption | apply (ND port); assumption | apply (ND e); assumption | apply NW; assumption]. }
    split; apply WD; auto.
Qed.

Lemma put_same ac a v : put_anchor ac a v a = v.
Proof. unfold put_anchor. now rewrite bseq_refl. Qed.
Lemma put_else ac a v : elsewhere a ac (put_anchor ac a v).
Proof. intros b N. unfold put_anchor. destruct (bseq b a) eqn:E; [|reflexivity]. apply bseq_eq in E. easy. Qed.
Lemma else_refl a ac : elsewhere a ac ac. Proof. intros b _. reflexivity. Qed.
Lemma else_trans a x y z : elsewhere a x y -> elsewhere a y z -> elsewhere a x z.
Proof. intros H1 H2 b N. rewrite (H2 b N). auto. Qed.

Lemma drops_size (P : bytes -> Prop) l l' : only_drops P l l' -> zlen (lines l') <= zlen (lines l).
Proof.
  induction 1 as [|x l l' _ D IH|x l l' D IH]; [reflexivity| |]; rewrite ?lines_cons, ?zlen_app, ?zlen_cons.
  - pose proof (zlen_nonneg x). lia.
  - lia.
Qed.
Lemma drops_trans_any {A} (P : A -> Prop) a b c : only_drops P a b -> only_drops P b c -> only_drops P a c.
Proof. apply drops_trans. Qed.
Lemma drops_to_nil {A} (l : list A) : only_drops (fun _ => True) l [].
Proof. induction l; constructor; auto. Qed.
Lemma drops_tail {A} (P : A -> Prop) l l' m : only_drops P l l' -> only_drops P (l ++ m) (l' ++ m).
Proof. induction 1; cbn [app]; [apply drops_none|now apply drops_drop|now apply drops_keep]. Qed.

Section Pf.
Variable K : pf.
Variable cf : pfconf.
Hypothesis CF : conf_fits cf.
Notation run := (run_pfctl K).
Notation feed := (feed_pfctl K).
Notation A := (p_anchor cf).

Lemma argv_fits ws : Forall word ws -> zlen ws < 29 -> zlen (join [" "%byte] ws) <= 254 -> strtoargv (fmt (join [" "%byte] ws)) = Ok (Some ws).
Proof. intros F N L. rewrite fmt_id by auto. apply argv_join; auto. lia. Qed.
Lemma three o p q : word o -> word p -> word q -> zlen o + zlen p + zlen q <= 40 ->
  strtoargv (fmt (p_cmd cf ++ $ " " ++ (o ++ $ " ") ++ A ++ $ " " ++ p ++ $ " " ++ q)) = Ok (Some [p_cmd cf; o; A; p; q]).
Proof.
  intros WO WP WQ L. destruct CF as (W1 & W2 & LC).
  replace (p_cmd cf ++ $ " " ++ (o ++ $ " ") ++ A ++ $ " " ++ p ++ $ " " ++ q) with (join [" "%byte] [p_cmd cf; o; A; p; q])
    by (cbn [join]; rewrite <- !app_assoc; reflexivity).
  apply argv_fits; [repeat (constructor; auto)|reflexivity|].
  cbn [join]. rewrite !zlen_app. change (zlen [" "%byte]) with 1. lia.
Qed.
Lemma list_argv : strtoargv (list_cmd cf) = Ok (Some [p_cmd cf; $ "-a"; A; $ "-s"; $ "rules"]).
Proof. apply (three ($ "-a") ($ "-s") ($ "rules")); [lit|lit|lit|vm_compute; discriminate]. Qed.
Lemma write_argv : strtoargv (write_cmd cf) = Ok (Some [p_cmd cf; $ "-a"; A; $ "-f"; $ "-"]).
Proof. apply (three ($ "-a") ($ "-f") ($ "-")); [lit|lit|lit|vm_compute; discriminate]. Qed.
Lemma flush_argv : strtoargv (flush_cmd cf) = Ok (Some [p_cmd cf; $ "-a"; A; $ "-F"; $ "all"]).
Proof. apply (three ($ "-a") ($ "-F") ($ "all")); [lit|lit|lit|vm_compute; discriminate]. Qed.
Lemma anchors_argv : strtoargv (anchors_cmd cf) = Ok (Some [p_cmd cf; $ "-s"; $ "Anchor"]).
Proof.
  destruct CF as (W1 & W2 & LC). unfold anchors_cmd.
  replace (p_cmd cf ++ $ " " ++ $ "-s Anchor") with (join [" "%byte] [p_cmd cf; $ "-s"; $ "Anchor"]) by reflexivity.
  apply argv_fits; [constructor; [exact W1|]; constructor; [lit|]; constructor; [lit|constructor]|reflexivity|].
  cbn [join]. rewrite !zlen_app. change (zlen [" "%byte]) with 1. change (zlen ($ "-s")) with 2. change (zlen ($ "Anchor")) with 6. pose proof (zlen_nonneg A). lia.
Qed.

(** ** The three commands *)
Lemma list_run ac fs : noise K = [] -> Forall (fun x => ~ In x00 x) (ac A) -> zlen (lines (ac A)) <= 4095 ->
  exists ok out, run_extcmd machine run (ac, fs) (list_cmd cf) STANDARD_CMD_OUT_BUFSIZE = Ok (ok, out, (ac, tl fs)) /\
    (ok = true /\ out = lines (ac A) \/ out = [] \/ ok = false /\ out = lines (ac A)) /\ (hd Runs fs = Runs -> ok = true /\ out = lines (ac A)).
Proof.
  intros NO NN L. unfold run_extcmd. rewrite list_argv. cbn [bind]. unfold run_pfctl. cbn [pfctl]. 
  change (bseq ($ "-a") ($ "-a")) with true. change (bseq ($ "-s") ($ "-s") && bseq ($ "rules") ($ "rules")) with true. cbn iota beta.
  rewrite NO. cbn [app].
  assert (R : truncate_partial_line (read_output STANDARD_CMD_OUT_BUFSIZE (lines (ac A)) [] []) = lines (ac A)).
  { rewrite read_all; [apply truncated_lines|apply lines_no_nul; exact NN|exact L|reflexivity]. }
  assert (R0 : truncate_partial_line (read_output STANDARD_CMD_OUT_BUFSIZE [] [] []) = []) by reflexivity.
  destruct (hd Runs fs); rewrite ?R, ?R0; do 2 eexists; (split; [reflexivity|]); split; auto; try discriminate.
Qed.
Lemma write_run ac fs text rs : all_shown K (lines_of text []) = Some rs ->
  exists ok ac', run_extcmd_write machine feed (ac, fs) (write_cmd cf) text = Ok (ok, (ac', tl fs)) /\
    (ac' = ac \/ ac' = put_anchor ac A rs) /\ (hd Runs fs = Runs -> ok = true /\ ac' = put_anchor ac A rs) /\
    (ok = false -> ac' = ac).
Proof.
  intro E. unfold run_extcmd_write. rewrite write_argv. cbn [bind]. unfold feed_pfctl, pfctl_load.
  change (bseq ($ "-a") ($ "-a") && bseq ($ "-f") ($ "-f") && bseq ($ "-") ($ "-")) with true. cbn iota. rewrite E.
  destruct (hd Runs fs); do 2 eexists; (split; [reflexivity|]); repeat split; auto; try discriminate.
Qed.
Lemma flush_run ac fs : exists ac', delete_all_anchor_rules machine run cf (ac, fs) = Ok (ac', tl fs) /\
    (ac' = ac \/ ac' = put_anchor ac A []) /\ (hd Runs fs = Runs -> ac' = put_anchor ac A []).
Proof.
  unfold delete_all_anchor_rules, run_extcmd. rewrite flush_argv. cbn [bind]. unfold run_pfctl. cbn [pfctl].
  change (bseq ($ "-a") ($ "-a")) with true. change (bseq ($ "-F") ($ "-s") && bseq ($ "all") ($ "rules")) with false.
  change (bseq ($ "-F") ($ "-F") && bseq ($ "all") ($ "all")) with true. cbn iota beta.
  destruct (hd Runs fs); eexists; (split; [reflexivity|]); repeat split; auto; try discriminate.
Qed.

(** ** Requests *)
Section Ask.
Hypothesis KO : pf_ok K.
Variables (src dst : bytes) (e now : Z).
Hypothesis SRC : address_text src.
Hypothesis DST : dst = $ "any" \/ address_text dst.
Hypothesis TEN : ten_digits e.

Lemma dst_fits : word dst /\ zlen dst <= 15.
Proof.
  destruct DST as [->|D]; [split; [lit|vm_compute; discriminate]|]. split; [now apply address_word|]. destruct D as (D & _). lia.
Qed.
Lemma new_rule_shown proto port : 0 <= proto <= 255 -> 0 <= port <= 65535 -> exists y x,
  new_rule proto src dst port e = y ++ [x0a] /\ shown K y = Some x /\ ~ In x0a y /\ zlen (y ++ [x0a]) <= 139 /\
  grants K src dst e (proto, port) x /\ held K x /\ until x e.
Proof.
  intros P Q. destruct KO as (_ & RB & AC). destruct dst_fits as (W2 & L2).
  destruct (new_rule_asks src dst proto port e) as (y & E & AS & L & N1 & N2); auto.
  { now apply address_word. } { destruct SRC as (D & _). lia. }
  destruct (AC src dst proto port e y) as (x & SX & OX & UX); auto.
  exists y, x. split; [exact E|]. split; [exact SX|]. split; [exact N1|]. split; [exact L|]. split; [exists y; split; [exact AS|exact SX]|].
  split; [split; [exact OX|apply (RB y x SX)]|exact UX].
Qed.
(** Each request has one rule *)
Lemma grants_fun pp x x' : grants K src dst e pp x -> grants K src dst e pp x' -> x = x'.
Proof.
  intros (y & (p & q & n & NP & NQ & NE & ->) & S1) (y' & (p' & q' & n' & NP' & NQ' & NE' & ->) & S2).
  rewrite (writes_unique _ _ _ NP NP'), (writes_unique _ _ _ NQ NQ'), (writes_unique _ _ _ NE NE') in S1. congruence.
Qed.

Lemma held_lines rs : Forall (held K) rs -> Forall (fun x => ~ In x00 x) rs /\ Forall (fun x => ~ In x0a x) rs /\ all_shown K rs = Some rs.
Proof.
  intro F. split; [|split].
  - eapply Forall_impl; [|exact F]. intros x ((_ & _ & _ & N) & _). exact N.
  - eapply Forall_impl; [|exact F]. intros x ((_ & _ & N & _) & _). exact N.
  - apply all_shown_held. eapply Forall_impl; [|exact F]. intros x (_ & N). exact N.
Qed.
Lemma load_more rs y x : Forall (held K) rs -> ~ In x0a y -> shown K y = Some x ->
  all_shown K (lines_of (lines rs ++ y ++ [x0a]) []) = Some (rs ++ [x]).
Proof.
  intros F N E. destruct (held_lines rs F) as (_ & NL & SH).
  replace (lines rs ++ y ++ [x0a]) with (lines (rs ++ [y])) by (now rewrite lines_app, lines_one).
  rewrite lines_of_lines by (apply Forall_app; split; [exact NL|constructor; [exact N|constructor]]).
  apply all_shown_app; [exact SH|]. cbn [all_shown]. now rewrite E.
Qed.

Lemma add_all pl : forall xs k ac rs, ac A = rs ->
  Forall (held K) rs -> Forall (fun pp : Z * Z => 0 <= fst pp <= 255 /\ 0 <= snd pp <= 65535) pl ->
  Forall2 (grants K src dst e) pl xs -> zlen (lines (rs ++ xs)) <= 3956 ->
  exists k' ac', add_rules machine run feed cf src dst e now pl k (ac, []) = Ok (0, k', (ac', [])) /\
    ac' A = rs ++ xs /\ elsewhere A ac ac' /\ Forall (held K) (rs ++ xs) /\
    (agree rs k -> Forall (fun x => forall f, until x f -> now <= f) rs -> now <= e -> 0 < now -> agree (rs ++ xs) k').
Proof.
  induction pl as [|(proto, port) pl IH]; intros xs k ac rs EA H PP G L.
  - inversion G; subst xs. rewrite app_nil_r. exists k, ac. split; [reflexivity|]. split; [exact EA|]. split; [apply else_refl|]. split; [exact H|auto].
  - inversion G as [|? x ? xs' G1 G2]; subst. inversion PP as [|? ? (P & Q) PP']; subst. cbn [fst snd] in P, Q.
    destruct (new_rule_shown proto port P Q) as (y & x' & NR & SX & NY & LY & G1' & HX & UX).
    assert (x' = x) by (eapply grants_fun; eauto). subst x'.
    set (rs := ac A) in *. destruct (held_lines rs H) as (NN & NL & SH).
    assert (LR : zlen (lines rs) <= 3956). { rewrite lines_app, zlen_app in L. pose proof (zlen_nonneg (lines (x :: xs'))). lia. }
    cbn [add_rules].
    destruct (list_run ac [] (proj1 KO) NN ltac:(fold rs; lia)) as (ok & out & RE & _ & RR). destruct (RR eq_refl) as (-> & ->). rewrite RE. cbn [bind tl].
    fold rs. rewrite NR. 
    destruct (Z.ltb_spec (zlen (lines rs) + zlen (y ++ [x0a])) STANDARD_CMD_OUT_BUFSIZE) as [_|B]; [|unfold STANDARD_CMD_OUT_BUFSIZE in B; lia].
    destruct (write_run ac [] (lines rs ++ y ++ [x0a]) (rs ++ [x]) (load_more rs y x H NY SX)) as (ok & ac1 & WE & _ & WR & _).
    destruct (WR eq_refl) as (-> & ->).
    match goal with |- context[run_extcmd_write machine feed ?m ?c ?t] => replace (run_extcmd_write machine feed m c t) with (@Ok (bool * machine) (true, (put_anchor ac A (rs ++ [x]), @nil fate))) by (symmetry; exact WE) end.
    cbn [bind].
    set (k1 := mkCnt _ _).
    assert (AG1 : agree rs k -> Forall (fun x => forall f, until x f -> now <= f) rs -> now <= e -> 0 < now -> agree (rs ++ [x]) k1).
    { intros AG DUE NE NP. destruct AG as (AC & FE). pose proof (zlen_lines rs). split.
      - unfold k1. cbn [k_active]. rewrite AC, zlen_app. change (zlen [x]) with 1. apply Z.mod_small. pose proof (zlen_nonneg rs). lia.
      - unfold k1. cbn [k_next]. pose proof (first_end_app rs x e (k_next k) FE UX ltac:(destruct TEN; lia)) as FA.
        destruct FE as [(ER & E0)|((z & IZ & UZ) & M)].
        + rewrite E0 in *. change (negb (0 =? 0) && (0 <? e)) with false in FA. destruct (Z.ltb_spec 0 now); [cbn [orb]|lia]. exact FA.
        + rewrite Forall_forall in DUE. pose proof (DUE z IZ _ UZ) as DZ. pose proof (until_pos _ _ UZ).
          destruct (Z.ltb_spec (k_next k) now); [lia|]. cbn [orb].
          assert (B : k_next k =? 0 = false) by (apply Z.eqb_neq; lia). rewrite B in FA. cbn [negb andb] in FA.
          destruct (Z.ltb_spec e (k_next k)), (Z.ltb_spec (k_next k) e); try exact FA; try lia.
          assert (E1 : k_next k = e) by lia. rewrite E1. exact FA. }
    assert (H1 : Forall (held K) (rs ++ [x])) by (apply Forall_app; split; [exact H|constructor; [exact HX|constructor]]).
    destruct (IH xs' k1 (put_anchor ac A (rs ++ [x])) (rs ++ [x])) as (k' & ac' & E & EA' & EL & H' & AG'); auto.
    { apply put_same. } { now rewrite <- app_assoc. }
    rewrite <- app_assoc in *. exists k', ac'. split; [exact E|]. split; [exact EA'|]. split; [eapply else_trans; [apply put_else|exact EL]|]. split; [exact H'|].
    intros AG DUE NE NP. apply AG'; auto. apply Forall_app. split; [exact DUE|]. constructor; [|constructor]. intros f UF. rewrite <- (until_fun _ _ _ UX UF). exact NE.
Qed.
End Ask.
End Pf.
