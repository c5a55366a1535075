(** Properties of the client's option --last. *)
From Verif Require Import Bytes M_accfile M_base64 M_util M_message M_codec M_replay M_client M_rc M_last S_text S_fw P_bytes P_util2 P_replay P_conf P_fw.
From Coq Require Import Init.Byte List ZArith Bool Lia.
Import ListNotations.
Open Scope Z_scope.

Definition room (argv : list bytes) : Z := fold_right (fun a n => zlen a + 1 + n) 0 argv.
Lemma room_nonneg argv : 0 <= room argv.
Proof. induction argv as [|a r IH]; cbn [room fold_right]; [lia|]. fold (room r). pose proof (zlen_nonneg a). lia. Qed.
Definition spaced (argv : list bytes) : bytes := concat (map (fun a => a ++ [" "%byte]) argv).
Lemma spaced_len argv : zlen (spaced argv) = room argv.
Proof. induction argv as [|a r IH]; [reflexivity|]. unfold spaced. cbn [map concat room fold_right]. rewrite !zlen_app. fold (spaced r) (room r). rewrite IH. reflexivity. Qed.

Lemma cat_line_fits s a : zlen s + zlen a <= 1023 -> cat_line s a = s ++ a.
Proof. intros L. unfold cat_line. f_equal. apply ztake_all. lia. Qed.
Lemma cat_line_full s a : zlen s = 1023 -> cat_line s a = s.
Proof. intros L. unfold cat_line. rewrite L. cbn. apply app_nil_r. Qed.

Lemma save_loop_spec argv : forall len s, zlen s + room argv <= 1024 -> 0 <= len <= zlen s -> len + room argv < 1025 -> zlen s <= 1023 ->
  exists s', save_loop argv len s = Some s' /\ (s' = s ++ spaced argv /\ zlen s' <= 1023 \/ s' ++ [" "%byte] = s ++ spaced argv /\ zlen s' = 1023).
Proof.
  induction argv as [|a r IH]; intros len s L B C M; cbn [save_loop].
  - exists s. split; [reflexivity|]. left. now rewrite app_nil_r.
  - cbn [room fold_right] in L, C. fold (room r) in L, C. pose proof (zlen_nonneg a). pose proof (room_nonneg r).
    destruct (Z.geb_spec (len + zlen a) 1024); [lia|].
    rewrite (cat_line_fits s a) by lia. unfold spaced. cbn [map concat]. fold (spaced r).
    destruct (Z.eq_dec (zlen (s ++ a)) 1023) as [Q|Q].
    + rewrite cat_line_full by exact Q. rewrite zlen_app in Q.
      destruct r as [|b t]; [|cbn [room fold_right] in L; fold (room t) in L; pose proof (zlen_nonneg b); pose proof (room_nonneg t); lia].
      cbn [save_loop]. exists (s ++ a). split; [reflexivity|]. right. rewrite zlen_app. cbn [spaced map concat]. rewrite app_nil_r, !app_assoc. auto.
    + rewrite zlen_app in Q. rewrite (cat_line_fits (s ++ a)) by (rewrite zlen_app; change (zlen [" "%byte]) with 1; lia).
      destruct (IH (len + zlen a) ((s ++ a) ++ [" "%byte])) as (s' & E & D); rewrite ?zlen_app; change (zlen [" "%byte]) with 1; try lia.
      exists s'. split; [exact E|]. rewrite <- !app_assoc in D. rewrite <- !app_assoc. exact D.
Qed.

Lemma words_spaced argv tail : Forall word argv -> Forall blank tail -> words (spaced argv ++ tail) argv.
Proof.
  intros F T. assert (G : forall sp, Forall blank sp -> words (sp ++ spaced argv ++ tail) argv).
  { induction F as [|w ws [N B] F IH]; intros sp S.
    - cbn. constructor. now apply Forall_app.
    - assert (B' : Forall (fun c => ~ blank c) w) by (eapply Forall_impl; [|exact B]; intros c [Hc _]; exact Hc).
      unfold spaced. cbn [map concat]. fold (spaced ws). rewrite <- !app_assoc.
      constructor; auto; [right; apply blank_space|]. apply IH. constructor; auto using blank_space. }
  apply (G []). constructor.
Qed.
Lemma spaced_join argv : argv <> [] -> spaced argv = join [" "%byte] argv ++ [" "%byte].
Proof.
  induction argv as [|a [|b r] IH]; intros N; [contradiction|cbn; now rewrite app_nil_r|].
  unfold spaced in *. cbn [map concat] in *. rewrite IH by discriminate.
  change (join [" "%byte] (a :: b :: r)) with (a ++ [" "%byte] ++ join [" "%byte] (b :: r)). now rewrite <- !app_assoc.
Qed.
Lemma word_clean argv : Forall word argv -> ~ In x0a (spaced argv) /\ no_nul (spaced argv).
Proof.
  intros F. assert (A : Forall (fun c => c <> x0a /\ c <> x00) (spaced argv)).
  { induction F as [|w ws [N B] F IH]; [constructor|]. unfold spaced. cbn [map concat]. fold (spaced ws). rewrite !Forall_app. repeat split; auto.
    - eapply Forall_impl; [|exact B]. intros c [Hc H0]. split; [|exact H0]. intros ->. apply Hc. right. vm_compute. split; discriminate.
    - repeat constructor; discriminate. }
  rewrite Forall_forall in A. split; intros I; apply A in I; destruct I; congruence.
Qed.
Lemma room_in a argv : In a argv -> zlen a < room argv.
Proof.
  induction argv as [|x r IH]; [intros []|]. cbn [room fold_right]. fold (room r). pose proof (zlen_nonneg x). pose proof (room_nonneg r).
  intros [->|I]; [lia|]. apply IH in I. lia.
Qed.

Lemma saved_words argv : argv <> [] -> Forall word argv -> zlen argv <= 28 -> room argv <= 1024 ->
  exists s, save_args argv = (s, true) /\ last_args (Some s) = Ok (Some argv).
Proof.
  intros NE F L R. destruct (word_clean argv F) as [NL N0].
  assert (Z0 : Forall (fun w => zlen w < 1024) argv). { apply Forall_forall. intros w I. apply room_in in I. lia. }
  assert (W : forall t, words t argv -> no_nul t -> t <> [] -> forall s, fst (fgets (Z.to_nat 1023) s) = t -> last_args (Some s) = Ok (Some argv)).
  { intros t Wt T0 TN s E. unfold last_args, last_line. destruct s as [|c s]; [exfalso; apply TN; rewrite <- E; reflexivity|]. rewrite E, cstr_id by exact T0.
    rewrite (strtoargv_words t argv Wt Z0). destruct (Z.ltb_spec (zlen argv) 29); [reflexivity|lia]. }
  destruct (save_loop_spec argv 0 []) as (s' & E & D); try (change (zlen (@nil byte)) with 0; lia).
  cbn [app] in D. unfold save_args. rewrite E.
  eexists. split; [reflexivity|].
  assert (NS : spaced argv <> []). { destruct argv as [|b t]; [contradiction|]. unfold spaced. cbn [map concat]. destruct b; discriminate. }
  destruct D as [[-> S3]| [D L']].
  - rewrite <- spaced_len in R. destruct (Z.le_gt_cases (zlen (spaced argv)) 1022) as [S|S].
    + rewrite cat_line_fits by (change (zlen [x0a]) with 1; lia). apply (W (spaced argv ++ [x0a])).
      * apply words_spaced; auto. constructor; [right; vm_compute; split; discriminate|constructor].
      * intros I. apply in_app_or in I as [I|[I|[]]]; [now apply N0|discriminate].
      * destruct (spaced argv); discriminate.
      * rewrite fgets_line; [reflexivity| |unfold zlen in S; lia]. apply Forall_forall. intros x I ->. now apply NL.
    + assert (Q : spaced argv = join [" "%byte] argv ++ [" "%byte]) by now apply spaced_join.
      destruct (Z.eq_dec (zlen (spaced argv)) 1023) as [S'|S'].
      * rewrite cat_line_full by exact S'. apply (W (spaced argv)); auto.
        -- rewrite <- (app_nil_r (spaced argv)). apply words_spaced; auto.
        -- rewrite fgets_all; [reflexivity|exact NL|unfold zlen in S'; lia].
      * lia.
  - assert (Q : spaced argv = join [" "%byte] argv ++ [" "%byte]) by now apply spaced_join.
    rewrite Q in D. apply app_inj_tail in D as [-> _]. rewrite cat_line_full by exact L'. apply (W (join [" "%byte] argv)).
    + now apply words_join.
    + intros I. apply N0. rewrite Q. apply in_or_app. now left.
    + intros J. rewrite J in L'. discriminate.
    + rewrite fgets_all; [reflexivity| |unfold zlen in L'; lia]. intros I. apply NL. rewrite Q. apply in_or_app. now left.
Qed.

(** ** C76 The last command *)
(** The run keeps the file [p]: it is refused, uses another file, or is told not to save. *)
Definition keeps (home : option bytes) (p : bytes) (rc : option bytes) (args : list arg) : Prop :=
  forall o m, config_init rc args = Ok (Some (o, m)) -> args_path home o <> Some p \/ num o q_run_last <> 0 \/ num o q_show_last <> 0 \/ num o q_no_save <> 0.
Lemma keeps_file getopt home p rc argv fs : keeps home p rc (getopt argv) -> snd (start getopt home rc argv fs) p = fs p.
Proof.
  intros K. unfold start. destruct (config_init rc (getopt argv)) as [[[o m]|]|] eqn:E; try reflexivity. specialize (K o m E).
  destruct (args_path home o) as [q|] eqn:A; [|reflexivity]. unfold is_set.
  destruct (Z.eqb_spec (num o q_run_last) 0); [|reflexivity]. destruct (Z.eqb_spec (num o q_show_last) 0); [|reflexivity]. destruct (Z.eqb_spec (num o q_no_save) 0); [|reflexivity].
  cbn [negb]. destruct (save_args argv) as [s b]. cbn [snd]. unfold put. destruct (bseq p q) eqn:Q; [|reflexivity].
  apply bseq_eq in Q. subst. destruct K as [K|[K|[K|K]]]; contradiction.
Qed.
Lemma runs_keep getopt home p l : (forall r, In r l -> keeps home p (fst r) (getopt (snd r))) -> forall fs, runs getopt home l fs p = fs p.
Proof.
  induction l as [|r l IH]; intros K fs; [reflexivity|]. unfold runs. cbn [fold_left]. fold (runs getopt home l (snd (start getopt home (fst r) (snd r) fs))).
  rewrite IH by (intros x I; apply K; now right). apply keeps_file. apply K. now left.
Qed.

(** A run is accepted and saved; no later one saves anything in the same file; then --last is
    given.  The client goes on with the options of the arguments of that run, and no file changes.
    Missing for the full property: arguments that are empty or contain a blank, more than 28 of
    them or 1023 characters, see below. *)
Theorem C76_last_partial : forall getopt home fs before rc argv o m p after rc' last o' m',
  config_init rc (getopt argv) = Ok (Some (o, m)) -> args_path home o = Some p -> num o q_run_last = 0 -> num o q_show_last = 0 -> num o q_no_save = 0 ->
  argv <> [] -> Forall word argv -> zlen argv <= 28 -> zlen (join [" "%byte] argv) <= 1023 ->
  (forall r, In r after -> keeps home p (fst r) (getopt (snd r))) ->
  config_init rc' (getopt last) = Ok (Some (o', m')) -> args_path home o' = Some p -> num o' q_run_last <> 0 ->
  let fs' := runs getopt home (before ++ (rc, argv) :: after) fs in
  start getopt home rc' last fs' = (config_init rc' (getopt argv), fs').
Proof.
  intros getopt home fs before rc argv o m p after rc' last o' m' E A R0 S0 N0 NE F L J K E' A' R'. cbn zeta.
  assert (RM : room argv <= 1024). { rewrite <- spaced_len, spaced_join by exact NE. rewrite zlen_app. change (zlen [" "%byte]) with 1. lia. }
  destruct (saved_words argv NE F L RM) as (s & SV & LA).
  set (fs' := runs getopt home (before ++ (rc, argv) :: after) fs).
  assert (P : fs' p = Some s).
  { unfold fs', runs. rewrite fold_left_app. cbn [fold_left fst snd]. fold (runs getopt home before fs).
    match goal with |- fold_left _ after ?x p = _ => fold (runs getopt home after x); rewrite (runs_keep getopt home p after K x) end.
    unfold start. rewrite E, A. unfold is_set. rewrite R0, S0, N0. cbn [Z.eqb negb]. rewrite SV. cbn [snd]. unfold put. now rewrite (proj2 (bseq_eq p p) eq_refl). }
  unfold start. rewrite E', A'. unfold is_set. destruct (Z.eqb_spec (num o' q_run_last) 0); [contradiction|]. cbn [negb]. rewrite P, LA. reflexivity.
Qed.
Print Assumptions C76_last_partial.

(** A small getopt for the examples *)
Definition opts0 (argv : list bytes) : list arg :=
  let fix go l := match l with
    | c :: v :: r => if bseq c ($ "-D") then (O_D, v) :: go r else if bseq c ($ "-A") then (O_A, v) :: go r else if bseq c ($ "-a") then (O_a, v) :: go r
                     else if bseq c ($ "-C") then (O_C, v) :: go r else (O_unknown, []) :: go r
    | [c] => [(if bseq c ($ "--last") then O_l else if bseq c ($ "--show-last") then O_show_last else O_unknown, [])]
    | [] => []
    end in go (tl argv).
Definition cmd0 : list bytes := [$ "fwknop"; $ "-D"; $ "10.2.2.2"; $ "-A"; $ "tcp/22"; $ "-a"; $ "10.1.1.4"].
Lemma accepted (rc : option bytes) (args : list arg) (P : copts -> bool) : match config_init rc args with Ok (Some (o, _)) => P o | _ => false end = true ->
  exists o m, config_init rc args = Ok (Some (o, m)) /\ P o = true.
Proof. destruct (config_init rc args) as [[[o m]|]|]; try discriminate. intros E. exists o, m. auto. Qed.
Lemma wordsb argv : forallb (fun a => given a && forallb (fun c => negb (isspace c) && negb (beq c x00)) a) argv = true -> Forall word argv.
Proof.
  intros E. apply Forall_forall. intros a I. rewrite forallb_forall in E. apply E in I. apply andb_true_iff in I as [G I]. split; [destruct a; discriminate|].
  apply Forall_forall. intros c J. rewrite forallb_forall in I. apply I in J. apply andb_true_iff in J as [J1 J2]. apply negb_true_iff in J1, J2. split.
  - intros B. apply isspace_blank in B. congruence.
  - now apply beq_neq.
Qed.
(** The last command is repeated after other runs. *)
Example C76_ex : exists o m, let hist := [(None, [$ "fwknop"; $ "-D"; $ "h"; $ "-a"; $ "1.1.1.1"]); (None, cmd0); (None, [$ "fwknop"; $ "--show-last"]); (None, [$ "fwknop"; $ "-x"])] in
  let fs' := runs opts0 (Some ($ "run")) hist (fun _ => None) in
  start opts0 (Some ($ "run")) None [$ "fwknop"; $ "--last"] fs' = (Ok (Some (o, m)), fs') /\ txt o t_server = $ "10.2.2.2" /\ txt o t_access = $ "tcp/22".
Proof.
  destruct (accepted None (opts0 cmd0) (fun o => negb (given (txt o t_args_file)) && (num o q_no_home =? 0) && (num o q_run_last =? 0) && (num o q_show_last =? 0) && (num o q_no_save =? 0) &&
    bseq (txt o t_server) ($ "10.2.2.2") && bseq (txt o t_access) ($ "tcp/22"))) as (o & m & E & Q); [vm_compute; reflexivity|].
  destruct (accepted None (opts0 [$ "fwknop"; $ "--last"]) (fun o => negb (given (txt o t_args_file)) && (num o q_no_home =? 0) && (num o q_run_last =? 1))) as (o' & m' & E' & Q'); [vm_compute; reflexivity|].
  rewrite ?andb_true_iff, ?negb_true_iff, ?Z.eqb_eq, ?bseq_eq in Q. rewrite ?andb_true_iff, ?negb_true_iff, ?Z.eqb_eq in Q'. destruct Q as ((((((Q1 & Q2) & Q3) & Q4) & Q5) & Q6) & Q7). destruct Q' as ((Q1' & Q2') & Q3').
  exists o, m. cbn zeta. split; [|split; assumption]. rewrite <- E.
  apply (C76_last_partial opts0 (Some ($ "run")) (fun _ => None) [(None, [$ "fwknop"; $ "-D"; $ "h"; $ "-a"; $ "1.1.1.1"])] None cmd0 o m ($ "run")
    [(None, [$ "fwknop"; $ "--show-last"]); (None, [$ "fwknop"; $ "-x"])] None [$ "fwknop"; $ "--last"] o' m'); auto.
  - unfold args_path, is_set. rewrite Q1, Q2. reflexivity.
  - discriminate.
  - apply wordsb. vm_compute. reflexivity.
  - vm_compute. discriminate.
  - vm_compute. discriminate.
  - intros r [<-|[<-|[]]] x y; cbn [fst snd].
    + intros C. right. right. left. destruct (accepted None (opts0 [$ "fwknop"; $ "--show-last"]) (fun o => num o q_show_last =? 1)) as (a & b & C1 & C2); [vm_compute; reflexivity|].
      rewrite C in C1. injection C1 as -> ->. apply Z.eqb_eq in C2. lia.
    + intros C. exfalso. vm_compute in C. discriminate.
  - unfold args_path, is_set. rewrite Q1', Q2'. reflexivity.
  - lia.
Qed.

(** An argument with a blank is two arguments for --last: a command for the server is cut, and the
    rest is taken as an option of the client. *)
Theorem C76_blank_refuted : forall s, save_args [$ "fwknop"; $ "-C"; $ "ls -l"] = (s, true) -> last_args (Some s) = Ok (Some [$ "fwknop"; $ "-C"; $ "ls"; $ "-l"]).
Proof. intros s E. vm_compute in E. injection E as <-. vm_compute. reflexivity. Qed.
Print Assumptions C76_blank_refuted.
(** An empty argument is gone, so that the option before it takes the next one. *)
Theorem C76_empty_refuted : forall s, save_args [$ "fwknop"; $ "-U"; []; $ "-a"; $ "10.1.1.4"] = (s, true) -> last_args (Some s) = Ok (Some [$ "fwknop"; $ "-U"; $ "-a"; $ "10.1.1.4"]).
Proof. intros s E. vm_compute in E. injection E as <-. vm_compute. reflexivity. Qed.
Print Assumptions C76_empty_refuted.
(** The blanks are not counted: a line of more than 1023 characters is cut without a word. *)
Theorem C76_cut_refuted : exists argv a b s, argv = [$ "fwknop"; $ "-D"; a] /\ save_args argv = (s, true) /\ last_args (Some s) = Ok (Some [$ "fwknop"; $ "-D"; b]) /\ a = b ++ $ "a".
Proof. exists [$ "fwknop"; $ "-D"; repeat "a"%byte 1014], (repeat "a"%byte 1014), (repeat "a"%byte 1013). eexists. split; [reflexivity|]. split; [vm_compute; reflexivity|]. split; vm_compute; reflexivity. Qed.
Print Assumptions C76_cut_refuted.
(** With more than 28 arguments, which are accepted and saved, --last fails. *)
Theorem C76_many_refuted : exists s, save_args ($ "fwknop" :: repeat ($ "-v") 28) = (s, true) /\ last_args (Some s) = Ok None.
Proof. eexists. split; vm_compute; reflexivity. Qed.
Print Assumptions C76_many_refuted.
(** A run with too long arguments is refused, after the last command has been erased: --last then
    takes no options at all. *)
Theorem C76_long_refuted : forall argv, 1024 <= zlen (concat argv) -> save_args argv = ([], false) /\ last_args (Some (fst (save_args argv))) = Ok (Some []).
Proof.
  intros argv L. assert (E : save_args argv = ([], false)).
  { unfold save_args. replace (save_loop argv 0 []) with (@None bytes); [reflexivity|]. symmetry.
    assert (G : forall l n s, n < 1024 -> 1024 <= n + zlen (concat l) -> save_loop l n s = None).
    { induction l as [|a r IH]; intros n s B C; cbn [concat save_loop] in *; [rewrite zlen_nil in C; lia|]. rewrite zlen_app in C.
      destruct (Z.geb_spec (n + zlen a) 1024); [reflexivity|]. apply IH; lia. }
    apply G; lia. }
  rewrite E. auto.
Qed.
Print Assumptions C76_long_refuted.
