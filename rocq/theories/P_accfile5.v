(** Proofs about the reading of access.conf: included files. *)
From Verif Require Import Bytes M_base64 M_util M_message M_codec M_access M_replay M_cycle M_incoming M_conf M_accfile
  S_text S_base64 S_conf S_accfile P_bytes P_base64 P_util P_util2 P_access P_replay P_conf P_accfile P_accfile2 P_accfile3 P_accfile4.
From Coq Require Import Init.Byte List ZArith Bool Lia.
Import ListNotations.
Open Scope Z_scope.

Local Ltac ands := repeat match goal with |- _ /\ _ => split end.

(** ** Texts *)
Lemma occurs_trans a b c : occurs a b -> occurs b c -> occurs a c.
Proof. intros (x & z & ->) (u & v & ->). exists (u ++ x), (z ++ v). now rewrite !app_assoc. Qed.
Lemma lines_of_occurs fuel : forall s l, In l (lines_of fuel s) -> occurs l s.
Proof.
  induction fuel as [|k IH]; intros s l I; [contradiction|]. destruct s as [|c s]; [contradiction|]. cbn [lines_of] in I.
  destruct (fgets (Z.to_nat (MAX_LINE_LEN - 1)) (c :: s)) as [line t] eqn:F. apply fgets_split in F. destruct I as [<-|I].
  - destruct (cstr_prefix line) as (u & E & _). exists [], (u ++ t). cbn. rewrite F, app_assoc. now rewrite <- E.
  - destruct (IH _ _ I) as (a & b & ->). exists (line ++ a), b. rewrite F. now rewrite app_assoc.
Qed.
Lemma skip_space_suffix s : exists a, s = a ++ skip_space s.
Proof.
  induction s as [|c s [a IH]]; [exists []; reflexivity|]. cbn. destruct (isspace c); [|exists []; reflexivity].
  exists (c :: a). cbn. now rewrite <- IH.
Qed.
Lemma scan_line_occurs l var val : scan_line l = Some (var, val) -> occurs var l.
Proof.
  unfold scan_line. destruct (span _ (skip_space l)) as [v r] eqn:S. destruct v as [|c v]; [discriminate|].
  destruct (span value_char (skip_space r)) as [w q]. destruct w; [discriminate|]. intros E; inversion E; subst.
  apply span_split in S. destruct S as (E1 & _). destruct (skip_space_suffix l) as [a EA]. exists a, r. congruence.
Qed.
Lemma cut_colon_prefix s : exists t, s = cut_colon s ++ t.
Proof.
  induction s as [|c s [t IH]]; [exists []; reflexivity|]. cbn. destruct (_ && _); [exists (c :: s); reflexivity|].
  exists t. cbn. now rewrite <- IH.
Qed.
Lemma line_name y name text l var val : y_file y name = Some text -> In l (file_lines text) -> scan_line l = Some (var, val) ->
  forall p, never_written y p -> cut_colon var <> p.
Proof.
  intros YF I S p NW <-. apply (NW _ _ YF). eapply occurs_trans; [|eapply lines_of_occurs; exact I].
  eapply occurs_trans; [|eapply scan_line_occurs; exact S]. destruct (cut_colon_prefix var) as [t E]. exists [], t. exact E.
Qed.

(** ** Depth *)
Lemma validate_depth n lo s s' : validate n lo s = Some s' -> st_depth s' = st_depth s.
Proof. unfold validate. destruct (acc_data_is_valid _ _ _ _) as [[a f]|]; [|discriminate]. cbn. intros E; inversion E; reflexivity. Qed.

Lemma folder_depth rec folder names : (forall n s s', 1 <= st_depth s -> rec n s = Done s' -> st_depth s' = st_depth s) ->
  forall s s', 1 <= st_depth s -> folder_files rec folder names s = Done s' -> st_depth s' = st_depth s.
Proof.
  intros R. induction names as [|n names IH]; intros s s' D E; cbn [folder_files] in E; [inversion E; reflexivity|].
  destruct (extension n) as [e|]; [|apply IH; auto]. destruct (is_prefix _ e); [|apply IH; auto].
  destruct (_ <? _); [discriminate|]. destruct (rec _ s) as [s1| | | |] eqn:Q; try discriminate. cbn [rbind] in E.
  apply R in Q; auto. rewrite <- Q. apply IH; [rewrite Q; auto|exact E].
Qed.

Lemma entry_depth y rec : (forall n s s', 1 <= st_depth s -> rec n s = Done s' -> st_depth s' = st_depth s) ->
  forall var val lo s lo' s', 1 <= st_depth s -> access_entry y rec var val lo s = Done (lo', s') -> st_depth s' = st_depth s.
Proof.
  intros R var val lo s lo' s' D E. unfold access_entry in E.
  destruct (bseq var ($ "%include")).
  { destruct (st_depth s <? 3); [|discriminate]. destruct (rec val s) as [s1| | | |] eqn:Q; try discriminate. cbn [rbind] in E.
    inversion E; subst. eapply R; eauto. }
  destruct (bseq var ($ "%include_folder")).
  { unfold parse_folder in E. cbv zeta in E. destruct (y_dir y _) as [names|]; [|discriminate].
    destruct (folder_files rec _ names s) as [s1| | | |] eqn:Q; try discriminate. cbn [rbind] in E.
    inversion E; subst. eapply folder_depth; eauto. }
  destruct (bseq var ($ "SOURCE")).
  { destruct (lo_curr lo) as [n|].
    - destruct (validate n lo s) as [s1|] eqn:V; [|discriminate]. inversion E; subst. cbn. eapply validate_depth; eauto.
    - inversion E; subst. reflexivity. }
  destruct (lo_curr lo) as [n|]; [|inversion E; subst; reflexivity].
  destruct (bseq var ($ "%include_keys")).
  { destruct (include_keys_file y val _) as [w| | | |]; try discriminate. cbn [rbind] in E. cbn [put_work] in E.
    match type of E with match validate n ?l ?t with _ => _ end = _ => destruct (validate n l t) as [s1|] eqn:V end.
    - inversion E; subst. apply validate_depth in V. exact V.
    - inversion E; subst. reflexivity. }
  destruct (set_param params y var val _) as [w| | | |]; try discriminate. cbn in E. inversion E; subst. reflexivity.
Qed.
Lemma line_depth y rec : (forall n s s', 1 <= st_depth s -> rec n s = Done s' -> st_depth s' = st_depth s) ->
  forall l lo s lo' s', 1 <= st_depth s -> access_line y rec l lo s = Done (lo', s') -> st_depth s' = st_depth s.
Proof.
  intros R l lo s lo' s' D E. unfold access_line in E. destruct (is_empty_line _); [inversion E; reflexivity|].
  destruct (scan_line l) as [[var val]|]; [|discriminate]. eapply entry_depth; eauto.
Qed.
Lemma lines_depth y rec : (forall n s s', 1 <= st_depth s -> rec n s = Done s' -> st_depth s' = st_depth s) ->
  forall ls lo s lo' s', 1 <= st_depth s -> access_lines y rec ls lo s = Done (lo', s') -> st_depth s' = st_depth s.
Proof.
  intros R. induction ls as [|l ls IH]; intros lo s lo' s' D E; cbn [access_lines] in E; [inversion E; reflexivity|].
  destruct (access_line y rec l lo s) as [[lo1 s1]| | | |] eqn:Q; try discriminate. cbn [rbind] in E.
  apply line_depth in Q; auto. rewrite <- Q. eapply IH; [rewrite Q; auto|exact E].
Qed.
Lemma file_depth y fuel : forall name s s', 0 <= st_depth s -> parse_access_file fuel y name s = Done s' -> st_depth s' = st_depth s.
Proof.
  induction fuel as [|fuel IH]; intros name s s' D E; [discriminate|]. cbn [parse_access_file] in E. cbv zeta in E.
  destruct (y_file y name) as [text|]; [|discriminate].
  destruct (access_lines _ _ _ _ _) as [[lo1 s1]| | | |] eqn:Q; try discriminate. cbn [rbind] in E.
  apply lines_depth in Q; [|intros; eapply IH; eauto; lia|cbn; lia]. cbn [put_depth st_depth] in Q.
  unfold finish in E. rewrite Q in E. replace (0 <? st_depth s + 1) with true in E by lia. cbv iota zeta in E.
  replace (st_depth s + 1 - 1) with (st_depth s) in E by lia.
  match type of E with match ?m with _ => _ end = _ => destruct m as [s2|] eqn:V; [|discriminate] end.
  assert (D2 : st_depth s2 = st_depth s).
  { destruct (lo_curr lo1); [apply validate_depth in V; exact V|inversion V; reflexivity]. }
  destruct (st_depth s2 =? 0); [|inversion E; subst; auto].
  destruct (lo_curr lo1) as [n|].
  - destruct (M_accfile.expand_all _) as [l1|]; [|discriminate]. destruct (defaults_all y l1); [|discriminate]. inversion E; subst. exact D2.
  - destruct (st_accs s2); [discriminate|]. destruct (M_accfile.expand_all _) as [l1|]; [|discriminate]. destruct (defaults_all y l1); [|discriminate]. inversion E; subst. exact D2.
Qed.

(** ** Stanzas with included files *)
Definition keeps (s s' : state) : Prop := exists new, st_accs s' = st_accs s ++ new /\ Forall sealed new.
Lemma keeps_refl s : keeps s s.
Proof. exists []. rewrite app_nil_r. auto. Qed.
Lemma keeps_trans a b c : keeps a b -> keeps b c -> keeps a c.
Proof. intros (x & E1 & F1) (z & E2 & F2). exists (x ++ z). rewrite E2, E1, app_assoc. split; [reflexivity|]. apply Forall_app; auto. Qed.

Definition busy (a0 : list acc) (lo : local) (s : state) : Prop :=
  match lo_curr lo with
  | None => exists new, st_accs s = a0 ++ new /\ Forall sealed new
  | Some n => exists new1 a new2, st_accs s = (a0 ++ new1) ++ a :: new2 /\ n = length (a0 ++ new1) /\ inv a /\
                Forall sealed new1 /\ Forall sealed new2
  end.
Lemma busy_keeps a0 lo s s' : busy a0 lo s -> keeps s s' -> busy a0 lo s'.
Proof.
  unfold busy. destruct (lo_curr lo) as [n|].
  - intros (n1 & a & n2 & E & L & I & F1 & F2) (new & EN & FN). exists n1, a, (n2 ++ new). rewrite EN, E. ands; auto.
    + rewrite <- !app_assoc. reflexivity.
    + apply Forall_app; auto.
  - intros (n1 & E & F) (new & EN & FN). exists (n1 ++ new). rewrite EN, E, app_assoc. split; [reflexivity|]. apply Forall_app; auto.
Qed.
Definition good (rec : bytes -> state -> res state) : Prop :=
  forall n s s', 1 <= st_depth s -> rec n s = Done s' -> keeps s s' /\ st_depth s' = st_depth s.

Lemma folder_keeps rec folder names : good rec -> forall s s', 1 <= st_depth s -> folder_files rec folder names s = Done s' -> keeps s s'.
Proof.
  intros R. induction names as [|n names IH]; intros s s' D E; cbn [folder_files] in E; [inversion E; apply keeps_refl|].
  destruct (extension n) as [e|]; [|apply IH; auto]. destruct (is_prefix _ e); [|apply IH; auto].
  destruct (_ <? _); [discriminate|]. destruct (rec _ s) as [s1| | | |] eqn:Q; try discriminate. cbn [rbind] in E.
  destruct (R _ _ _ D Q) as [K1 D1]. eapply keeps_trans; [exact K1|]. apply IH; [rewrite D1; auto|exact E].
Qed.

Lemma finish_curr a0 n u sd s s' : busy a0 (mkLocal (Some n) u sd) s -> validate n (mkLocal (Some n) u sd) s = Some s' ->
  exists new, st_accs s' = a0 ++ new /\ Forall sealed new.
Proof.
  intros (n1 & a & n2 & E & L & I & F1 & F2) V. destruct s as [accs fw d pw]. cbn [st_accs] in E. subst accs.
  rewrite validate_mid in V by exact L. destruct (acc_data_is_valid pw u sd a) as [[a' f]|] eqn:A; [|discriminate].
  inversion V; subst s'. cbn. exists (n1 ++ a' :: n2). split; [now rewrite <- app_assoc|].
  apply Forall_app. split; auto. constructor; auto. exists a, pw, u, sd, f. auto.
Qed.

Lemma entry_busy y rec a0 : good rec -> forall var val lo s lo' s', 1 <= st_depth s -> var <> $ "%include_keys" ->
  busy a0 lo s -> access_entry y rec var val lo s = Done (lo', s') -> busy a0 lo' s'.
Proof.
  intros R var val lo s lo' s' D NK B E. unfold access_entry in E.
  destruct (bseq var ($ "%include")).
  { destruct (st_depth s <? 3); [|discriminate]. destruct (rec val s) as [s1| | | |] eqn:Q; try discriminate. cbn [rbind] in E.
    inversion E; subst. destruct (R _ _ _ D Q) as [K1 _]. eapply busy_keeps; eauto. }
  destruct (bseq var ($ "%include_folder")).
  { unfold parse_folder in E. cbv zeta in E. destruct (y_dir y _) as [names|]; [|discriminate].
    destruct (folder_files rec _ names s) as [s1| | | |] eqn:Q; try discriminate. cbn [rbind] in E.
    inversion E; subst. eapply busy_keeps; [exact B|]. eapply folder_keeps; eauto. }
  destruct (bseq var ($ "SOURCE")).
  { assert (X : exists s1 new, (match lo_curr lo with Some n => validate n lo s | None => Some s end) = Some s1 /\ st_accs s1 = a0 ++ new /\ Forall sealed new).
    { destruct lo as [[n|] u sd]; cbn [lo_curr] in *.
      - destruct (validate n _ s) as [s1|] eqn:V; [|discriminate]. destruct (finish_curr _ _ _ _ _ _ B V) as (new & ? & ?). exists s1, new. auto.
      - destruct B as (new & ? & ?). exists s, new. auto. }
    destruct X as (s1 & new & X & EA & F). rewrite X in E. inversion E; subst. unfold busy. cbn [lo_curr put_accs st_accs].
    exists new, (set_s s_source (Some val) new_acc), []. rewrite EA. ands; auto using Forall_nil. apply inv_new. }
  destruct lo as [[n|] u sd]; cbn [lo_curr] in *; [|inversion E; subst; exact B].
  destruct (bseq var ($ "%include_keys")) eqn:K; [apply bseq_eq in K; congruence|].
  destruct B as (n1 & a & n2 & EQ & L & I & F1 & F2). destruct s as [accs fw d pw]. cbn [st_accs] in EQ. subst accs n.
  unfold work_of, get_acc in E. cbn [st_accs st_pw lo_user lo_sudo] in E. rewrite nth_mid in E.
  destruct (set_param params y var val _) as [w| | | |] eqn:Q; try discriminate. cbn [rbind] in E. unfold put_work in E.
  cbn [st_accs st_fw st_depth] in E. rewrite replace_mid in E. inversion E; subst. unfold busy. cbn [lo_curr st_accs].
  exists n1, (w_acc w), n2. ands; auto. eapply set_param_inv; eauto.
Qed.

Lemma lines_busy y rec a0 : good rec -> forall ls lo s lo' s', 1 <= st_depth s ->
  (forall l var val, In l ls -> scan_line l = Some (var, val) -> cut_colon var <> $ "%include_keys") ->
  busy a0 lo s -> access_lines y rec ls lo s = Done (lo', s') -> busy a0 lo' s'.
Proof.
  intros R. induction ls as [|l ls IH]; intros lo s lo' s' D NK B E; cbn [access_lines] in E; [inversion E; subst; auto|].
  destruct (access_line y rec l lo s) as [[lo1 s1]| | | |] eqn:Q; try discriminate. cbn [rbind] in E.
  assert (D1 : st_depth s1 = st_depth s). { eapply line_depth; [|exact D|exact Q]. intros n t t' DT QT. apply (R n t t' DT QT). }
  eapply (IH lo1 s1); [lia|intros; eapply NK; [right|]; eauto| |exact E].
  unfold access_line in Q. destruct (is_empty_line _); [inversion Q; subst; auto|].
  destruct (scan_line l) as [[var val]|] eqn:S; [|discriminate].
  eapply (entry_busy y rec a0 R (cut_colon var)); [exact D| |exact B|exact Q]. eapply NK; [left; reflexivity|exact S].
Qed.

Lemma file_good y fuel : never_written y ($ "%include_keys") -> good (parse_access_file fuel y).
Proof.
  intros NW. induction fuel as [|fuel IH]; intros name s s' D E; [discriminate|].
  split; [|eapply file_depth; [|exact E]; lia]. cbn [parse_access_file] in E. cbv zeta in E.
  destruct (y_file y name) as [text|] eqn:YF; [|discriminate].
  destruct (access_lines _ _ _ _ _) as [[lo1 s1]| | | |] eqn:Q; try discriminate. cbn [rbind] in E.
  assert (D1 : st_depth s1 = st_depth s + 1).
  { eapply lines_depth in Q; [exact Q|intros n t t' DT QT; apply (IH n t t' DT QT)|cbn; lia]. }
  assert (B : busy (st_accs s) lo1 s1).
  { eapply lines_busy; [exact IH| | | |exact Q]; [cbn; lia| |].
    - intros l var val I S. eapply line_name; eauto.
    - exists []. rewrite app_nil_r. cbn. auto. }
  unfold finish in E. rewrite D1 in E. replace (0 <? st_depth s + 1) with true in E by lia. cbv iota zeta in E.
  replace (st_depth s + 1 - 1) with (st_depth s) in E by lia.
  match type of E with match ?m with _ => _ end = _ => destruct m as [s2|] eqn:V; [|discriminate] end.
  assert (X : exists new, st_accs s2 = st_accs s ++ new /\ Forall sealed new).
  { destruct lo1 as [[n|] u sd]; cbn [lo_curr] in *.
    - eapply finish_curr; [|exact V]. exact B.
    - inversion V; subst. exact B. }
  assert (D2 : st_depth s2 = st_depth s).
  { destruct (lo_curr lo1); [apply validate_depth in V; exact V|inversion V; reflexivity]. }
  rewrite D2 in E. replace (st_depth s =? 0) with false in E by lia. inversion E; subst. exact X.
Qed.

(** A file read at the top: all stanzas are expanded and completed. *)
Lemma root_file y fuel name s s' : never_written y ($ "%include_keys") -> st_depth s = 0 -> parse_access_file fuel y name s = Done s' ->
  exists new l1, Forall sealed new /\ M_accfile.expand_all (st_accs s ++ new) = Some l1 /\ defaults_all y l1 = Some (st_accs s') /\ st_depth s' = 0.
Proof.
  intros NW D E. destruct fuel as [|fuel]; [discriminate|]. cbn [parse_access_file] in E. cbv zeta in E. rewrite D in E. change (0 + 1) with 1 in E.
  destruct (y_file y name) as [text|] eqn:YF; [|discriminate].
  destruct (access_lines _ _ _ _ _) as [[lo1 s1]| | | |] eqn:Q; try discriminate. cbn [rbind] in E.
  pose proof (file_good y fuel NW) as G.
  assert (D1 : st_depth s1 = 1).
  { eapply lines_depth in Q; [exact Q|intros n t t' DT QT; apply (G n t t' DT QT)|cbn; lia]. }
  assert (B : busy (st_accs s) lo1 s1).
  { eapply lines_busy; [exact G| | | |exact Q]; [cbn; lia| |].
    - intros l var val I S. eapply line_name; eauto.
    - exists []. rewrite app_nil_r. cbn. auto. }
  destruct (finish_root _ _ _ _ D1 E) as (s2 & l1 & V & EX & DE & _ & D3 & D2).
  assert (X : exists new, st_accs s2 = st_accs s ++ new /\ Forall sealed new).
  { destruct lo1 as [[n|] u sd]; cbn [lo_curr] in *.
    - eapply finish_curr; [|exact V]. exact B.
    - inversion V; subst. exact B. }
  destruct X as (new & EA & F). exists new, l1. rewrite <- EA. ands; auto. congruence.
Qed.

Lemma sealed_final y new l1 l2 : Forall sealed new -> Forall2 (fun a b => expand_acc a = Some b) new l1 ->
  Forall2 (fun a b => acc_defaults y a = Some b) l1 l2 -> Forall (fun a => complete a /\ lists_say a) l2.
Proof.
  intros F. revert l1 l2. induction F as [|a new S F IH]; intros l1 l2 E D; inversion E; subst; inversion D; subst; constructor; eauto.
  split; [eapply sealed_complete; eauto|eapply sealed_lists; eauto].
Qed.

Lemma file_complete y fuel name l fw : never_written y ($ "%include_keys") -> load_access fuel y name None = Done (l, fw) ->
  Forall (fun a => complete a /\ lists_say a) l.
Proof.
  intros NW LD. destruct (load_file _ _ _ _ _ LD) as (s & P & EA & EF & VA). subst l.
  destruct (root_file y fuel name start s NW eq_refl P) as (new & l1 & F & EX & DE & _).
  apply expand_all_F in EX. apply defaults_all_F in DE. eapply sealed_final; eauto.
Qed.

(** ** ACCESS_FOLDER: expanded and completed again and again *)
Lemma complete_again y a b c : complete a -> expand_acc a = Some b -> acc_defaults y b = Some c -> complete c.
Proof.
  intros (C1 & C2 & C3 & C4 & C5 & C6 & C7 & C8 & C9) E D. destruct (expand_spec _ _ E) as [XS XI].
  destruct (defaults_spec _ _ _ D) as ([DS DI] & _ & D1 & D2 & D3 & D4 & D5 & D6). rewrite XS, XI in *.
  assert (CS : forall f, f <> s_gpg_home_dir -> strs c f = strs a f).
  { intros f N. apply DS. cbn. intuition congruence. }
  assert (CI : forall f, ~ In f default_i -> ints c f = ints a f) by auto.
  assert (M : ints c i_mode = ints a i_mode) by (rewrite D3; destruct (Z.eqb_spec (ints a i_mode) 0); congruence).
  unfold complete, enc_key. rewrite !CS by discriminate. rewrite M.
  rewrite (CI i_use_rijndael), (CI i_use_gpg), (CI i_allow_no_pw), (CI i_snat), (CI i_masquerade), (CI i_nat), (CI i_timer), (CI i_do_close), (CI i_disable_sig)
    by (cbn; intuition congruence).
  split; [exact C1|]. split; [exact C2|]. split; [exact C3|]. split; [exact C4|]. split; [exact C5|].
  split; [rewrite D1; destruct (_ <? 1); lia|]. split; [rewrite D2; destruct (ints a i_max_timeout <? 1); lia|]. split; [exact C8|].
  intros P Q. destruct (C9 P Q) as [R1 R2]. split; [|exact R2]. rewrite D5, R1. rewrite andb_false_r. reflexivity.
Qed.

Lemma folder_root y fuel folder names : never_written y ($ "%include_keys") -> forall s s', st_depth s = 0 -> Forall complete (st_accs s) ->
  folder_files (parse_access_file fuel y) folder names s = Done s' -> Forall complete (st_accs s').
Proof.
  intros NW. induction names as [|n names IH]; intros s s' D F E; cbn [folder_files] in E; [inversion E; subst; auto|].
  destruct (extension n) as [e|]; [|eapply IH; eauto]. destruct (is_prefix _ e); [|eapply IH; eauto].
  destruct (_ <? _); [discriminate|]. destruct (parse_access_file fuel y _ s) as [s1| | | |] eqn:Q; try discriminate. cbn [rbind] in E.
  destruct (root_file y fuel _ s s1 NW D Q) as (new & l1 & FN & EX & DE & D1).
  eapply IH; [exact D1| |exact E]. apply expand_all_F in EX. apply defaults_all_F in DE.
  clear - F FN EX DE. revert l1 EX DE. generalize (st_accs s1) as l2. induction F as [|a l C F IHF]; intros l2 l1 EX DE.
  - cbn [app] in EX. pose proof (sealed_final _ _ _ _ FN EX DE) as H. eapply Forall_impl; [|exact H]. intros a [? _]; auto.
  - cbn [app] in EX. inversion EX; subst. inversion DE; subst. constructor; [eapply complete_again; eauto|eauto].
Qed.

Lemma load_complete y fuel file folder l fw : never_written y ($ "%include_keys") -> load_access fuel y file folder = Done (l, fw) -> Forall complete l.
Proof.
  intros NW. destruct folder as [f|].
  - unfold load_access. destruct (parse_access_folder fuel y f start) as [s| | | |] eqn:P; try discriminate. cbn [rbind].
    destruct (valid_access_stanzas _); [|discriminate]. intros E; inversion E; subst.
    unfold parse_access_folder, parse_folder in P. cbv zeta in P. destruct (y_dir y _) as [names|]; [|discriminate].
    eapply folder_root; [exact NW| | |exact P]; [reflexivity|constructor].
  - intros LD. pose proof (file_complete _ _ _ _ _ NW LD) as H. eapply Forall_impl; [|exact H]. intros a [? _]; auto.
Qed.

(** ** The reading ends *)
Ltac ends := cbv beta delta [a_str a_bool a_key a_key_base64 a_hmac_type a_hmac_key_base64 a_hmac_key a_number a_mode a_user a_group a_cycle_open
    a_gpg_home a_gpg_pw a_allow_no_pw a_expire a_expire_epoch a_force_nat a_force_snat a_masquerade on_acc]; cbv zeta;
  repeat match goal with |- (match ?x with _ => _ end) <> Endless => destruct x end; discriminate.
Lemma set_param_ends y n v w : set_param params y n v w <> Endless.
Proof.
  unfold set_param. destruct (find_param params n) as [a|] eqn:F; [|discriminate].
  apply find_param_In in F. unfold params in F. cbn [In] in F.
  repeat (destruct F as [F|F]; [injection F; clear F; intros <- _; ends|]). contradiction.
Qed.
Lemma set_key_ends y n v w : set_param key_params y n v w <> Endless.
Proof.
  unfold set_param. destruct (find_param key_params n) as [a|] eqn:F; [|discriminate].
  apply find_param_In in F. unfold key_params in F. cbn [In] in F.
  repeat (destruct F as [F|F]; [injection F; clear F; intros <- _; ends|]). contradiction.
Qed.
Lemma key_lines_ends y ls : forall w, key_lines y ls w <> Endless.
Proof.
  induction ls as [|l ls IH]; intros w; cbn [key_lines]; [discriminate|]. destruct (is_empty_line _); [auto|].
  destruct (scan_line l) as [[var val]|]; [|discriminate].
  pose proof (set_key_ends y (cut_colon var) val w). destruct (set_param key_params y _ val w); auto; discriminate.
Qed.

Lemma entry_ends y rec d : (forall n s, st_depth s = d -> d < 3 -> rec n s <> Endless) -> forall var val lo s, st_depth s = d ->
  var <> $ "%include_folder" -> access_entry y rec var val lo s <> Endless.
Proof.
  intros R var val lo s D NF. unfold access_entry.
  destruct (bseq var ($ "%include")).
  { destruct (st_depth s <? 3) eqn:L; [|discriminate]. specialize (R val s D ltac:(lia)). destruct (rec val s); try discriminate. congruence. }
  destruct (bseq var ($ "%include_folder")) eqn:Q; [apply bseq_eq in Q; congruence|].
  destruct (bseq var ($ "SOURCE")).
  { destruct (lo_curr lo) as [n|]; [destruct (validate n lo s)|]; discriminate. }
  destruct (lo_curr lo) as [n|]; [|discriminate]. destruct (bseq var ($ "%include_keys")).
  { unfold include_keys_file. destruct (y_file y val) as [t|]; cbn [rbind put_work].
    - pose proof (key_lines_ends y (file_lines t) (work_of n lo s)). destruct (key_lines y _ _); try discriminate; [|congruence].
      cbn [rbind put_work]. destruct (validate n _ _); discriminate.
    - destruct (validate n _ _); discriminate. }
  pose proof (set_param_ends y var val (work_of n lo s)). destruct (set_param params y var val _); try discriminate. congruence.
Qed.
Lemma lines_ends y rec d : 1 <= d -> (forall n s, st_depth s = d -> d < 3 -> rec n s <> Endless) ->
  (forall n s s', 1 <= st_depth s -> rec n s = Done s' -> st_depth s' = st_depth s) ->
  forall ls lo s, st_depth s = d -> (forall l var val, In l ls -> scan_line l = Some (var, val) -> cut_colon var <> $ "%include_folder") ->
  access_lines y rec ls lo s <> Endless.
Proof.
  intros LD R RD. induction ls as [|l ls IH]; intros lo s D N; cbn [access_lines]; [discriminate|].
  assert (X : access_line y rec l lo s <> Endless).
  { unfold access_line. destruct (is_empty_line _); [discriminate|]. destruct (scan_line l) as [[var val]|] eqn:S; [|discriminate].
    apply (entry_ends y rec d); auto. eapply N; [left; reflexivity|exact S]. }
  destruct (access_line y rec l lo s) as [[lo1 s1]| | | |] eqn:Q; try discriminate; [|congruence]. cbn [rbind].
  apply IH; [|intros; eapply N; [right|]; eauto]. rewrite (line_depth y rec RD l lo s lo1 s1 ltac:(lia) Q). exact D.
Qed.
Lemma finish_ends y lo s : finish y lo s <> Endless.
Proof.
  unfold finish. cbv zeta. match goal with |- match ?m with _ => _ end <> _ => destruct m as [s2|]; [|discriminate] end.
  destruct (st_depth s2 =? 0); [|discriminate].
  destruct (lo_curr lo) as [n|].
  - destruct (M_accfile.expand_all _) as [l1|]; [|discriminate]. destruct (defaults_all y l1); discriminate.
  - destruct (st_accs s2); [discriminate|]. destruct (M_accfile.expand_all _) as [l1|]; [|discriminate]. destruct (defaults_all y l1); discriminate.
Qed.
Lemma file_ends y fuel : never_written y ($ "%include_folder") -> forall name s, 0 <= st_depth s -> 3 <= st_depth s + Z.of_nat fuel ->
  (fuel <> 0)%nat -> parse_access_file fuel y name s <> Endless.
Proof.
  intros NW. induction fuel as [|fuel IH]; intros name s D L NZ; [congruence|]. cbn [parse_access_file]. cbv zeta.
  destruct (y_file y name) as [text|] eqn:YF; [|discriminate].
  assert (X : access_lines y (parse_access_file fuel y) (file_lines text) (mkLocal None false false) (put_depth (st_depth s + 1) s) <> Endless).
  { apply (lines_ends y _ (st_depth s + 1)).
    - lia.
    - intros n t DT LT. apply IH; lia.
    - intros n t t' DT QT. eapply file_depth; [|exact QT]. lia.
    - reflexivity.
    - intros l var val I S. eapply line_name; eauto. }
  destruct (access_lines _ _ _ _ _) as [[lo1 s1]| | | |]; try discriminate; [|congruence]. cbn [rbind]. apply finish_ends.
Qed.

Lemma load_ends y fuel file folder : never_written y ($ "%include_folder") -> (3 <= fuel)%nat -> load_access fuel y file folder <> Endless.
Proof.
  intros NW L. unfold load_access.
  assert (X : (match folder with Some f => parse_access_folder fuel y f start | None => parse_access_file fuel y file start end) <> Endless).
  { destruct folder as [f|]; [|apply file_ends; auto; cbn; lia].
    unfold parse_access_folder, parse_folder. cbv zeta. destruct (y_dir y _) as [names|]; [|discriminate].
    assert (H : forall s, st_depth s = 0 -> folder_files (parse_access_file fuel y) (chop_slash f) names s <> Endless); [|apply H; reflexivity].
    induction names as [|n names IH]; intros s D; cbn [folder_files]; [discriminate|].
    destruct (extension n) as [e|]; [|auto]. destruct (is_prefix _ e); [|auto]. destruct (_ <? _); [discriminate|].
    assert (Y : parse_access_file fuel y (chop_slash f ++ $ "/" ++ n) s <> Endless) by (apply file_ends; auto; lia).
    destruct (parse_access_file fuel y _ s) as [s1| | | |] eqn:P; try discriminate; [|congruence]. cbn [rbind]. apply IH.
    apply file_depth in P; lia. }
  destruct (match folder with Some f => _ | None => _ end) as [s| | | |]; try discriminate; [|congruence]. cbn [rbind].
  destruct (valid_access_stanzas _); discriminate.
Qed.
