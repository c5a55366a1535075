(** The start of the daemon: no undefined behaviour, what is accepted, and the files read. *)
From Verif Require Import Bytes S_text S_access S_conf S_incoming M_util M_access M_replay M_packet M_incoming M_conf M_fw M_accfile M_start S_fw S_fwinit S_accfile S_daemon S_start.
From Verif Require Import P_bytes P_util P_util2 P_access P_codec P_replay P_conf P_incoming2 P_incoming5 P_accfile5 P_start.
From Coq Require Import Init.Byte List ZArith Bool Lia.
Import ListNotations.
Open Scope Z_scope.

(** ** The values of the entries *)
Definition vals (cf : config) : Prop := forall n v, cf n = Some v -> v <> [] /\ (In n chain_settings -> zlen v <= 1023).
Lemma vals_set n v cf : vals cf -> v <> [] -> (In n chain_settings -> zlen v <= 1023) -> vals (set_entry n v cf).
Proof.
  intros V A B m w. rewrite set_entry_at. destruct (bseq m n) eqn:E; [|apply V]. apply bseq_eq in E. subst m. intros X. injection X as <-. auto.
Qed.
Lemma zlen_le_split {A} (a b : list A) : zlen a <= zlen (a ++ b).
Proof. rewrite zlen_app. pose proof (zlen_nonneg b). lia. Qed.
Lemma ztake_len {A} n (s : list A) : 0 <= n -> zlen (ztake n s) <= n.
Proof. intros L. unfold ztake, zlen. rewrite firstn_length. lia. Qed.
Lemma ztake_some {A} n (s : list A) : 0 < n -> s <> [] -> ztake n s <> [].
Proof. intros L N. unfold ztake. destruct s; [congruence|]. destruct (Z.to_nat n) eqn:E; [lia|]. discriminate. Qed.
Lemma span_split2 p s : forall a b, span p s = (a, b) -> s = a ++ b.
Proof.
  induction s as [|c s IH]; cbn [span]; intros a b E; [now injection E as <- <-|].
  destruct (p c); [|now injection E as <- <-]. destruct (span p s) as [x y] eqn:F. injection E as <- <-. cbn. now rewrite (IH _ _ eq_refl).
Qed.
Lemma scan_line_val l var val : scan_line l = Some (var, val) -> val <> [] /\ zlen val <= zlen l.
Proof.
  unfold scan_line. destruct (span _ (skip_space l)) as [v r] eqn:E. destruct v as [|c v]; [discriminate|].
  destruct (span value_char (skip_space r)) as [w q] eqn:F. destruct w as [|d w]; [discriminate|]. intros X. injection X as <- <-. split; [discriminate|].
  apply span_split2 in E, F. destruct (skip_space_suffix l) as [a EA]. destruct (skip_space_suffix r) as [a2 EB].
  rewrite EA, E, EB, F, !zlen_app. pose proof (zlen_nonneg a). pose proof (zlen_nonneg (c :: v)). pose proof (zlen_nonneg a2). pose proof (zlen_nonneg q). lia.
Qed.
Lemma chop_val v : v <> [] -> chop_whitespace v <> [] /\ zlen (chop_whitespace v) <= zlen v.
Proof.
  destruct v as [|c r]; [congruence|]. intros _. cbn [chop_whitespace]. destruct (rtrim_split r) as (t & E & _).
  destruct (rtrim r) as [|d u]; [split; [discriminate|lia]|]. split; [discriminate|]. rewrite !zlen_cons. rewrite E, zlen_app, zlen_cons. pose proof (zlen_nonneg t). lia.
Qed.
Lemma cstr_len s : zlen (cstr s) <= zlen s.
Proof. destruct (cstr_prefix s) as (u & E & _). rewrite E at 2. apply zlen_le_split. Qed.
Lemma fgets_len n : forall s line t, fgets n s = (line, t) -> zlen line <= Z.of_nat n.
Proof.
  induction n as [|n IH]; intros s line t; cbn [fgets]; [intros E; injection E as <- <-; reflexivity|].
  destruct s as [|c r]; [intros E; injection E as <- <-; rewrite zlen_nil; lia|].
  destruct (beq c x0a); [intros E; injection E as <- <-; rewrite zlen_cons, zlen_nil; lia|].
  destruct (fgets n r) as [l u] eqn:F. intros E; injection E as <- <-. rewrite zlen_cons. apply IH in F. lia.
Qed.

Lemma config_line_vals own line st st' : zlen line <= 1023 -> vals (cs_config st) -> config_line own line st = Ok st' -> vals (cs_config st').
Proof.
  intros L V. unfold config_line. cbv zeta. destruct (is_empty_line _). { intros E; now injection E as <-. }
  destruct (scan_line (cstr line)) as [[var val]|] eqn:SL; [|destruct (cs_freed st); [discriminate|intros E; now injection E as <-]].
  destruct (scan_line_val _ _ _ SL) as [NE LV]. destruct (chop_val val NE) as [NE2 LV2]. pose proof (cstr_len line) as LC.
  destruct (known var); [|destruct (cs_freed st); [discriminate|intros E; now injection E as <-]].
  destruct (chop_whitespace val) as [|c t] eqn:CH; [congruence|].
  destruct (beq c "$"%byte).
  - destruct (scan_variable t (cs_tmp1 st) (cs_tmp2 st)) as [[r n] w] eqn:SV. destruct (r =? 0).
    { intros E; injection E as <-. cbn [cs_config]. apply vals_set; [exact V|discriminate|intros _; lia]. }
    destruct (known n); [|destruct (cs_freed st); [discriminate|intros E; now injection E as <-]].
    destruct (cs_config st n) as [v|] eqn:EV; [|destruct (cs_freed st); [discriminate|intros E; now injection E as <-]].
    intros E; injection E as <-. cbn [cs_config]. apply vals_set; [exact V| |].
    + apply ztake_some; [reflexivity|]. intros EN. apply app_eq_nil in EN. destruct EN as [EN _]. revert EN.
      apply ztake_some; [reflexivity|]. exact (proj1 (V _ _ EV)).
    + intros _. apply ztake_len. discriminate.
  - intros E; injection E as <-. cbn [cs_config]. apply vals_set; [exact V|discriminate|intros _; lia].
Qed.
Lemma config_lines_vals own fuel : forall s st st', vals (cs_config st) -> config_lines fuel own s st = Ok st' -> vals (cs_config st').
Proof.
  induction fuel as [|k IH]; intros s st st' V; cbn [config_lines]; [intros E; now injection E as <-|].
  destruct s as [|c s]; [intros E; now injection E as <-|].
  destruct (fgets (Z.to_nat (MAX_LINE_LEN - 1)) (c :: s)) as [line t] eqn:F. apply fgets_len in F.
  destruct (config_line own line st) as [st1|] eqn:E1; [|discriminate]. apply IH. apply (config_line_vals _ _ _ _ F V E1).
Qed.
Lemma parse_vals own s cf cf' : vals cf -> parse_config_file own s cf = Ok cf' -> vals cf'.
Proof.
  unfold parse_config_file. intros V. destruct (config_lines _ own s _) as [st|] eqn:E; [|discriminate]. intros X; injection X as <-.
  exact (config_lines_vals _ _ _ (mkCs cf [] [] false) _ V E).
Qed.

(** ** The name of the configuration file is not freed *)
Lemma config_line_kept own line st : cs_freed st = false -> (own = true -> ~ occurs ($ "CONFIG_FILE") line) ->
  exists st', config_line own line st = Ok st' /\ cs_freed st' = false.
Proof.
  intros K N. unfold config_line. cbv zeta. rewrite K. destruct (is_empty_line _); [eauto|].
  destruct (scan_line (cstr line)) as [[var val]|] eqn:SL; [|eauto]. destruct (known var); [|eauto].
  assert (O : own && bseq var ($ "CONFIG_FILE") = false).
  { destruct own; [|reflexivity]. apply Bool.not_true_iff_false. intros E. apply bseq_eq in E. subst var. apply (N eq_refl).
    apply scan_line_occurs in SL. eapply occurs_trans; [exact SL|]. destruct (cstr_prefix line) as (u & E & _). exists [], u. exact E. }
  destruct (chop_whitespace val) as [|c t]. { eexists. split; [reflexivity|]. cbn [cs_freed]. rewrite ?K, O. reflexivity. }
  destruct (beq c "$"%byte); [|eexists; split; [reflexivity|]; cbn [cs_freed]; rewrite ?K, O; reflexivity].
  destruct (scan_variable t (cs_tmp1 st) (cs_tmp2 st)) as [[r n] w]. destruct (r =? 0).
  { eexists; split; [reflexivity|]. cbn [cs_freed]. rewrite O; reflexivity. }
  destruct (known n); [|eexists; split; reflexivity].
  destruct (cs_config st n); (eexists; split; [reflexivity|]); cbn [cs_freed]; try rewrite O; reflexivity.
Qed.
Lemma config_lines_kept own fuel : forall s st, cs_freed st = false -> (own = true -> ~ occurs ($ "CONFIG_FILE") s) ->
  config_lines fuel own s st <> Fault.
Proof.
  induction fuel as [|k IH]; intros s st K N; cbn [config_lines]; [discriminate|]. destruct s as [|c s]; [discriminate|].
  destruct (fgets (Z.to_nat (MAX_LINE_LEN - 1)) (c :: s)) as [line t] eqn:F. apply fgets_split in F.
  destruct (config_line_kept own line st K) as (st' & E & K').
  { intros O X. apply (N O). eapply occurs_trans; [exact X|]. exists [], t. now rewrite F. }
  rewrite E. apply IH; [exact K'|]. intros O X. apply (N O). eapply occurs_trans; [exact X|]. exists line, []. now rewrite app_nil_r.
Qed.
Lemma parse_safe own s cf : (own = true -> ~ occurs ($ "CONFIG_FILE") s) -> parse_config_file own s cf <> Fault.
Proof.
  intros N. unfold parse_config_file. destruct (config_lines _ own s _) as [st|] eqn:E; [discriminate|]. exfalso. revert E.
  apply config_lines_kept; [reflexivity|exact N].
Qed.

Lemma chain_settings_cases (P : bytes -> Prop) : P ($ "IPT_INPUT_ACCESS") -> P ($ "IPT_OUTPUT_ACCESS") -> P ($ "IPT_FORWARD_ACCESS") ->
  P ($ "IPT_DNAT_ACCESS") -> P ($ "IPT_SNAT_ACCESS") -> P ($ "IPT_MASQUERADE_ACCESS") -> forall n, In n chain_settings -> P n.
Proof. intros. unfold chain_settings in *. cbn [In] in *. intuition (subst; auto). Qed.
(** ** The options -c and -O *)
Lemma set_entry_other n v cf m : m <> n -> set_entry n v cf m = cf m.
Proof. intros N. rewrite set_entry_at. destruct (bseq m n) eqn:E; [apply bseq_eq in E; congruence|reflexivity]. Qed.
Lemma scan_opts_at l : forall o cf n, n <> $ "CONFIG_FILE" -> n <> $ "OVERRIDE_CONFIG" -> scan_opts l o cf n = cf n.
Proof.
  induction l as [|[f|f|m f|] l IH]; intros o cf n A B; cbn [scan_opts]; [reflexivity| | |apply IH; auto|apply IH; auto].
  - destruct o; rewrite IH, ?set_entry_other by auto; reflexivity.
  - rewrite IH, set_entry_other by auto. reflexivity.
Qed.
Definition file_set (l : list opt) (d : option bytes) : option bytes :=
  fold_left (fun d o => match o with Opt_c f => Some f | _ => d end) l d.
Lemma scan_opts_file l : forall o cf, scan_opts l o cf ($ "CONFIG_FILE") = file_set l (cf ($ "CONFIG_FILE")).
Proof.
  induction l as [|[f|f|m f|] l IH]; intros o cf; cbn [scan_opts file_set fold_left]; [reflexivity| | |apply IH|apply IH].
  - destruct o; rewrite IH; reflexivity.
  - rewrite IH. reflexivity.
Qed.
(** OVERRIDE_CONFIG as the options leave it *)
Fixpoint override_set (l : list opt) (o : bool) (d : option bytes) : option bytes :=
  match l with
  | [] => d
  | Opt_c f :: r => override_set r true (if o then d else Some f)
  | Opt_O f :: r => override_set r true (Some f)
  | _ :: r => override_set r o d
  end.
Lemma scan_opts_override l : forall o cf, scan_opts l o cf ($ "OVERRIDE_CONFIG") = override_set l o (cf ($ "OVERRIDE_CONFIG")).
Proof.
  induction l as [|[f|f|m f|] l IH]; intros o cf; cbn [scan_opts override_set]; [reflexivity| | |apply IH|apply IH]; [destruct o|]; rewrite IH; reflexivity.
Qed.
Lemma override_known l : forall d, override_set l true d = fold_left (fun d o => match o with Opt_O f => Some f | _ => d end) l d.
Proof. induction l as [|[f|f|m f|] l IH]; intros d; cbn [override_set fold_left]; try apply IH; reflexivity. Qed.
Lemma override_given l : (exists f, In (Opt_O f) l) \/ (forall f, ~ In (Opt_c f) l) -> override_set l false None = overrides l.
Proof.
  unfold overrides. intros H.
  assert (K : forall l d e, (exists f, In (Opt_O f) l) -> fold_left (fun d o => match o with Opt_O f => Some f | _ => d end) l d =
    fold_left (fun d o => match o with Opt_O f => Some f | _ => d end) l e).
  { clear. induction l as [|[f|f|m f|] l IH]; intros d e [g I]; cbn [fold_left]; [destruct I| |reflexivity| |];
      (destruct I as [I|I]; [discriminate I|]); apply IH; eauto. }
  revert H. induction l as [|[f|f|m f|] l IH]; intros H; cbn [override_set fold_left]; [reflexivity| | | |].
  - rewrite override_known. apply K. destruct H as [[g [I|I]]|N]; [discriminate|eauto|destruct (N f); now left].
  - apply override_known.
  - apply IH. destruct H as [[g [I|I]]|N]; [discriminate|eauto|right; intros g I; apply (N g); now right].
  - apply IH. destruct H as [[g [I|I]]|N]; [discriminate|eauto|right; intros g I; apply (N g); now right].
Qed.
Lemma scan_opts_vals l : forall o cf, Forall (fun x => opt_text x <> Some []) l -> vals cf -> vals (scan_opts l o cf).
Proof.
  assert (NC : forall f, In f [$ "CONFIG_FILE"; $ "OVERRIDE_CONFIG"] -> ~ In f chain_settings).
  { intros f [<-|[<-|[]]] I; vm_compute in I; repeat (destruct I as [I|I]; [discriminate I|]); exact I. }
  induction l as [|[f|f|m f|] l IH]; intros o cf F V; cbn [scan_opts]; [exact V| | | |]; inversion F as [|? ? F1 F2]; subst; cbn [opt_text] in F1.
  - assert (NE : f <> []) by congruence.
    assert (V1 : vals (set_entry ($ "CONFIG_FILE") f cf)) by (apply vals_set; auto; intros I; destruct (NC _ ltac:(now left) I)).
    destruct o; apply IH; auto. apply vals_set; auto. intros I; destruct (NC _ ltac:(right; now left) I).
  - assert (NE : f <> []) by congruence. apply IH; auto. apply vals_set; auto. intros I; destruct (NC _ ltac:(right; now left) I).
  - apply IH; auto.
  - apply IH; auto.
Qed.
Lemma last_opts_vals l : forall cf, Forall (fun x => opt_text x <> Some []) l -> vals cf ->
  last_opts l cf <> Wrong /\ forall cf', last_opts l cf = Goes cf' -> vals cf'.
Proof.
  induction l as [|[f|f|m f|] l IH]; intros cf F V; cbn [last_opts]; [split; [discriminate|]; intros cf' E; now injection E as <-| | | |split; discriminate];
    inversion F as [|? ? F1 F2]; subst; cbn [opt_text] in F1; [apply IH; auto|apply IH; auto|].
  apply IH; auto. destruct (existsb (bseq m) option_entries) eqn:E; [|exact V]. apply vals_set; [exact V|congruence|].
  intros I. exfalso. clear - I E. revert m I E. apply (chain_settings_cases (fun m => existsb (bseq m) option_entries = true -> False)); vm_compute; discriminate.
Qed.
Lemma last_opts_stored l : forall cf cf', last_opts l cf = Goes cf' ->
  (forall n, In n option_entries -> stored l n (cf n) (cf' n)) /\ (forall n, ~ In n option_entries -> cf' n = cf n).
Proof.
  induction l as [|[f|f|m f|] l IH]; intros cf cf' E; cbn [last_opts] in E.
  - injection E as <-. split; [|reflexivity]. intros n _. right. split; [intros w []|reflexivity].
  - destruct (IH _ _ E) as [A B]. split; [|exact B]. intros n I. destruct (A n I) as [(pre & v & post & -> & EV & N)|[N EV]].
    + left. exists (Opt_c f :: pre), v, post. auto.
    + right. split; [|exact EV]. intros w [J|J]; [discriminate|exact (N w J)].
  - destruct (IH _ _ E) as [A B]. split; [|exact B]. intros n I. destruct (A n I) as [(pre & v & post & -> & EV & N)|[N EV]].
    + left. exists (Opt_O f :: pre), v, post. auto.
    + right. split; [|exact EV]. intros w [J|J]; [discriminate|exact (N w J)].
  - destruct (IH _ _ E) as [A B]. assert (EX : existsb (bseq m) option_entries = true <-> In m option_entries).
    { rewrite existsb_exists. split; [intros (x & I & X); apply bseq_eq in X; now subst|]. intros I. exists m. split; [exact I|now apply bseq_eq]. }
    split.
    + intros n I. destruct (A n I) as [(pre & v & post & -> & EV & N)|[N EV]].
      * left. exists (Opt_set m f :: pre), v, post. auto.
      * destruct (bseq n m) eqn:EB.
        -- apply bseq_eq in EB. subst m. left. exists [], f, l. split; [reflexivity|]. split; [|exact N]. rewrite EV.
           rewrite (proj2 EX I). rewrite set_entry_at. now rewrite (proj2 (bseq_eq n n) eq_refl).
        -- right. split; [|].
           ++ intros w [J|J]; [injection J as -> ->|exact (N w J)]. rewrite (proj2 (bseq_eq n n) eq_refl) in EB. discriminate.
           ++ rewrite EV. destruct (existsb (bseq m) option_entries); [|reflexivity]. rewrite set_entry_at, EB. reflexivity.
    + intros n I. rewrite B by exact I. destruct (existsb (bseq m) option_entries) eqn:X; [|reflexivity]. apply set_entry_other. intros ->. apply I, EX. reflexivity.
  - discriminate.
Qed.
Lemma last_opts_goes l : ~ In Opt_bad l -> forall cf, exists cf', last_opts l cf = Goes cf'.
Proof.
  induction l as [|[f|f|m f|] l IH]; intros N cf; cbn [last_opts]; [eauto| | | |destruct N; now left]; apply IH; intros I; apply N; now right.
Qed.
(** The entries before the first file is read *)
Definition before (b : build) (l : list opt) : config :=
  let cf := scan_opts l false (set_entry ($ "FIREWALL_EXE") (b_firewall_exe b) (fun _ => None)) in
  match cf ($ "CONFIG_FILE") with None => set_entry ($ "CONFIG_FILE") (b_config_file b) cf | Some _ => cf end.
Lemma name_of l : forall d, file_set l None = None -> fold_left (fun d o => match o with Opt_c f => f | _ => d end) l d = d.
Proof.
  assert (K : forall l f, file_set l (Some f) <> None).
  { clear. unfold file_set. induction l as [|[g|g|m g|] l IH]; intros f; cbn [fold_left]; [discriminate| | | |]; apply IH. }
  unfold file_set in *. induction l as [|[f|f|m f|] l IH]; intros d E; cbn [fold_left] in *; [reflexivity| |apply IH, E|apply IH, E|apply IH, E].
  destruct (K _ _ E).
Qed.
Lemma name_of_some l f : file_set l None = Some f -> forall d, fold_left (fun d o => match o with Opt_c f => f | _ => d end) l d = f.
Proof.
  assert (K : forall l d x, file_set l (Some d) = Some x -> fold_left (fun d o => match o with Opt_c f => f | _ => d end) l d = x).
  { clear. unfold file_set. induction l as [|[g|g|m g|] l IH]; intros d x; cbn [fold_left]; [congruence| | | |]; apply IH. }
  unfold file_set in *. induction l as [|[g|g|m g|] l IH]; intros E d; cbn [fold_left] in *; [discriminate|apply K, E|apply IH, E|apply IH, E|apply IH, E].
Qed.
Lemma before_file b l : before b l ($ "CONFIG_FILE") = Some (config_name b l).
Proof.
  unfold before. cbv zeta. rewrite scan_opts_file. change (set_entry ($ "FIREWALL_EXE") (b_firewall_exe b) (fun _ => None) ($ "CONFIG_FILE")) with (@None bytes).
  destruct (file_set l None) as [f|] eqn:E.
  - rewrite scan_opts_file. change (set_entry ($ "FIREWALL_EXE") (b_firewall_exe b) (fun _ => None) ($ "CONFIG_FILE")) with (@None bytes). rewrite E.
    unfold config_name. now rewrite (name_of_some _ _ E).
  - rewrite set_entry_at. change (bseq ($ "CONFIG_FILE") ($ "CONFIG_FILE")) with true. cbv iota. unfold config_name. now rewrite name_of.
Qed.
Lemma before_other b l n : n <> $ "CONFIG_FILE" -> before b l n = scan_opts l false (set_entry ($ "FIREWALL_EXE") (b_firewall_exe b) (fun _ => None)) n.
Proof.
  intros N. unfold before. cbv zeta. destruct (scan_opts l false _ ($ "CONFIG_FILE")); [reflexivity|]. rewrite set_entry_at.
  destruct (bseq n _) eqn:E; [apply bseq_eq in E; congruence|reflexivity].
Qed.
Lemma before_override b l : before b l ($ "OVERRIDE_CONFIG") = override_set l false None.
Proof. rewrite before_other by discriminate. rewrite scan_opts_override. reflexivity. Qed.
Lemma before_plain b l n : n <> $ "CONFIG_FILE" -> n <> $ "OVERRIDE_CONFIG" -> n <> $ "FIREWALL_EXE" -> before b l n = None.
Proof.
  intros A B C. rewrite before_other, scan_opts_at by auto. rewrite set_entry_at. destruct (bseq n _) eqn:E; [apply bseq_eq in E; congruence|reflexivity].
Qed.
Lemma config_init_unfold b files l : config_init b files l =
  (go cf <- read_config files true (config_name b l) (before b l);
   go cf <- match cf ($ "OVERRIDE_CONFIG") with
            | None => Goes cf
            | Some o => read_configs files (cut_at ","%byte (ztake (MAX_LINE_LEN - 1) o) []) cf
            end;
   if verbose_ok cf then last_opts l cf else Ends).
Proof.
  unfold config_init. cbv zeta. change (match scan_opts l false (set_entry ($ "FIREWALL_EXE") (b_firewall_exe b) (fun _ => None)) ($ "CONFIG_FILE") with
    Some _ => scan_opts l false (set_entry ($ "FIREWALL_EXE") (b_firewall_exe b) (fun _ => None)) |
    None => set_entry ($ "CONFIG_FILE") (b_config_file b) (scan_opts l false (set_entry ($ "FIREWALL_EXE") (b_firewall_exe b) (fun _ => None))) end) with (before b l).
  rewrite before_file. reflexivity.
Qed.
Lemma before_vals b l : build_ok b -> Forall (fun x => opt_text x <> Some []) l -> vals (before b l).
Proof.
  intros (B1 & B2 & B3) F. unfold before. cbv zeta.
  assert (V : vals (scan_opts l false (set_entry ($ "FIREWALL_EXE") (b_firewall_exe b) (fun _ => None)))).
  { apply scan_opts_vals; [exact F|]. apply vals_set; [intros n v; discriminate|exact B2|]. intros I; vm_compute in I; repeat (destruct I as [I|I]; [discriminate I|]); contradiction I. }
  destruct (scan_opts l false _ ($ "CONFIG_FILE")); [exact V|]. apply vals_set; [exact V|exact B3|].
  intros I; vm_compute in I; repeat (destruct I as [I|I]; [discriminate I|]); contradiction I.
Qed.
Lemma read_configs_vals files names : forall cf, vals cf ->
  read_configs files names cf <> Wrong /\ forall cf', read_configs files names cf = Goes cf' -> vals cf'.
Proof.
  induction names as [|n names IH]; intros cf V; cbn [read_configs]; [split; [discriminate|]; intros cf' E; now injection E as <-|].
  unfold read_config. destruct (files n) as [s|]; cbn [rrun]; [|split; discriminate].
  destruct (parse_config_file false s cf) as [cf1|] eqn:E; cbn [of_outcome rrun]; [|exfalso; revert E; apply parse_safe; discriminate].
  apply IH. exact (parse_vals _ _ _ _ V E).
Qed.
Lemma config_init_safe b files l : build_ok b -> Forall (fun x => opt_text x <> Some []) l ->
  (forall s, files (config_name b l) = Some s -> ~ occurs ($ "CONFIG_FILE") s) ->
  config_init b files l <> Wrong /\ forall cf, config_init b files l = Goes cf -> vals cf.
Proof.
  intros B F N. rewrite config_init_unfold. pose proof (before_vals b l B F) as V. unfold read_config at 1 2.
  destruct (files (config_name b l)) as [s|]; cbn [rrun]; [|split; discriminate].
  destruct (parse_config_file true s (before b l)) as [cf1|] eqn:E; cbn [of_outcome rrun].
  2:{ exfalso. revert E. apply parse_safe. intros _. now apply N. }
  apply parse_vals in E; [|exact V].
  destruct (cf1 ($ "OVERRIDE_CONFIG")) as [o|]; cbn [rrun].
  - destruct (read_configs_vals files (cut_at ","%byte (ztake (MAX_LINE_LEN - 1) o) []) cf1 E) as [W V2].
    destruct (read_configs files _ cf1) as [cf2| |]; cbn [rrun]; [|split; discriminate|congruence]. specialize (V2 _ eq_refl).
    destruct (verbose_ok cf2); [|split; discriminate]. apply last_opts_vals; assumption.
  - destruct (verbose_ok cf1); [|split; discriminate]. apply last_opts_vals; assumption.
Qed.

(** ** validate_options *)
Lemma assoc_in n l : assoc n l <> None -> exists v, assoc n l = Some v /\ In (n, v) l.
Proof.
  induction l as [|[m v] l IH]; cbn [assoc]; [congruence|]. destruct (bseq n m) eqn:E; intros H.
  - apply bseq_eq in E. subst m. exists v. split; [reflexivity|now left].
  - destruct (IH H) as (w & A & B). exists w. split; [exact A|now right].
Qed.
Definition full (b : build) (cf : config) : config := fun n => match cf n with Some v => Some v | None => assoc n (defaults b) end.
Lemma run_path_ok name dir : dir <> [] -> exists p, run_path name dir = Ok p.
Proof.
  intros N. unfold run_path. cbv zeta. destruct (ztake (MAX_PATH_LEN - 1) dir) as [|c d] eqn:E; [|eauto].
  exfalso. revert E. apply ztake_some; [reflexivity|exact N].
Qed.
Lemma set_path_goes n name cf d : cf ($ "FWKNOP_RUN_DIR") = Some d -> d <> [] -> exists cf', set_path n name cf = Goes cf'.
Proof.
  intros E N. unfold set_path. destruct (cf n); [eauto|]. rewrite E. destruct (run_path_ok name d N) as [p ->]. cbn [of_outcome rrun]. eauto.
Qed.
Lemma run_dir_some b cf : build_ok b -> cf ($ "FWKNOP_RUN_DIR") <> Some [] -> exists d, set_defaults (defaults b) cf ($ "FWKNOP_RUN_DIR") = Some d /\ d <> [].
Proof.
  intros (B & _) R. rewrite set_defaults_at. destruct (cf ($ "FWKNOP_RUN_DIR")) as [d|]; [exists d; split; [reflexivity|congruence]|].
  exists (b_run_dir b). split; [reflexivity|exact B].
Qed.
(** The entries when the checks begin *)
Lemma options_go b cf : build_ok b -> cf ($ "FWKNOP_RUN_DIR") <> Some [] -> exists cf3,
  (forall n, ~ In n derived -> cf3 n = full b cf n) /\
  validate_options b cf =
    (go sn <- entry cf3 ($ "ENABLE_IPT_SNAT");
     if yes sn && (match cf3 ($ "SNAT_TRANSLATE_IP") with Some ip => negb (is_valid_ipv4_addr ip (zlen ip)) | None => false end) then Ends
     else
       go _ <- check_chain_settings chain_settings cf3;
       go ns <- of_outcome (validate_int_var_ranges cf3);
       match ns, cf3 ($ "FIREWALL_EXE") with Some ns, Some _ => Goes (cf3, ns) | _, _ => Ends end).
Proof.
  intros B R. destruct (run_dir_some b cf B R) as (d & ED & ND). unfold validate_options. cbv zeta.
  destruct (set_path_goes ($ "FWKNOP_PID_FILE") ($ "fwknopd.pid") _ d ED ND) as [cf1 E1]. rewrite E1. cbn [rrun].
  assert (D1 : cf1 ($ "FWKNOP_RUN_DIR") = Some d) by (rewrite (set_path_at _ _ _ _ _ E1) by reflexivity; exact ED).
  destruct (set_path_goes ($ "DIGEST_FILE") ($ "digest.cache") _ d D1 ND) as [cf2 E2]. rewrite E2. cbn [rrun].
  eexists. split; [|reflexivity]. intros n N. rewrite set_default_at. rewrite (derived_not n _ N) by (cbn; auto).
  rewrite (set_path_at _ _ _ _ n E2) by (apply derived_not; [exact N|cbn; auto]).
  rewrite (set_path_at _ _ _ _ n E1) by (apply derived_not; [exact N|cbn; auto]). apply set_defaults_at.
Qed.
Ltac notin := let H := fresh in intros H; vm_compute in H; repeat (destruct H as [H|H]; [discriminate H|]); contradiction H.
Lemma check_chain_at l cf : (forall n, In n l -> cf n <> None) ->
  (check_chain_settings l cf = Goes tt /\ forall n v, In n l -> cf n = Some v -> chain_shape v) \/
  (check_chain_settings l cf = Ends /\ exists n v, In n l /\ cf n = Some v /\ ~ chain_shape v).
Proof.
  induction l as [|n l IH]; intros A; cbn [check_chain_settings]; [left; split; [reflexivity|intros ? ? []]|].
  unfold entry. destruct (cf n) as [v|] eqn:E; [|destruct (A n); [now left|exact E]]. cbn [rrun].
  destruct (validate_ipt_chain_conf v) eqn:V.
  - apply validate_iff in V. destruct IH as [[-> H]|[-> (m & w & I & H)]]; [intros m I; apply A; now right| |].
    + left. split; [reflexivity|]. intros m w [<-|I]; [rewrite E; congruence|eauto].
    + right. split; [reflexivity|]. exists m, w. split; [now right|exact H].
  - right. split; [reflexivity|]. exists n, v. split; [now left|split; [exact E|]]. intros S. apply validate_iff in S. congruence.
Qed.
Lemma full_chain b cf n : In n chain_settings -> full b cf n <> None.
Proof. revert n. apply chain_settings_cases; unfold full; destruct (cf _); discriminate. Qed.
Lemma full_int b cf n lo hi : In (n, lo, hi) int_vars -> full b cf n <> None.
Proof. unfold int_vars. cbn [In]. intros I. repeat (destruct I as [I|I]; [injection I as <- _ _; unfold full; destruct (cf _); discriminate|]). contradiction. Qed.
Lemma not_derived_chain n : In n chain_settings -> ~ In n derived.
Proof. revert n. apply chain_settings_cases; notin. Qed.
Lemma not_derived_int n lo hi : In (n, lo, hi) int_vars -> ~ In n derived.
Proof. unfold int_vars. cbn [In]. intros I. repeat (destruct I as [I|I]; [injection I as <- _ _; notin|]). contradiction. Qed.
Lemma ranges_safe l cf : (forall n lo hi, In (n, lo, hi) l -> cf n <> None) -> check_ranges l cf <> Fault.
Proof.
  induction l as [|[[n lo] hi] l IH]; intros A; cbn [check_ranges]; [discriminate|].
  destruct (cf n) as [v|] eqn:E; [|destruct (A n lo hi); [now left|exact E]]. destruct (range_check v lo hi); [|discriminate].
  assert (K : check_ranges l cf <> Fault) by (apply IH; intros m a c I; apply (A m a c); now right).
  destruct (check_ranges l cf) as [[t|]|]; congruence.
Qed.
Lemma options_safe b cf : build_ok b -> cf ($ "FWKNOP_RUN_DIR") <> Some [] -> validate_options b cf <> Wrong.
Proof.
  intros B R. destruct (options_go b cf B R) as (cf3 & AT & ->). unfold entry. rewrite (AT ($ "ENABLE_IPT_SNAT")) by notin.
  destruct (full b cf ($ "ENABLE_IPT_SNAT")) as [sn|] eqn:ES; [|unfold full in ES; destruct (cf ($ "ENABLE_IPT_SNAT")); discriminate ES]. cbn [rrun].
  destruct (yes sn && _); [discriminate|].
  destruct (check_chain_at chain_settings cf3) as [[-> _]|[-> _]]; cbn [rrun]; [| |discriminate].
  { intros n I. rewrite AT by now apply not_derived_chain. now apply full_chain. }
  unfold validate_int_var_ranges. pose proof (ranges_safe int_vars cf3) as K. destruct (check_ranges int_vars cf3) as [[t|]|]; cbn [of_outcome rrun]; [destruct (cf3 _); discriminate|discriminate|].
  exfalso. apply K; [|reflexivity]. intros n lo hi I. rewrite AT by (eapply not_derived_int; eauto). eapply full_int; eauto.
Qed.
Lemma options_refuse b cf n v : build_ok b -> cf ($ "FWKNOP_RUN_DIR") <> Some [] -> In n chain_settings -> full b cf n = Some v -> ~ chain_shape v ->
  validate_options b cf = Ends.
Proof.
  intros B R I FV NS. destruct (options_go b cf B R) as (cf3 & AT & ->). unfold entry. rewrite (AT ($ "ENABLE_IPT_SNAT")) by notin.
  destruct (full b cf ($ "ENABLE_IPT_SNAT")) as [sn|] eqn:ES; [|unfold full in ES; destruct (cf ($ "ENABLE_IPT_SNAT")); discriminate ES]. cbn [rrun].
  destruct (yes sn && _); [reflexivity|].
  destruct (check_chain_at chain_settings cf3) as [[-> H]|[-> _]]; cbn [rrun]; [| |reflexivity].
  { intros m J. rewrite AT by now apply not_derived_chain. now apply full_chain. }
  exfalso. apply NS, (H n); [exact I|]. rewrite AT by now apply not_derived_chain. exact FV.
Qed.

(** ** fw_config_init *)
Lemma entry_full cf3 b cf n : (forall n, ~ In n derived -> cf3 n = full b cf n) -> ~ In n derived -> assoc n (defaults b) <> None -> exists v, entry cf3 n = Goes v /\ full b cf n = Some v.
Proof.
  intros AT N D. unfold entry. rewrite AT by exact N. unfold full. destruct (cf n) as [v|]; [eauto|]. destruct (assoc n (defaults b)); [eauto|congruence].
Qed.
Definition chain_done (cf : config) (n : bytes) : Prop := exists c, one_chain cf n = Goes c.
Lemma init_safe b cf cf3 ns : vals cf -> validate_options b cf = Goes (cf3, ns) -> fw_config_init cf3 <> Wrong.
Proof.
  intros V O. destruct (options_at _ _ _ _ O) as (AT & SH & FE & _).
  assert (CS : forall n, In n chain_settings -> one_chain cf3 n <> Wrong).
  { intros n I. destruct (SH n I) as (v & E & S). unfold one_chain, entry. rewrite E. cbn [rrun].
    assert (L : zlen v <= 1023).
    { rewrite AT in E by now apply not_derived_chain. destruct (cf n) as [w|] eqn:EW; [injection E as <-; exact (proj2 (V _ _ EW) I)|].
      clear - E I. revert n I E. apply (chain_settings_cases (fun n => assoc n (defaults b) = Some v -> zlen v <= 1023)); intros E; vm_compute in E; injection E as <-; discriminate. }
    pose proof (set_chain_safe v S L) as NF. destruct (set_fw_chain_conf v) as [[c|]|]; [discriminate|discriminate|congruence]. }
  assert (SC : forall x n, In n chain_settings -> some_chain x cf3 n <> Wrong) by (intros [] n I; [apply CS, I|discriminate]).
  unfold fw_config_init. cbv zeta.
  assert (EN : forall n, ~ In n derived -> assoc n (defaults b) <> None -> exists v, entry cf3 n = Goes v).
  { intros n N D. destruct (entry_full cf3 b cf n AT N D) as (v & E & _). eauto. }
  unfold entry at 1. destruct (cf3 ($ "FIREWALL_EXE")); [|congruence]. cbn [rrun].
  pose proof (CS ($ "IPT_INPUT_ACCESS") ltac:(cbn; tauto)). destruct (one_chain cf3 ($ "IPT_INPUT_ACCESS")); cbn [rrun]; [|discriminate|congruence].
  destruct (EN ($ "ENABLE_IPT_OUTPUT") ltac:(notin) ltac:(vm_compute; discriminate)) as [o ->]. cbn [rrun].
  pose proof (SC (yes o) ($ "IPT_OUTPUT_ACCESS") ltac:(cbn; tauto)). destruct (some_chain (yes o) cf3 ($ "IPT_OUTPUT_ACCESS")); cbn [rrun]; [|discriminate|congruence].
  destruct (EN ($ "ENABLE_IPT_FORWARDING") ltac:(notin) ltac:(vm_compute; discriminate)) as [f ->]. cbn [rrun].
  destruct (EN ($ "ENABLE_IPT_LOCAL_NAT") ltac:(notin) ltac:(vm_compute; discriminate)) as [ln ->]. cbn [rrun].
  pose proof (SC (yes f || yes ln) ($ "IPT_FORWARD_ACCESS") ltac:(cbn; tauto)). destruct (some_chain _ cf3 ($ "IPT_FORWARD_ACCESS")); cbn [rrun]; [|discriminate|congruence].
  pose proof (SC (yes f || yes ln) ($ "IPT_DNAT_ACCESS") ltac:(cbn; tauto)). destruct (some_chain _ cf3 ($ "IPT_DNAT_ACCESS")); cbn [rrun]; [|discriminate|congruence].
  destruct (EN ($ "ENABLE_IPT_SNAT") ltac:(notin) ltac:(vm_compute; discriminate)) as [sn ->]. cbn [rrun].
  pose proof (SC ((yes f || yes ln) && yes sn) ($ "IPT_MASQUERADE_ACCESS") ltac:(cbn; tauto)). destruct (some_chain _ cf3 ($ "IPT_MASQUERADE_ACCESS")); cbn [rrun]; [|discriminate|congruence].
  pose proof (SC ((yes f || yes ln) && yes sn) ($ "IPT_SNAT_ACCESS") ltac:(cbn; tauto)). destruct (some_chain _ cf3 ($ "IPT_SNAT_ACCESS")); cbn [rrun]; [|discriminate|congruence].
  destruct (EN ($ "ENABLE_DESTINATION_RULE") ltac:(notin) ltac:(vm_compute; discriminate)) as [d ->]. cbn [rrun].
  destruct (EN ($ "ENABLE_RULE_PREPEND") ltac:(notin) ltac:(vm_compute; discriminate)) as [pre ->]. cbn [rrun].
  destruct (EN ($ "ENABLE_NAT_DNS") ltac:(notin) ltac:(vm_compute; discriminate)) as [dns ->]. cbn [rrun]. discriminate.
Qed.
