(** The start of the daemon: settings that are accepted, and the order of the files. *)
From Verif Require Import Bytes S_text S_access S_conf S_incoming M_util M_access M_replay M_packet M_incoming M_conf M_fw M_accfile M_start S_fw S_fwinit S_accfile S_daemon S_start.
From Verif Require Import P_bytes P_util P_util2 P_access P_codec P_replay P_conf P_incoming2 P_incoming5 P_accfile5 P_start P_start2.
From Coq Require Import Init.Byte List ZArith Bool Lia.
Import ListNotations.
Open Scope Z_scope.

(** ** Settings that are accepted *)
Lemma full_row b cf n v : In n chain_settings -> full b cf n = Some v -> exists i d P, In (i, n, d, P) (chain_table cf) /\ says_or cf n d v.
Proof.
  revert n. apply (chain_settings_cases (fun n => full b cf n = Some v -> exists i d P, In (i, n, d, P) (chain_table cf) /\ says_or cf n d v));
    unfold full, says_or, chain_table;
    match goal with |- context [cf ?n] => intros E; destruct (cf n) as [w|] eqn:EC end.
  all: do 3 eexists; (split; [cbn [In]; tauto|]).
  all: try (left; exact E). all: right; (split; [reflexivity|]); vm_compute in E; injection E as <-; reflexivity.
Qed.
Lemma row_setting cf i n d P : In (i, n, d, P) (chain_table cf) -> In n chain_settings.
Proof. unfold chain_table, chain_settings. cbn [In]. intros I. repeat (destruct I as [I|I]; [injection I as <- <- <- <-; tauto|]). contradiction. Qed.
Lemma row_full b cf i n d P v : In (i, n, d, P) (chain_table cf) -> says_or cf n d v -> full b cf n = Some v.
Proof.
  unfold chain_table. cbn [In]. intros I S. unfold full. destruct S as [E|[E E2]]; rewrite E; [reflexivity|]. subst v.
  repeat (destruct I as [I|I]; [injection I as <- <- <- <-; reflexivity|]). contradiction.
Qed.
Lemma enabled_full b cf n v : In n [$ "ENABLE_IPT_OUTPUT"; $ "ENABLE_IPT_FORWARDING"; $ "ENABLE_IPT_LOCAL_NAT"; $ "ENABLE_IPT_SNAT"] ->
  full b cf n = Some v -> (enabled cf n <-> yes v = true).
Proof.
  intros I F. assert (SO : says_or cf n ($ "N") v).
  { unfold full in F. destruct (cf n) as [w|] eqn:E; [left; congruence|right; split; [exact E|]].
    cbn [In] in I. repeat (destruct I as [<-|I]; [vm_compute in F; injection F as <-; reflexivity|]). contradiction. }
  rewrite yes_on. unfold enabled. split; [|eauto]. intros (w & SW & O). destruct SO as [A|[A ->]], SW as [B|[B ->]]; congruence.
Qed.
Lemma ranges_accept b cf l : (forall n lo hi, In (n, lo, hi) l -> In (n, lo, hi) int_vars) ->
  (forall n lo hi, In (n, lo, hi) int_vars -> cf n = None \/ exists v y, cf n = Some v /\ integer_text v y /\ lo <= y <= hi) ->
  forall cf3, (forall n, ~ In n derived -> cf3 n = full b cf n) -> exists ns, check_ranges l cf3 = Ok (Some ns).
Proof.
  intros SUB C cf3 AT. induction l as [|[[n lo] hi] l IH]; cbn [check_ranges]; [eauto|].
  pose proof (SUB n lo hi ltac:(now left)) as I. rewrite AT by (eapply not_derived_int; eauto).
  destruct IH as [ns EN]; [intros m a c J; apply SUB; now right|].
  assert (R : exists v x, full b cf n = Some v /\ range_check v lo hi = Some x).
  { destruct (C n lo hi I) as [E|(v & y & E & T & RG)].
    - unfold full. rewrite E. clear - I. unfold int_vars in I. cbn [In] in I.
      repeat (destruct I as [I|I]; [injection I as <- <- <-; do 2 eexists; split; [reflexivity|vm_compute; reflexivity]|]). contradiction.
    - assert (B : 0 <= lo /\ hi <= 8388608).
      { clear - I. unfold int_vars in I. cbn [In] in I. repeat (destruct I as [I|I]; [injection I as <- <- <-; lia|]). contradiction. }
      exists v, y. unfold full. rewrite E. split; [reflexivity|]. unfold range_check.
      destruct (strtol_wrapper_iff v lo hi y T ltac:(lia) ltac:(lia) y) as [_ K]. rewrite K by auto. reflexivity. }
  destruct R as (v & x & EF & ER). rewrite EF, ER, EN. eauto.
Qed.
Lemma options_accept b cf : build_ok b -> config_ok cf int_vars -> exists cf3 ns, validate_options b cf = Goes (cf3, ns).
Proof.
  intros B (CH & RG & SN & FE & RD). destruct (options_go b cf B RD) as (cf3 & AT & ->).
  destruct (entry_full cf3 b cf ($ "ENABLE_IPT_SNAT") AT ltac:(notin) ltac:(vm_compute; discriminate)) as (sn & -> & FS). cbn [rrun].
  assert (X : yes sn && (match cf3 ($ "SNAT_TRANSLATE_IP") with Some ip => negb (is_valid_ipv4_addr ip (zlen ip)) | None => false end) = false).
  { destruct (yes sn) eqn:Y; [|reflexivity]. cbn [andb]. rewrite AT by notin. unfold full. destruct (cf ($ "SNAT_TRANSLATE_IP")) as [ip|] eqn:EI; [|reflexivity].
    apply negb_false_iff, address_iff2, SN; [|reflexivity]. apply (enabled_full b cf _ sn); [cbn; tauto|exact FS|exact Y]. }
  rewrite X. destruct (check_chain_at chain_settings cf3) as [[-> _]|[_ (n & v & I & E & NS)]].
  { intros m J. rewrite AT by now apply not_derived_chain. now apply full_chain. }
  2:{ exfalso. apply NS. rewrite AT in E by now apply not_derived_chain. destruct (full_row b cf n v I E) as (i & d & P & IR & SO).
      destruct (CH i n d P v IR SO) as (_ & target & table & from & jump & to & CL). eapply line_shape; eauto. }
  cbn [rrun]. unfold validate_int_var_ranges. destruct (ranges_accept b cf int_vars (fun _ _ _ H => H) RG cf3 AT) as [ns ->]. cbn [of_outcome rrun].
  rewrite AT by notin. unfold full. destruct (cf ($ "FIREWALL_EXE")); [eauto|congruence].
Qed.
Lemma init_accept b cf cf3 ns : config_ok cf int_vars -> validate_options b cf = Goes (cf3, ns) -> exists fc cs, fw_config_init cf3 = Goes (fc, cs).
Proof.
  intros (CH & _) O. destruct (options_at _ _ _ _ O) as (AT & _ & FE & _). fold (full b cf) in AT.
  assert (CS : forall n, In n chain_settings -> exists c, one_chain cf3 n = Goes c).
  { intros n I. unfold one_chain, entry. rewrite AT by now apply not_derived_chain.
    destruct (full b cf n) as [v|] eqn:E; [|destruct (full_chain b cf n I E)]. unfold full in E. rewrite E. cbn [rrun].
    destruct (full_row b cf n v I E) as (i & d & P & IR & SO). destruct (CH i n d P v IR SO) as (L & target & table & from & jump & to & CL).
    destruct (set_chain_accepts v _ _ _ _ _ CL L) as [c ->]. cbn [of_outcome rrun]. eauto. }
  assert (SC : forall x n, In n chain_settings -> exists c, some_chain x cf3 n = Goes c) by (intros [] n I; [apply CS, I|cbn; eauto]).
  unfold fw_config_init. cbv zeta.
  assert (EN : forall n, ~ In n derived -> assoc n (defaults b) <> None -> exists v, entry cf3 n = Goes v).
  { intros n N D. destruct (entry_full cf3 b cf n AT N D) as (v & E & _). eauto. }
  unfold entry at 1. destruct (cf3 ($ "FIREWALL_EXE")); [|congruence]. cbn [rrun].
  destruct (CS ($ "IPT_INPUT_ACCESS") ltac:(cbn; tauto)) as [c0 ->]. cbn [rrun].
  destruct (EN ($ "ENABLE_IPT_OUTPUT") ltac:(notin) ltac:(vm_compute; discriminate)) as [o ->]. cbn [rrun].
  destruct (SC (yes o) ($ "IPT_OUTPUT_ACCESS") ltac:(cbn; tauto)) as [c1 ->]. cbn [rrun].
  destruct (EN ($ "ENABLE_IPT_FORWARDING") ltac:(notin) ltac:(vm_compute; discriminate)) as [f ->]. cbn [rrun].
  destruct (EN ($ "ENABLE_IPT_LOCAL_NAT") ltac:(notin) ltac:(vm_compute; discriminate)) as [ln ->]. cbn [rrun].
  destruct (SC (yes f || yes ln) ($ "IPT_FORWARD_ACCESS") ltac:(cbn; tauto)) as [c2 ->]. cbn [rrun].
  destruct (SC (yes f || yes ln) ($ "IPT_DNAT_ACCESS") ltac:(cbn; tauto)) as [c3 ->]. cbn [rrun].
  destruct (EN ($ "ENABLE_IPT_SNAT") ltac:(notin) ltac:(vm_compute; discriminate)) as [sn ->]. cbn [rrun].
  destruct (SC ((yes f || yes ln) && yes sn) ($ "IPT_MASQUERADE_ACCESS") ltac:(cbn; tauto)) as [c5 ->]. cbn [rrun].
  destruct (SC ((yes f || yes ln) && yes sn) ($ "IPT_SNAT_ACCESS") ltac:(cbn; tauto)) as [c4 ->]. cbn [rrun].
  destruct (EN ($ "ENABLE_DESTINATION_RULE") ltac:(notin) ltac:(vm_compute; discriminate)) as [d ->]. cbn [rrun].
  destruct (EN ($ "ENABLE_RULE_PREPEND") ltac:(notin) ltac:(vm_compute; discriminate)) as [pre ->]. cbn [rrun].
  destruct (EN ($ "ENABLE_NAT_DNS") ltac:(notin) ltac:(vm_compute; discriminate)) as [dns ->]. cbn [rrun]. eauto.
Qed.

(** ** The chains *)
Lemma chain_rows b cf cf3 ns fc cs : validate_options b cf = Goes (cf3, ns) -> fw_config_init cf3 = Goes (fc, cs) ->
  forall i n d P, In (i, n, d, P) (chain_table cf) ->
    (P -> exists v, says_or cf n d v /\ chain_shape v /\ as_written v (chain_at i cs)) /\ (~ P -> chain_at i cs = no_chain).
Proof.
  intros O FI. destruct (options_at _ _ _ _ O) as (AT & SH & _). fold (full b cf) in AT.
  destruct (init_at _ _ _ FI) as (exe & o & f & l & sn & dd & pre & dns & c0 & c1 & c2 & c3 & c4 & c5 & _ & EO & EF & EL & ES & _ & _ & _ & -> & C0 & C1 & C2 & C3 & C4 & C5 & _).
  rewrite AT in EO, EF, EL, ES by notin.
  pose proof (enabled_full b cf ($ "ENABLE_IPT_OUTPUT") _ ltac:(cbn; tauto) EO) as YO. pose proof (enabled_full b cf ($ "ENABLE_IPT_FORWARDING") _ ltac:(cbn; tauto) EF) as YF.
  pose proof (enabled_full b cf ($ "ENABLE_IPT_LOCAL_NAT") _ ltac:(cbn; tauto) EL) as YL. pose proof (enabled_full b cf ($ "ENABLE_IPT_SNAT") _ ltac:(cbn; tauto) ES) as YS.
  assert (YN : nat_on cf <-> yes f || yes l = true) by (unfold nat_on; rewrite YF, YL, orb_true_iff; tauto).
  assert (YM : (nat_on cf /\ enabled cf ($ "ENABLE_IPT_SNAT")) <-> (yes f || yes l) && yes sn = true) by (rewrite YN, YS, andb_true_iff; tauto).
  assert (K : forall x n c d i P, In (i, n, d, P) (chain_table cf) -> (P <-> x = true) -> some_chain x cf3 n = Goes c ->
    (P -> exists v, says_or cf n d v /\ chain_shape v /\ as_written v c) /\ (~ P -> c = no_chain)).
  { intros x n c d i P IR IFF SC. pose proof (row_setting _ _ _ _ _ IR) as IC. apply some_chain_goes in SC. destruct x; [|split; [intros HP; apply IFF in HP; discriminate|intros _; exact SC]].
    destruct SC as (v & E & W). split; [|intros NP; exfalso; apply NP, IFF; reflexivity]. intros _. destruct (SH n IC) as (v' & E' & S'). assert (v' = v) by congruence. subst v'.
    exists v. split; [|split; [exact S'|exact W]]. rewrite AT in E by now apply not_derived_chain.
    unfold full in E. destruct (cf n) as [w|] eqn:EC; [left; congruence|right; split; [exact EC|]].
    pose proof (row_full b cf i n d P d IR (or_intror (conj EC eq_refl))) as R. unfold full in R. rewrite EC in R. congruence. }
  intros i n d P I. assert (IR := I). unfold chain_table in I. cbn [In] in I.
  destruct I as [I|[I|[I|[I|[I|[I|[]]]]]]]; injection I as <- <- <- <-; unfold chain_at; cbn [nth]; (eapply K; [exact IR| |eassumption]).
  - split; auto.
  - exact YO.
  - exact YN.
  - exact YN.
  - exact YM.
  - exact YM.
Qed.

(** ** The files *)
Lemma settles_app a : forall c n old mid new, settles a n old mid -> settles c n mid new -> settles (a ++ c) n old new.
Proof.
  intros c n old mid new A [(pre & l & post & v & -> & G & E & N)|[N ->]].
  - left. exists (a ++ pre), l, post, v. split; [now rewrite app_assoc|auto].
  - destruct A as [(pre & l & post & v & -> & G & E & N2)|[N2 ->]].
    + left. exists pre, l, (post ++ c), v. split; [now rewrite <- app_assoc|]. split; [exact G|split; [exact E|]].
      intros l' v' I. apply in_app_or in I. destruct I; [now apply N2|now apply N].
    + right. split; [|reflexivity]. intros l v I. apply in_app_or in I. destruct I; [now apply N2|now apply N].
Qed.
Lemma gives_one l n v w : gives l n v -> gives l n w -> 2 <= 2 -> v = w \/ exists t u, v ++ t = w ++ u.
Proof. intros [t A] [u B] _. right. exists t, u. apply written_scan in A, B. congruence. Qed.
Lemma gives_fun l n v w : gives l n v -> gives l n w -> v = w.
Proof.
  intros [t A] [u B]. pose proof (written_scan _ _ _ _ A) as A2. pose proof (written_scan _ _ _ _ B) as B2. assert (E : v ++ t = w ++ u) by congruence.
  destruct A as (_ & ? & ? & ? & A). destruct B as (_ & ? & ? & ? & B).
  assert (RA : rtrim (v ++ t) = v). { apply rtrim_spec; [tauto|]. eapply Forall_impl; [|apply A]. intros c [? _]; auto. }
  assert (RB : rtrim (w ++ u) = w). { apply rtrim_spec; [tauto|]. eapply Forall_impl; [|apply B]. intros c [? _]; auto. }
  congruence.
Qed.
Lemma settles_fun lines n old a c : settles lines n old a -> settles lines n old c -> a = c.
Proof.
  intros [(pre & l & post & v & -> & G & -> & N)|[N ->]] [(pre' & l' & post' & v' & E & G' & -> & N')|[N' ->]].
  - f_equal. revert pre' E. induction pre as [|x pre IH]; intros [|y pre'] E; cbn [app] in E.
    + injection E as <- <-. eapply gives_fun; eauto.
    + injection E as <- ->. exfalso. eapply N; [|exact G']. apply in_or_app. right. now left.
    + injection E as -> <-. exfalso. eapply N'; [|exact G]. apply in_or_app. right. now left.
    + injection E as _ E. eapply IH; eauto.
  - exfalso. eapply N'; [|exact G]. apply in_or_app. right. now left.
  - subst lines. exfalso. eapply N; [|exact G']. apply in_or_app. right. now left.
  - reflexivity.
Qed.
Lemma settles_twice a n new : settles (a ++ a) n None new -> settles a n None new.
Proof.
  intros H. assert (X : exists mid, settles a n None mid /\ settles a n mid new).
  { destruct H as [(pre & l & post & v & E & G & -> & N)|[N ->]].
    - apply app_eq_app in E. destruct E as (m & [[E1 E2]|[E1 E2]]).
      + destruct m as [|x m].
        * rewrite app_nil_r in E1. cbn [app] in E2. subst a. exists (Some v). split; left.
          -- exists [], l, post, v. rewrite <- E2. auto.
          -- exists [], l, post, v. rewrite <- E2. auto.
        * cbn [app] in E2. injection E2 as <- E2. exfalso. apply (N l v); [|exact G]. rewrite E2. apply in_or_app. right. rewrite E1. apply in_or_app. right. now left.
      + exists (Some v). split; left; exists m, l, post, v; rewrite E2; auto.
    - exists None. split; right; (split; [|reflexivity]); intros l v I; apply N; apply in_or_app; auto. }
  destruct X as (mid & A & B). destruct B as [B|[B ->]]; [left; exact B|exact A].
Qed.

Lemma read_plain files own name lines cf : plain_file files name lines -> (own = true -> forall l v, In l lines -> ~ gives l ($ "CONFIG_FILE") v) ->
  exists cf', read_config files own name cf = Goes cf' /\
    (forall n, In n config_map -> settles lines n (cf n) (cf' n)) /\ (forall n, ~ In n config_map -> cf' n = cf n).
Proof.
  intros (F & OK & P) OWN. unfold read_config. rewrite F. destruct (parse_plain own lines cf OK P OWN) as (cf' & -> & A & B).
  exists cf'. auto.
Qed.
Lemma reads_plain files names : forall liness cf, Forall2 (plain_file files) names liness ->
  exists cf', read_configs files names cf = Goes cf' /\
    (forall n, In n config_map -> settles (List.concat liness) n (cf n) (cf' n)) /\ (forall n, ~ In n config_map -> cf' n = cf n).
Proof.
  induction names as [|m names IH]; intros liness cf F; inversion F as [|? lines ? r F1 F2]; subst; cbn [read_configs List.concat].
  - exists cf. split; [reflexivity|]. split; [|reflexivity]. intros n _. right. split; [intros l v []|reflexivity].
  - destruct (read_plain files false m lines cf F1 ltac:(discriminate)) as (cf1 & -> & A & B). cbn [rrun].
    destruct (IH r cf1 F2) as (cf2 & -> & A2 & B2). exists cf2. split; [reflexivity|]. split.
    + intros n I. eapply settles_app; [apply A, I|apply A2, I].
    + intros n I. rewrite B2, B by exact I. reflexivity.
Qed.
Lemma cut_one f : forall s cur, ~ In ","%byte f -> cut_at ","%byte (f ++ s) cur = cut_at ","%byte s (cur ++ f).
Proof.
  induction f as [|c f IH]; intros s cur N; cbn [app cut_at]; [now rewrite app_nil_r|].
  assert (NE : c <> ","%byte) by (intros ->; apply N; now left). apply beq_neq in NE. rewrite NE. rewrite IH by (intros I; apply N; now right). now rewrite <- app_assoc.
Qed.
Lemma cut_listed o names : listed o names -> cut_at ","%byte o [] = names.
Proof.
  intros (-> & NE & F). induction F as [|f names N F IH]; [congruence|]. destruct names as [|g names].
  - cbn [join]. rewrite <- (app_nil_r f) at 1. rewrite cut_one by exact N. reflexivity.
  - change (join ($ ",") (f :: g :: names)) with (f ++ $ "," ++ join ($ ",") (g :: names)). rewrite cut_one by exact N.
    cbn [app]. change ($ "," ++ join ($ ",") (g :: names)) with (","%byte :: join ($ ",") (g :: names)). cbn [cut_at].
    change (beq ","%byte ","%byte) with true. cbv iota. f_equal. apply IH. discriminate.
Qed.
Lemma verbose_int v y : integer_text v y -> 0 <= y < 2147483648 -> strtol_ok (snd (strtol_wrapper v 0 (-1))) = true.
Proof.
  intros T R. unfold strtol_wrapper. rewrite (strtol_reads _ _ T). unfold LONG_MAX, LONG_MIN.
  destruct (y >? _) eqn:G; [rewrite Z.gtb_ltb in G; apply Z.ltb_lt in G; lia|]. destruct (y <? _) eqn:G2; [apply Z.ltb_lt in G2; lia|].
  assert (I : i32 y = y) by (apply i32_small; lia). rewrite I. cbn [snd]. change (-1 >=? 0) with false. cbn [andb].
  destruct (y <? 0) eqn:L; [apply Z.ltb_lt in L; lia|]. reflexivity.
Qed.
Definition verbose_lines (lines : list bytes) : Prop :=
  forall l v, In l lines -> gives l ($ "VERBOSE") v -> exists y, integer_text v y /\ 0 <= y < 2147483648.
Lemma init_files b files l lines0 o names liness : ~ In Opt_bad l ->
  plain_file files (config_name b l) lines0 -> (forall x v, In x lines0 -> ~ gives x ($ "CONFIG_FILE") v) ->
  settles lines0 ($ "OVERRIDE_CONFIG") (override_set l false None) o ->
  match o with None => names = [] | Some t => zlen t <= 1023 /\ listed t names end ->
  Forall2 (plain_file files) names liness -> verbose_lines (lines0 ++ List.concat liness) ->
  exists cf, config_init b files l = Goes cf /\
    (forall n, In n config_map -> exists old, settles (lines0 ++ List.concat liness) n (before b l n) old /\
       (In n option_entries -> stored l n old (cf n)) /\ (~ In n option_entries -> cf n = old)) /\
    (forall n, ~ In n config_map -> cf n = None).
Proof.
  intros NB P0 NC SO LI F V. rewrite config_init_unfold.
  destruct (read_plain files true (config_name b l) lines0 (before b l) P0 (fun _ => NC)) as (cf1 & -> & A1 & B1). cbn [rrun].
  assert (EO : cf1 ($ "OVERRIDE_CONFIG") = o).
  { eapply settles_fun; [apply A1; vm_compute; tauto|]. rewrite before_override. exact SO. }
  assert (R : exists cf2, match cf1 ($ "OVERRIDE_CONFIG") with
      | Some o => read_configs files (cut_at ","%byte (ztake (MAX_LINE_LEN - 1) o) []) cf1 | None => Goes cf1 end = Goes cf2 /\
    (forall n, In n config_map -> settles (List.concat liness) n (cf1 n) (cf2 n)) /\ (forall n, ~ In n config_map -> cf2 n = cf1 n)).
  { rewrite EO. destruct o as [t|].
    - destruct LI as [L LI]. rewrite ztake_all by exact L. rewrite (cut_listed _ _ LI). apply reads_plain, F.
    - subst names. inversion F; subst. exists cf1. split; [reflexivity|]. split; [|reflexivity]. intros n _. right. split; [intros ? ? []|reflexivity]. }
  destruct R as (cf2 & -> & A2 & B2). cbn [rrun].
  assert (A : forall n, In n config_map -> settles (lines0 ++ List.concat liness) n (before b l n) (cf2 n)).
  { intros n I. eapply settles_app; [apply A1, I|apply A2, I]. }
  assert (VO : verbose_ok cf2 = true).
  { unfold verbose_ok. destruct (A ($ "VERBOSE") ltac:(vm_compute; tauto)) as [(pre & x & post & v & E & G & -> & _)|[_ ->]].
    - destruct (V x v) as (y & T & R); [rewrite E; apply in_or_app; right; now left|exact G|]. exact (verbose_int _ _ T R).
    - rewrite before_plain by discriminate. reflexivity. }
  rewrite VO. destruct (last_opts_goes l NB cf2) as [cf EL]. rewrite EL. exists cf. split; [reflexivity|].
  destruct (last_opts_stored _ _ _ EL) as [S1 S2]. split.
  - intros n I. exists (cf2 n). split; [apply A, I|]. split; [apply S1|apply S2].
  - intros n I. assert (NO : ~ In n option_entries).
    { intros J. apply I. clear - J. unfold option_entries in J. cbn [In] in J. repeat (destruct J as [<-|J]; [vm_compute; tauto|]). contradiction. }
    rewrite S2, B2, B1 by auto. assert (D : forall m, In m config_map -> n <> m) by (intros m J ->; exact (I J)).
    apply before_plain; apply D; vm_compute; tauto.
Qed.
