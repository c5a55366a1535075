(** Chain settings: what fw_config_init makes of them. *)
From Verif Require Import Bytes S_text S_access S_conf S_incoming M_util M_access M_replay M_packet M_incoming M_conf M_fw M_accfile M_start S_fw S_fwinit S_accfile S_daemon S_start.
From Verif Require Import P_bytes P_util P_util2 P_access P_codec P_conf P_incoming2.
From Coq Require Import Init.Byte List ZArith Bool Lia.
Import ListNotations.
Open Scope Z_scope.

(** ** The fields *)
Lemma fields_spaces a : forall s cur i j fs, Forall (eq " "%byte) a -> chain_fields (a ++ s) cur i j fs = chain_fields s cur i j fs.
Proof. induction a as [|c a IH]; intros s cur i j fs F; [reflexivity|]. inversion F; subst. cbn. now apply IH. Qed.
Lemma name_char_plain c : letter_or_digit c \/ c = "_"%byte -> beq c " "%byte = false /\ beq c ","%byte = false /\ beq c "_"%byte || isalnum c = true.
Proof.
  intros [L| ->]; [|vm_compute; auto]. assert (A := proj2 (isalnum_lod c) L). rewrite A, orb_true_r.
  split; [|split; [|reflexivity]]; apply Bool.not_true_iff_false; intros E; apply beq_eq in E; subst c; vm_compute in A; discriminate.
Qed.
Lemma fields_name f : forall s cur i j fs, name_text f ->
  chain_fields (f ++ s) cur i j fs = Fault \/ chain_fields (f ++ s) cur i j fs = chain_fields s (cur ++ f) (i + zlen f) j fs.
Proof.
  induction f as [|c f IH]; intros s cur i j fs N.
  - right. rewrite app_nil_r, zlen_nil, Z.add_0_r. reflexivity.
  - inversion N as [|? ? N1 N2]; subst. destruct (name_char_plain c N1) as (A & B & C). cbn [chain_fields app]. rewrite A, B, C.
    destruct (i >=? MAX_LINE_LEN); [now left|]. destruct (IH s (cur ++ [c]) (i + 1) j fs N2) as [E|E]; [now left|right].
    rewrite E, <- app_assoc. cbn [app]. rewrite zlen_cons. f_equal. lia.
Qed.
Lemma fields_comma s cur i j fs : j <? FW_NUM_CHAIN_FIELDS = true ->
  chain_fields (","%byte :: s) cur i j fs = Fault \/ chain_fields (","%byte :: s) cur i j fs = chain_fields s [] (i + 1) (j + 1) (fs ++ [cur]).
Proof.
  intros L. cbn [chain_fields]. change (beq ","%byte " "%byte) with false. change (beq ","%byte ","%byte) with true. cbv iota.
  destruct (i >=? MAX_LINE_LEN); [now left|]. rewrite Z.geb_leb. apply Z.ltb_lt in L. destruct (Z.leb_spec FW_NUM_CHAIN_FIELDS j); [lia|now right].
Qed.
Lemma fields_padded f p s i j fs : padded f p -> name_text f ->
  chain_fields (p ++ s) [] i j fs = Fault \/ exists i', chain_fields (p ++ s) [] i j fs = chain_fields s f i' j fs.
Proof.
  intros (a & b & -> & A & B) N. rewrite <- !app_assoc, fields_spaces by auto.
  destruct (fields_name f (b ++ s) [] i j fs N) as [E|E]; [now left|right]. rewrite E, fields_spaces by auto. cbn [app]. eauto.
Qed.
Lemma fields_list names : forall texts i j fs, Forall2 padded names texts -> Forall name_text names -> names <> [] ->
  j + zlen names - 1 = FW_NUM_CHAIN_FIELDS -> 1 <= j ->
  chain_fields (join ($ ",") texts) [] i j fs = Fault \/ chain_fields (join ($ ",") texts) [] i j fs = Ok (Some (fs ++ names)).
Proof.
  induction names as [|n names IH]; intros texts i j fs F N NE J P; [congruence|].
  inversion F as [|? t ? r F1 F2]; subst. inversion N as [|? ? N1 N2]; subst. rewrite zlen_cons in J.
  destruct r as [|t2 r].
  - inversion F2; subst. cbn [join]. rewrite zlen_nil in J. rewrite <- (app_nil_r t).
    destruct (fields_padded n t [] i j fs F1 N1) as [E|(i' & E)]; [now left|right]. rewrite E. cbn [chain_fields].
    replace (j =? FW_NUM_CHAIN_FIELDS) with true by (symmetry; apply Z.eqb_eq; lia). reflexivity.
  - destruct names as [|n2 names]; [inversion F2|]. change (join ($ ",") (t :: t2 :: r)) with (t ++ ","%byte :: join ($ ",") (t2 :: r)).
    destruct (fields_padded n t (","%byte :: join ($ ",") (t2 :: r)) i j fs F1 N1) as [E|(i' & E)]; [now left|]. rewrite E.
    rewrite zlen_cons in J. pose proof (zlen_nonneg names) as ZN.
    destruct (fields_comma (join ($ ",") (t2 :: r)) n i' j fs) as [E2|E2]; [apply Z.ltb_lt; lia|now left|]. rewrite E2.
    destruct (IH (t2 :: r) (i' + 1) (j + 1) (fs ++ [n])) as [E3|E3]; [auto|auto|congruence|rewrite zlen_cons; lia|lia|now left|right].
    rewrite E3, <- app_assoc. reflexivity.
Qed.
Lemma set_chain_written v c : set_fw_chain_conf v = Ok (Some c) -> as_written v c.
Proof.
  intros E target table from jump to (fs & js & ps & p & -> & F & N & IJ & RJ & IP & RP) L. revert E. unfold set_fw_chain_conf.
  assert (NT : Forall name_text [target; table; from; js; to; ps]).
  { rewrite Forall_forall in *. intros x I. apply N. cbn in *. tauto. }
  destruct (fields_list _ fs 0 1 [] F NT ltac:(congruence) ltac:(reflexivity) ltac:(lia)) as [E|E]; rewrite E; cbn [bind app]; [discriminate|].
  destruct (strtol_wrapper js 0 RCHK_MAX_IPT_RULE_NUM) as [x e] eqn:EJ. destruct (strtol_wrapper ps 0 RCHK_MAX_IPT_RULE_NUM) as [y e2] eqn:EP.
  destruct e; try discriminate. destruct e2; try discriminate. intros X. injection X as <-.
  apply (strtol_wrapper_iff js 0 RCHK_MAX_IPT_RULE_NUM jump IJ ltac:(lia) ltac:(discriminate) x) in EJ. destruct EJ as [-> _].
  cbn [c_target c_table c_from c_jump c_to]. inversion L as [|? ? L1 L2]; subst. inversion L2 as [|? ? L3 L4]; subst. inversion L4 as [|? ? L5 L6]; subst. inversion L6 as [|? ? L7 _]; subst.
  rewrite !ztake_all by (unfold MAX_NAME_LEN; lia). auto.
Qed.

(** ** Checked settings *)
Definition commas (s : bytes) : Z := Z.of_nat (count_occ Byte.byte_eq_dec s ","%byte).
Lemma commas_cons c s : commas (c :: s) = (if beq c ","%byte then 1 else 0) + commas s.
Proof.
  unfold commas. cbn [count_occ]. destruct (Byte.byte_eq_dec c ","%byte) as [->|N].
  - change (beq ","%byte ","%byte) with true. cbv iota. lia.
  - apply beq_neq in N. rewrite N. lia.
Qed.
Lemma commas_nonneg s : 0 <= commas s.
Proof. unfold commas. lia. Qed.
Lemma chain_char_b c : beq c " "%byte || beq c ","%byte || beq c "_"%byte || isalnum c = true <-> chain_char c.
Proof.
  unfold chain_char. rewrite !orb_true_iff, !beq_eq, isalnum_lod. cbn [In]. split; [intros [[[-> | ->]| ->]|]; auto 6|].
  intros [L|[<-|[<-|[<-|[]]]]]; auto.
Qed.
Lemma validate_loop_iff s : forall j, validate_loop s j = true <-> Forall chain_char s /\ j + commas s = 6.
Proof.
  induction s as [|c s IH]; intros j; cbn [validate_loop].
  - change (commas []) with 0. rewrite Z.eqb_eq. unfold FW_NUM_CHAIN_FIELDS. split; [intros ->; auto|intros [_ E]; lia].
  - cbv zeta. rewrite commas_cons. destruct (beq c " "%byte || beq c ","%byte || beq c "_"%byte || isalnum c) eqn:C.
    + apply chain_char_b in C. rewrite IH. destruct (beq c ","%byte); (split; intros [A B]; split; [|lia|inversion A; auto|lia]); auto.
    + split; [discriminate|]. intros [F _]. inversion F; subst. exfalso. apply Bool.not_true_iff_false in C. apply C. now apply chain_char_b.
Qed.
Lemma validate_iff v : validate_ipt_chain_conf v = true <-> chain_shape v.
Proof.
  unfold validate_ipt_chain_conf, chain_shape. rewrite validate_loop_iff. unfold commas.
  split; intros [A B]; split; auto; lia.
Qed.
Lemma fields_safe s : forall cur i j fs, Forall chain_char s -> j + commas s = 6 -> i + zlen s <= 1023 -> chain_fields s cur i j fs <> Fault.
Proof.
  induction s as [|c s IH]; intros cur i j fs F C L; cbn [chain_fields]; [discriminate|].
  inversion F as [|? ? F1 F2]; subst. rewrite zlen_cons in L. pose proof (zlen_nonneg s) as Z0. rewrite commas_cons in C. pose proof (commas_nonneg s) as C0.
  destruct (beq c " "%byte) eqn:B1. { apply beq_eq in B1. subst c. cbn in C. apply IH; auto; lia. }
  destruct (i >=? MAX_LINE_LEN) eqn:G. { rewrite Z.geb_leb in G. apply Z.leb_le in G. unfold MAX_LINE_LEN in G. lia. }
  destruct (beq c ","%byte) eqn:B2.
  - destruct (j >=? FW_NUM_CHAIN_FIELDS) eqn:J. { rewrite Z.geb_leb in J. apply Z.leb_le in J. unfold FW_NUM_CHAIN_FIELDS in J. lia. }
    apply IH; auto; lia.
  - destruct (beq c "_"%byte || isalnum c); [apply IH; auto; lia|discriminate].
Qed.
Lemma set_chain_safe v : chain_shape v -> zlen v <= 1023 -> set_fw_chain_conf v <> Fault.
Proof.
  intros [F C] L. unfold set_fw_chain_conf. destruct (chain_fields v [] 0 1 []) as [o|] eqn:E; cbn [bind].
  - destruct o as [[|? [|? [|? [|js [|? [|ps [|? ?]]]]]]]|]; try discriminate.
    destruct (strtol_wrapper js 0 RCHK_MAX_IPT_RULE_NUM) as [? []]; try discriminate.
    destruct (strtol_wrapper ps 0 RCHK_MAX_IPT_RULE_NUM) as [? []]; discriminate.
  - exfalso. revert E. apply fields_safe; [exact F|unfold commas; lia|lia].
Qed.
Lemma count_join names : forall texts, Forall2 padded names texts -> Forall name_text names -> texts <> [] ->
  Forall chain_char (join ($ ",") texts) /\ commas (join ($ ",") texts) = zlen texts - 1.
Proof.
  assert (CA : forall a b, commas (a ++ b) = commas a + commas b).
  { intros a b. induction a as [|c a IH]; [reflexivity|]. cbn [app]. rewrite !commas_cons, IH. lia. }
  assert (C0 : forall a, Forall (fun c => c <> ","%byte) a -> commas a = 0).
  { intros a F. induction F as [|c a H _ IH]; [reflexivity|]. rewrite commas_cons, IH. apply beq_neq in H. now rewrite H. }
  assert (PC : forall n t, padded n t -> name_text n -> Forall chain_char t /\ commas t = 0).
  { intros n t (a & b & -> & A & B) N. split.
    - rewrite !Forall_app. split; [|split].
      + eapply Forall_impl; [|exact A]. intros c <-. right. cbn. auto.
      + eapply Forall_impl; [|exact N]. intros c [H| ->]; [now left|right; cbn; auto].
      + eapply Forall_impl; [|exact B]. intros c <-. right. cbn. auto.
    - apply C0. rewrite !Forall_app. split; [|split].
      + eapply Forall_impl; [|exact A]. intros c <-. discriminate.
      + eapply Forall_impl; [|exact N]. intros c H. apply name_char_plain in H. destruct H as (_ & H & _). now apply beq_neq.
      + eapply Forall_impl; [|exact B]. intros c <-. discriminate. }
  induction names as [|n names IH]; intros texts F N NE; inversion F as [|? t ? r F1 F2]; subst; [congruence|].
  inversion N as [|? ? N1 N2]; subst. destruct (PC _ _ F1 N1) as [P1 P2]. rewrite zlen_cons. destruct r as [|t2 r].
  - cbn [join]. split; [auto|change (zlen (@nil bytes)) with 0; lia].
  - change (join ($ ",") (t :: t2 :: r)) with (t ++ ($ "," ++ join ($ ",") (t2 :: r))). destruct (IH (t2 :: r) F2 N2 ltac:(congruence)) as [Q1 Q2].
    split.
    + rewrite !Forall_app. split; [auto|]. split; [|auto]. constructor; [|constructor]. right. cbn. auto.
    + rewrite !CA, P2, Q2. change (commas ($ ",")) with 1. lia.
Qed.
Lemma forall2_len {A B} (R : A -> B -> Prop) l m : Forall2 R l m -> zlen l = zlen m.
Proof. induction 1; [reflexivity|]. rewrite !zlen_cons. lia. Qed.
Lemma line_shape v target table from jump to : chain_line v target table from jump to -> chain_shape v.
Proof.
  intros (fs & js & ps & p & -> & F & N & _).
  assert (NT : Forall name_text [target; table; from; js; to; ps]).
  { rewrite Forall_forall in *. intros x I. apply N. cbn in *. tauto. }
  assert (NE : fs <> []) by (intros ->; inversion F).
  destruct (count_join _ fs F NT NE) as [A B]. split; [exact A|]. pose proof (forall2_len _ _ _ F) as L. unfold commas in B. change (6 = zlen fs) in L. lia.
Qed.
Lemma set_chain_accepts v target table from jump to : chain_line v target table from jump to -> zlen v <= 1023 ->
  exists c, set_fw_chain_conf v = Ok (Some c).
Proof.
  intros CL L. pose proof (set_chain_safe v (line_shape _ _ _ _ _ _ CL) L) as SF.
  destruct CL as (fs & js & ps & p & -> & F & N & IJ & RJ & IP & RP). revert SF. unfold set_fw_chain_conf.
  assert (NT : Forall name_text [target; table; from; js; to; ps]).
  { rewrite Forall_forall in *. intros x I. apply N. cbn in *. tauto. }
  destruct (fields_list _ fs 0 1 [] F NT ltac:(congruence) ltac:(reflexivity) ltac:(lia)) as [E|E]; rewrite E; cbn [bind app]; [congruence|]. intros _.
  rewrite (proj2 (strtol_wrapper_iff js 0 RCHK_MAX_IPT_RULE_NUM jump IJ ltac:(lia) ltac:(discriminate) jump) (conj eq_refl RJ)).
  rewrite (proj2 (strtol_wrapper_iff ps 0 RCHK_MAX_IPT_RULE_NUM p IP ltac:(lia) ltac:(discriminate) p) (conj eq_refl RP)). eauto.
Qed.

(** ** Entries *)
Fixpoint assoc (n : bytes) (l : list (bytes * bytes)) : option bytes :=
  match l with [] => None | (m, v) :: r => if bseq n m then Some v else assoc n r end.
Lemma set_entry_at n v cf m : set_entry n v cf m = if bseq m n then Some v else cf m.
Proof. reflexivity. Qed.
Lemma set_defaults_at l : forall cf n, set_defaults l cf n = match cf n with Some v => Some v | None => assoc n l end.
Proof.
  unfold set_defaults. induction l as [|[m v] l IH]; intros cf n; cbn [fold_left assoc fst snd]; [destruct (cf n); reflexivity|].
  rewrite IH. unfold set_default. destruct (cf m) as [u|] eqn:E.
  - destruct (cf n) as [w|] eqn:F; [reflexivity|]. destruct (bseq n m) eqn:B; [|reflexivity]. apply bseq_eq in B. congruence.
  - rewrite set_entry_at. destruct (bseq n m) eqn:B; [apply bseq_eq in B; subst m; rewrite E; reflexivity|reflexivity].
Qed.
(** The entries that depend on others *)
Definition derived : list bytes := [ $ "FWKNOP_PID_FILE"; $ "DIGEST_FILE"; $ "ENABLE_SPA_PACKET_AGING" ].
Lemma derived_not n m : ~ In n derived -> In m derived -> bseq n m = false.
Proof. intros N I. apply Bool.not_true_iff_false. intros E. apply bseq_eq in E. congruence. Qed.
Lemma set_path_at n name cf cf' m : set_path n name cf = Goes cf' -> bseq m n = false -> cf' m = cf m.
Proof.
  unfold set_path. destruct (cf n). { intros E _; injection E as <-; reflexivity. }
  destruct (cf ($ "FWKNOP_RUN_DIR")) as [dir|]; [|discriminate]. destruct (run_path name dir); cbn [of_outcome rrun]; [|discriminate].
  intros E B. injection E as <-. rewrite set_entry_at, B. reflexivity.
Qed.
Lemma set_default_at n v cf m : set_default n v cf m = if bseq m n then (match cf n with Some u => Some u | None => Some v end) else cf m.
Proof.
  unfold set_default. destruct (cf n) as [u|] eqn:E.
  - destruct (bseq m n) eqn:B; [apply bseq_eq in B; subst; exact E|reflexivity].
  - rewrite set_entry_at. reflexivity.
Qed.
Lemma check_chain_goes l cf u : check_chain_settings l cf = Goes u -> forall n, In n l -> exists v, cf n = Some v /\ chain_shape v.
Proof.
  induction l as [|m l IH]; cbn [check_chain_settings]; intros E n I; [destruct I|]. revert E. unfold entry.
  destruct (cf m) as [v|] eqn:F; cbn [rrun]; [|discriminate]. destruct (validate_ipt_chain_conf v) eqn:V; [|discriminate]. intros E.
  destruct I as [<-|I]; [|auto]. exists v. split; [exact F|now apply validate_iff].
Qed.
Lemma options_at b cf cf' ns : validate_options b cf = Goes (cf', ns) ->
  (forall n, ~ In n derived -> cf' n = match cf n with Some v => Some v | None => assoc n (defaults b) end) /\
  (forall n, In n chain_settings -> exists v, cf' n = Some v /\ chain_shape v) /\ cf' ($ "FIREWALL_EXE") <> None /\
  validate_int_var_ranges cf' = Ok (Some ns) /\
  (yes (text (cf' ($ "ENABLE_IPT_SNAT"))) = true -> forall ip, cf' ($ "SNAT_TRANSLATE_IP") = Some ip -> is_valid_ipv4_addr ip (zlen ip) = true).
Proof.
  unfold validate_options. cbv zeta.
  destruct (set_path ($ "FWKNOP_PID_FILE") _ _) as [cf1| |] eqn:E1; cbn [rrun]; try discriminate.
  destruct (set_path ($ "DIGEST_FILE") _ _) as [cf2| |] eqn:E2; cbn [rrun]; try discriminate.
  set (cf3 := set_default _ _ cf2). unfold entry. destruct (cf3 ($ "ENABLE_IPT_SNAT")) as [sn|] eqn:ES; cbn [rrun]; [|discriminate].
  destruct (yes sn && _) eqn:SV; [discriminate|].
  destruct (check_chain_settings chain_settings cf3) as [[]| |] eqn:EC; cbn [rrun]; try discriminate.
  destruct (validate_int_var_ranges cf3) as [[ns'|]|] eqn:EN; cbn [of_outcome rrun]; try discriminate.
  destruct (cf3 ($ "FIREWALL_EXE")) eqn:EF; [|discriminate]. intros X. injection X as <- <-. split; [|split; [|split; [|split]]].
  - intros n N. unfold cf3. rewrite set_default_at. rewrite (derived_not n _ N) by (cbn; auto).
    rewrite (set_path_at _ _ _ _ n E2) by (apply derived_not; [exact N|cbn; auto]).
    rewrite (set_path_at _ _ _ _ n E1) by (apply derived_not; [exact N|cbn; auto]). apply set_defaults_at.
  - exact (check_chain_goes _ _ _ EC).
  - rewrite EF. discriminate.
  - exact EN.
  - rewrite ES. cbn [text]. intros Y ip EI. rewrite Y in SV. cbn [andb] in SV. rewrite EI in SV. now apply negb_false_iff.
Qed.

(** ** Chains *)
Lemma one_chain_goes cf n c : one_chain cf n = Goes c -> exists v, cf n = Some v /\ as_written v c.
Proof.
  unfold one_chain, entry. destruct (cf n) as [v|] eqn:E; cbn [rrun]; [|discriminate].
  destruct (set_fw_chain_conf v) as [[x|]|] eqn:S; cbn [of_outcome rrun]; try discriminate. intros X. injection X as <-.
  exists v. split; [reflexivity|now apply set_chain_written].
Qed.
Lemma some_chain_goes b cf n c : some_chain b cf n = Goes c -> if b then exists v, cf n = Some v /\ as_written v c else c = no_chain.
Proof. destruct b; cbn [some_chain]; [apply one_chain_goes|]. intros X. now injection X as <-. Qed.

Lemma init_at cf fc cs : fw_config_init cf = Goes (fc, cs) ->
  exists exe o f l sn d pre dns c0 c1 c2 c3 c4 c5,
    cf ($ "FIREWALL_EXE") = Some exe /\ cf ($ "ENABLE_IPT_OUTPUT") = Some o /\ cf ($ "ENABLE_IPT_FORWARDING") = Some f /\
    cf ($ "ENABLE_IPT_LOCAL_NAT") = Some l /\ cf ($ "ENABLE_IPT_SNAT") = Some sn /\ cf ($ "ENABLE_DESTINATION_RULE") = Some d /\
    cf ($ "ENABLE_RULE_PREPEND") = Some pre /\ cf ($ "ENABLE_NAT_DNS") = Some dns /\ cs = [c0; c1; c2; c3; c4; c5] /\
    some_chain true cf ($ "IPT_INPUT_ACCESS") = Goes c0 /\ some_chain (yes o) cf ($ "IPT_OUTPUT_ACCESS") = Goes c1 /\
    some_chain (yes f || yes l) cf ($ "IPT_FORWARD_ACCESS") = Goes c2 /\ some_chain (yes f || yes l) cf ($ "IPT_DNAT_ACCESS") = Goes c3 /\
    some_chain ((yes f || yes l) && yes sn) cf ($ "IPT_SNAT_ACCESS") = Goes c4 /\
    some_chain ((yes f || yes l) && yes sn) cf ($ "IPT_MASQUERADE_ACCESS") = Goes c5 /\
    fc = mkFw (ztake (MAX_PATH_LEN - 1) exe) (yes pre) (yes d) (yes sn) (text (cf ($ "SNAT_TRANSLATE_IP"))) (yes dns).
Proof.
  unfold fw_config_init, entry. cbv zeta.
  destruct (cf ($ "FIREWALL_EXE")) as [exe|] eqn:E1; cbn [rrun]; [|discriminate].
  destruct (one_chain cf ($ "IPT_INPUT_ACCESS")) as [c0| |] eqn:C0; cbn [rrun]; try discriminate.
  destruct (cf ($ "ENABLE_IPT_OUTPUT")) as [o|] eqn:E2; cbn [rrun]; [|discriminate].
  destruct (some_chain (yes o) cf ($ "IPT_OUTPUT_ACCESS")) as [c1| |] eqn:C1; cbn [rrun]; try discriminate.
  destruct (cf ($ "ENABLE_IPT_FORWARDING")) as [f|] eqn:E3; cbn [rrun]; [|discriminate].
  destruct (cf ($ "ENABLE_IPT_LOCAL_NAT")) as [l|] eqn:E4; cbn [rrun]; [|discriminate].
  destruct (some_chain (yes f || yes l) cf ($ "IPT_FORWARD_ACCESS")) as [c2| |] eqn:C2; cbn [rrun]; try discriminate.
  destruct (some_chain (yes f || yes l) cf ($ "IPT_DNAT_ACCESS")) as [c3| |] eqn:C3; cbn [rrun]; try discriminate.
  destruct (cf ($ "ENABLE_IPT_SNAT")) as [sn|] eqn:E5; cbn [rrun]; [|discriminate].
  destruct (some_chain ((yes f || yes l) && yes sn) cf ($ "IPT_MASQUERADE_ACCESS")) as [c5| |] eqn:C5; cbn [rrun]; try discriminate.
  destruct (some_chain ((yes f || yes l) && yes sn) cf ($ "IPT_SNAT_ACCESS")) as [c4| |] eqn:C4; cbn [rrun]; try discriminate.
  destruct (cf ($ "ENABLE_DESTINATION_RULE")) as [d|] eqn:E6; cbn [rrun]; [|discriminate].
  destruct (cf ($ "ENABLE_RULE_PREPEND")) as [pre|] eqn:E7; cbn [rrun]; [|discriminate].
  destruct (cf ($ "ENABLE_NAT_DNS")) as [dns|] eqn:E8; cbn [rrun]; [|discriminate].
  intros X. injection X as <- <-. exists exe, o, f, l, sn, d, pre, dns, c0, c1, c2, c3, c4, c5. repeat (split; [solve [reflexivity|assumption]|]). reflexivity.
Qed.
