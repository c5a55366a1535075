(** Whatever the access files say, the stanzas loaded have timeouts within limits, a key where one
    is used, and NAT addresses that are addresses. *)
From Verif Require Import Bytes S_text S_access S_conf S_incoming M_base64 M_util M_message M_codec M_access M_replay M_cycle M_packet M_incoming M_conf M_accfile S_accfile.
From Verif Require Import P_bytes P_util P_util2 P_access P_codec P_replay P_conf P_incoming2 P_incoming5.
From Coq Require Import Init.Byte List ZArith Bool Lia.
Import ListNotations.
Open Scope Z_scope.

Record sane (ok : bool) (a : acc) : Prop := mkSane {
  sane_key : ints a i_use_rijndael <> 0 -> strs a s_key <> None;
  sane_fw : 0 <= ints a i_fw_timeout <= 8388608;
  sane_max : 0 <= ints a i_max_timeout <= 8388608;
  sane_nat : ints a i_nat <> 0 -> strs a s_nat_ip <> None;
  sane_ip : forall ip, strs a s_nat_ip = Some ip -> address_text ip;
  sane_port : 0 <= ints a i_nat_port <= 65535;
  sane_snat : forall ip, strs a s_snat_ip = Some ip -> zlen ip <= 15;
  sane_need : ok = false -> strs a s_snat_ip = None /\ (strs a s_nat_ip = None \/ strs a s_nat_ip = Some ($ "0.0.0.0")) }.
Definition saney (ok : bool) (a b : acc) : Prop := sane ok a -> sane ok b.
Lemma sane_new ok v : sane ok (set_s s_source v new_acc).
Proof. constructor; cbn; try lia; try congruence; try (intros ip E; discriminate). auto. Qed.

Lemma take_word_len n : forall s w t, take_word n s = (w, t) -> zlen w <= Z.of_nat n.
Proof.
  induction n as [|n IH]; intros s w t; cbn [take_word]; [intros E; injection E as <- <-; rewrite zlen_nil; lia|].
  destruct s as [|c r]; [intros E; injection E as <- <-; rewrite zlen_nil; lia|]. destruct (isspace c); [intros E; injection E as <- <-; rewrite zlen_nil; lia|].
  destruct (take_word n r) as [x y] eqn:F. intros E; injection E as <- <-. rewrite zlen_cons. apply IH in F. lia.
Qed.
Lemma scan_word_len v w t : scan_word 15 v = Some (w, t) -> zlen w <= 15.
Proof.
  unfold scan_word. destruct (take_word 15 (skip_space v)) as [x y] eqn:F. apply take_word_len in F. destruct x; [discriminate|]. intros E; injection E as <- <-. exact F.
Qed.
Ltac setter := intros [sK sF sM sN sI sP sS sO]; constructor; cbn [strs ints set_s set_i sfield_beq ifield_beq]; try assumption.
Lemma force_nat_sane ok v a a' : ok = true \/ v = $ "0.0.0.0 0" -> acc_force_nat v a = Some a' -> saney ok a a'.
Proof.
  intros OK. unfold acc_force_nat. destruct (scan_word 15 v) as [[ip r]|] eqn:W; cbn [obind]; [|discriminate].
  assert (Z : v = $ "0.0.0.0 0" -> ip = $ "0.0.0.0") by (intros ->; vm_compute in W; now injection W as <- _). apply scan_word_len in W.
  destruct (scan_num_n 5 r) as [[p q]|]; cbn [obind]; [|discriminate]. cbv zeta. destruct (65535 <? u32 p) eqn:L; [discriminate|].
  destruct (is_valid_ipv4_addr ip (zlen ip)) eqn:V; cbn [negb]; [|discriminate]. intros E. assert (E' := f_equal (fun x => match x with Some y => y | None => a end) E). cbn in E'. subst a'.
  apply Z.ltb_ge in L. assert (R : 0 <= u32 p) by (unfold u32; apply Z.mod_pos_bound; reflexivity). setter.
  - intros _. discriminate.
  - intros ip' E'. injection E' as <-. now apply address_iff.
  - lia.
  - intros X. destruct (sO X) as (A & _). split; [exact A|]. right. destruct OK as [Y|Y]; [congruence|]. now rewrite (Z Y).
Qed.
Lemma force_snat_sane ok v a a' : ok = true -> acc_force_snat v a = Some a' -> saney ok a a'.
Proof.
  intros OK. unfold acc_force_snat. destruct (scan_word 15 v) as [[ip r]|] eqn:W; cbn [obind]; [|discriminate]. apply scan_word_len in W.
  destruct (is_valid_ipv4_addr ip (zlen ip)) eqn:V; cbn [negb]; [|discriminate]. intros E. assert (E' := f_equal (fun x => match x with Some y => y | None => a end) E). cbn in E'. subst a'.
  setter; [|intros X; congruence]. intros ip' E'. injection E' as <-. exact W.
Qed.

Definition keeps (act : action) : Prop := forall y v w w', act y v w = Done w' -> saney (nat_enabled y) (w_acc w) (w_acc w').
Lemma keeps_str f : f <> s_key -> f <> s_nat_ip -> f <> s_snat_ip -> keeps (a_str f).
Proof.
  intros A B C y v w w' E. unfold a_str, on_acc in E. assert (E' := f_equal (fun x => match x with Done y => y | _ => w end) E). cbn in E'. subst w'. cbn [w_acc put_acc].
  destruct f; try congruence; setter.
Qed.
Lemma keeps_bool f : ~ In f [i_use_rijndael; i_fw_timeout; i_max_timeout; i_nat; i_nat_port] -> keeps (a_bool f).
Proof.
  intros A y v w w' E. unfold a_bool, on_acc in E. assert (E' := f_equal (fun x => match x with Done y => y | _ => w end) E). cbn in E'. subst w'. cbn [w_acc put_acc].
  destruct f; try (exfalso; apply A; cbn; tauto); setter.
Qed.
Ltac done E := match type of E with Done ?x = Done ?y => let E' := fresh in assert (E' := f_equal (fun r => match r with Done z => z | _ => x end) E); cbn beta iota in E'; subst y; cbn [w_acc put_acc] end.
Lemma keeps_key : keeps a_key.
Proof. intros y v w w' E. unfold a_key in E. destruct (changeme v); [discriminate|]. done E. setter. intros _. discriminate. Qed.
Lemma keeps_key64 : keeps a_key_base64.
Proof.
  intros y v w w' E. unfold a_key_base64 in E. destruct (changeme v); [discriminate|]. destruct (negb _); [discriminate|]. destruct (b64_decode v); [|discriminate].
  done E. setter. intros _. discriminate.
Qed.
Lemma keeps_hmac64 : keeps a_hmac_key_base64.
Proof.
  intros y v w w' E. unfold a_hmac_key_base64 in E. destruct (changeme v); [discriminate|]. destruct (negb _); [discriminate|]. destruct (b64_decode v); [|discriminate].
  done E. setter.
Qed.
Lemma keeps_hmac : keeps a_hmac_key.
Proof. intros y v w w' E. unfold a_hmac_key in E. destruct (changeme v); [discriminate|]. done E. setter. Qed.
Lemma keeps_hmac_type : keeps a_hmac_type.
Proof. intros y v w w' E. unfold a_hmac_type in E. cbv zeta in E. destruct (_ <? 0); [discriminate|]. done E. setter. Qed.
Lemma keeps_mode : keeps a_mode.
Proof. intros y v w w' E. unfold a_mode in E. cbv zeta in E. destruct (_ <? 0); [discriminate|]. done E. setter. Qed.
Lemma keeps_number f lo : 0 <= lo -> In f [i_fw_timeout; i_max_timeout; i_timer] -> keeps (a_number f lo 8388608).
Proof.
  intros L I y v w w' E. unfold a_number in E. destruct (strtol_wrapper v lo 8388608) as [x e] eqn:W. destruct e; cbn [strtol_ok] in E; try discriminate. done E.
  pose proof (strtol_wrapper_range _ _ _ _ W) as R. cbn [In] in I. destruct I as [<-|[<-|[<-|[]]]]; setter; lia.
Qed.
Lemma keeps_user sd f g : f <> s_key -> f <> s_nat_ip -> f <> s_snat_ip -> ~ In g [i_use_rijndael; i_fw_timeout; i_max_timeout; i_nat; i_nat_port] -> keeps (a_user sd f g).
Proof.
  intros A B C D y v w w' E. unfold a_user in E. destruct (y_pw y v) as [[u gr]|]; [|discriminate]. done E.
  destruct g; try (exfalso; apply D; cbn; tauto); destruct f; try congruence; setter.
Qed.
Lemma keeps_group f g : f <> s_key -> f <> s_nat_ip -> f <> s_snat_ip -> ~ In g [i_use_rijndael; i_fw_timeout; i_max_timeout; i_nat; i_nat_port] -> keeps (a_group f g).
Proof.
  intros A B C D y v w w' E. unfold a_group in E. destruct (y_pw y v) as [[u gr]|]; [|discriminate]. done E.
  destruct g; try (exfalso; apply D; cbn; tauto); destruct f; try congruence; setter.
Qed.
Lemma keeps_cycle : keeps a_cycle_open.
Proof. intros y v w w' E. unfold a_cycle_open, on_acc in E. done E. setter. Qed.
Lemma keeps_gpg_home : keeps a_gpg_home.
Proof. intros y v w w' E. unfold a_gpg_home in E. destruct (y_is_dir y v); [|discriminate]. done E. setter. Qed.
Lemma keeps_gpg_pw : keeps a_gpg_pw.
Proof. intros y v w w' E. unfold a_gpg_pw in E. destruct (changeme v); [discriminate|]. done E. setter. Qed.
Lemma keeps_no_pw : keeps a_allow_no_pw.
Proof. intros y v w w' E. unfold a_allow_no_pw, on_acc in E. cbv zeta in E. destruct (acc_bool v =? 1); done E; setter. Qed.
Lemma keeps_expire : keeps a_expire.
Proof. intros y v w w' E. unfold a_expire in E. destruct (acc_expire_time y v); [|discriminate]. done E. setter. Qed.
Lemma keeps_epoch : keeps a_expire_epoch.
Proof. intros y v w w' E. unfold a_expire_epoch in E. destruct (acc_expire_epoch v); [|discriminate]. done E. setter. Qed.
Lemma keeps_force_nat : keeps a_force_nat.
Proof.
  intros y v w w' E. unfold a_force_nat in E. destruct (nat_enabled y) eqn:NE; cbn [negb] in E; [|discriminate]. destruct (acc_force_nat v (w_acc w)) as [a|] eqn:F; [|discriminate]. done E.
  exact (force_nat_sane true _ _ _ (or_introl eq_refl) F).
Qed.
Lemma keeps_force_snat : keeps a_force_snat.
Proof.
  intros y v w w' E. unfold a_force_snat in E. destruct (nat_enabled y) eqn:NE; cbn [negb] in E; [|discriminate]. destruct (acc_force_snat v (w_acc w)) as [a|] eqn:F; [|discriminate]. done E.
  exact (force_snat_sane true _ _ _ eq_refl F).
Qed.
Lemma keeps_masq : keeps a_masquerade.
Proof. intros y v w w' E. unfold a_masquerade, on_acc in E. done E. setter. Qed.

Ltac one := first [exact keeps_key|exact keeps_key64|exact keeps_hmac64|exact keeps_hmac|exact keeps_hmac_type|exact keeps_mode|exact keeps_cycle|exact keeps_gpg_home|exact keeps_gpg_pw
  |exact keeps_no_pw|exact keeps_expire|exact keeps_epoch|exact keeps_force_nat|exact keeps_force_snat|exact keeps_masq
  |apply keeps_str; discriminate|apply keeps_bool; cbn; intuition discriminate|apply keeps_number; [lia|cbn; tauto]
  |apply keeps_user; [discriminate|discriminate|discriminate|cbn; intuition discriminate]|apply keeps_group; [discriminate|discriminate|discriminate|cbn; intuition discriminate]].
Lemma params_keep : Forall (fun e => keeps (snd e)) params.
Proof. unfold params. repeat (apply Forall_cons; [cbn [snd]; one|]). apply Forall_nil. Qed.
Lemma key_params_keep : Forall (fun e => keeps (snd e)) key_params.
Proof. unfold key_params. repeat (apply Forall_cons; [cbn [snd]; one|]). apply Forall_nil. Qed.
Lemma set_param_sane l y n v w w' : Forall (fun e => keeps (snd e)) l -> set_param l y n v w = Done w' -> saney (nat_enabled y) (w_acc w) (w_acc w').
Proof.
  intros F. unfold set_param. destruct (find_param l n) as [a|] eqn:E.
  - assert (K : keeps a).
    { clear - F E. induction F as [|[m b] l H F IH]; cbn [find_param] in E; [discriminate|]. destruct (bseq n m); [injection E as <-; exact H|auto]. }
    apply K.
  - intros X. done X. intros H; exact H.
Qed.
Lemma key_lines_sane y ls : forall w w', key_lines y ls w = Done w' -> saney (nat_enabled y) (w_acc w) (w_acc w').
Proof.
  induction ls as [|l ls IH]; intros w w' E; cbn [key_lines] in E; [done E; intros H; exact H|].
  destruct (is_empty_line _); [eauto|]. destruct (scan_line l) as [[var val]|]; [|done E; intros H; exact H].
  destruct (set_param key_params y (cut_colon var) val w) as [w1| | | |] eqn:S; try discriminate; [|done E; intros H; exact H].
  intros H. eapply IH; [exact E|]. eapply set_param_sane; [exact key_params_keep|exact S|exact H].
Qed.
Lemma include_keys_sane y name w w' : include_keys_file y name w = Done w' -> saney (nat_enabled y) (w_acc w) (w_acc w').
Proof. unfold include_keys_file. destruct (y_file y name); [apply key_lines_sane|]. intros E. done E. intros H; exact H. Qed.

Lemma valid_sane ok pw u sd a a' f : acc_data_is_valid pw u sd a = Some (a', f) -> saney ok a a'.
Proof.
  unfold acc_data_is_valid. destruct (no_keys a); [discriminate|]. cbv zeta. destruct (same_keys _); [discriminate|].
  assert (L : saney ok a (legacy_key a)) by (unfold legacy_key; destruct (_ && _); [setter|intros H; exact H]).
  destruct (check_nat (legacy_key a)) as [b|] eqn:CN; cbn [obind]; [|discriminate].
  assert (N : saney ok (legacy_key a) b).
  { unfold check_nat in CN. destruct (_ && _); [|injection CN as <-; intros H; exact H]. destruct (_ =? 1); [|discriminate]. exact (force_nat_sane ok _ _ _ (or_intror eq_refl) CN). }
  assert (G : saney ok b (fill_gids pw u sd b)).
  { unfold fill_gids. cbv zeta. set (b1 := if u && _ && _ then _ else b). assert (T1 : saney ok b b1) by (unfold b1; destruct (u && _ && _); [setter|intros H; exact H]).
    clearbody b1. destruct (sd && _ && _); [|exact T1]. intros H. specialize (T1 H). revert T1. setter. }
  destruct (check_cycle (fill_gids pw u sd b)) as [c|] eqn:CC; cbn [obind]; [|discriminate].
  assert (C : saney ok (fill_gids pw u sd b) c).
  { unfold check_cycle in CC. destruct (strs _ s_cycle_open), (strs _ s_cycle_close); try discriminate.
    - cbv zeta in CC. destruct (is_prefix _ _).
      + destruct (_ && _); [discriminate|]. destruct (_ || _); [discriminate|]. injection CC as <-. setter.
      + destruct (_ && _); [discriminate|]. destruct (_ || _); [discriminate|]. injection CC as <-. intros H; exact H.
    - injection CC as <-. intros H; exact H. }
  intros E H. assert (E' := f_equal (fun x => match x with Some y => fst y | None => a end) E). cbn in E'. subst a'. auto.
Qed.
Lemma expand_sane ok a a' : expand_acc a = Some a' -> saney ok a a'.
Proof.
  unfold expand_acc. destruct (expand_more _ _ (l_source a)); cbn [obind]; [|discriminate]. destruct (expand_more _ _ (l_dest a)); cbn [obind]; [|discriminate].
  destruct (expand_more _ _ (l_open a)); cbn [obind]; [|discriminate]. destruct (expand_more _ _ (l_restrict a)); cbn [obind]; [|discriminate].
  destruct (expand_more _ _ (l_ids a)); cbn [obind]; [|discriminate]. destruct (expand_more _ _ (l_fprs a)); cbn [obind]; [|discriminate].
  intros E. assert (E' := f_equal (fun x => match x with Some y => y | None => a end) E). cbn in E'. subst a'. setter.
Qed.
Lemma defaults_sane ok y a a' : acc_defaults y a = Some a' -> saney ok a a'.
Proof.
  unfold acc_defaults. cbv zeta.
  set (a1 := if ints a i_fw_timeout <? 1 then _ else a). assert (S1 : saney ok a a1) by (unfold a1; destruct (_ <? 1); [setter; lia|intros H; exact H]).
  clearbody a1. set (a2 := if ints a1 i_max_timeout <? 1 then _ else a1). assert (S2 : saney ok a1 a2) by (unfold a2; destruct (_ <? 1); [setter; lia|intros H; exact H]).
  clearbody a2. match goal with |- context [obind ?x _] => destruct x as [a3|] eqn:EO end; cbn [obind]; [|discriminate].
  assert (S3 : saney ok a2 a3).
  { destruct (isnull (strs a2 s_gpg_decrypt_pw)); [injection EO as <-; intros H; exact H|].
    set (b1 := if isnull (strs a2 s_gpg_home_dir) then _ else a2) in EO. assert (T1 : saney ok a2 b1) by (unfold b1; destruct (isnull _); [setter|intros H; exact H]).
    clearbody b1. set (b2 := if (ints b1 i_require_sig =? 0) && (ints b1 i_disable_sig =? 0) then _ else b1) in EO.
    assert (T2 : saney ok b1 b2) by (unfold b2; destruct ((ints b1 i_require_sig =? 0) && (ints b1 i_disable_sig =? 0)); [setter|intros H; exact H]). clearbody b2.
    destruct (_ && _); [discriminate|]. injection EO as <-. intros H. auto. }
  clear EO. set (a4 := if ints a3 i_mode =? 0 then _ else a3). assert (S4 : saney ok a3 a4) by (unfold a4; destruct (_ =? 0); [setter|intros H; exact H]). clearbody a4.
  intros E. assert (E' := f_equal (fun x => match x with Some y => y | None => a end) E). cbn in E'. subst a'. intros H.
  assert (H4 : sane ok a4) by auto. clear - H4. revert H4. destruct (_ && _ && _); [setter|intros H; exact H].
Qed.

(** ** Files *)
Section Files.
Variable y : system.
Notation ok := (nat_enabled y).
Definition sanes (s : state) : Prop := Forall (sane ok) (st_accs s).
Lemma forall_nth l n : Forall (sane ok) l -> sane ok (nth n l new_acc).
Proof. intros F. destruct (nth_in_or_default n l new_acc) as [I|E]; [rewrite Forall_forall in F; auto|]. rewrite E. constructor; cbn; try lia; try congruence; try (intros ip X; discriminate). auto. Qed.
Lemma forall_replace {A} (P : A -> Prop) x l : forall n, P x -> Forall P l -> Forall P (replace n x l).
Proof. induction l as [|a l IH]; intros [|n] H F; cbn [replace]; auto; inversion F; subst; constructor; auto. Qed.
Lemma forall_removelast {A} (P : A -> Prop) l : Forall P l -> Forall P (removelast l).
Proof. induction 1 as [|a l H F IH]; [constructor|]. cbn [removelast]. destruct l; [constructor|]. constructor; auto. Qed.
Lemma validate_sane n lo s s' : validate n lo s = Some s' -> sanes s -> sanes s'.
Proof.
  unfold validate. destruct (acc_data_is_valid _ _ _ _) as [[a f]|] eqn:V; cbn [obind]; [|discriminate]. intros E F.
  assert (E' := f_equal (fun x => match x with Some y => st_accs y | None => [] end) E). cbn in E'. unfold sanes. rewrite <- E'.
  apply forall_replace; [|exact F]. apply (valid_sane _ _ _ _ _ _ _ V). now apply forall_nth.
Qed.
Definition srec (rec : bytes -> state -> res state) : Prop := forall n s s', rec n s = Done s' -> sanes s -> sanes s'.
Lemma folder_sane rec folder names : srec rec -> forall s s', folder_files rec folder names s = Done s' -> sanes s -> sanes s'.
Proof.
  intros R. induction names as [|n names IH]; intros s s' E F; cbn [folder_files] in E; [injection E as <-; exact F|].
  destruct (extension n) as [e|]; [|eauto]. destruct (is_prefix _ e); [|eauto]. destruct (_ <? _); [discriminate|].
  destruct (rec _ s) as [s1| | | |] eqn:Q; try discriminate. cbn [rbind] in E. eauto.
Qed.
Lemma parse_folder_sane rec folder : srec rec -> forall s s', parse_folder y rec folder s = Done s' -> sanes s -> sanes s'.
Proof. intros R s s'. unfold parse_folder. destruct (y_dir y _); [|discriminate]. now apply folder_sane. Qed.
Lemma entry_sane rec : srec rec -> forall var val lo s lo' s', access_entry y rec var val lo s = Done (lo', s') -> sanes s -> sanes s'.
Proof.
  intros R var val lo s lo' s' E F. unfold access_entry in E.
  destruct (bseq var ($ "%include")).
  { destruct (_ <? 3); [|discriminate]. destruct (rec val s) as [s1| | | |] eqn:Q; try discriminate. cbn [rbind] in E. injection E as <- <-. eauto. }
  destruct (bseq var ($ "%include_folder")).
  { destruct (parse_folder y rec val s) as [s1| | | |] eqn:Q; try discriminate. cbn [rbind] in E. injection E as <- <-. eapply parse_folder_sane; eauto. }
  destruct (bseq var ($ "SOURCE")).
  { destruct (match lo_curr lo with Some n => validate n lo s | None => Some s end) as [s1|] eqn:V; [|discriminate]. injection E as <- <-.
    assert (F1 : sanes s1) by (destruct (lo_curr lo); [eapply validate_sane; eauto|injection V as <-; exact F]).
    unfold sanes, put_accs. cbn [st_accs]. apply Forall_app. split; [exact F1|]. constructor; [apply sane_new|constructor]. }
  destruct (lo_curr lo) as [n|]; [|injection E as <- <-; exact F].
  destruct (bseq var ($ "%include_keys")).
  - destruct (include_keys_file y val (work_of n lo s)) as [w| | | |] eqn:Q; try discriminate. cbn [rbind put_work] in E.
    apply include_keys_sane in Q. cbn [work_of w_acc] in Q. pose proof (Q (forall_nth _ n F)) as SW.
    assert (F2 : sanes (mkState (replace n (w_acc w) (st_accs s)) (st_fw s) (st_depth s) (w_pw w))) by (unfold sanes; cbn [st_accs]; now apply forall_replace).
    destruct (validate n _ _) as [s1|] eqn:V.
    + injection E as <- <-. eapply validate_sane; eauto.
    + injection E as <- <-. unfold sanes, put_accs. cbn [st_accs]. apply forall_removelast. exact F2.
  - destruct (set_param params y var val (work_of n lo s)) as [w| | | |] eqn:Q; try discriminate. cbn [rbind] in E. injection E as <- <-.
    apply (set_param_sane _ _ _ _ _ _ params_keep) in Q. cbn [work_of w_acc] in Q. unfold sanes. cbn [st_accs]. apply forall_replace; [|exact F]. apply Q. now apply forall_nth.
Qed.
Lemma lines_sane rec : srec rec -> forall ls lo s lo' s', access_lines y rec ls lo s = Done (lo', s') -> sanes s -> sanes s'.
Proof.
  intros R. induction ls as [|l ls IH]; intros lo s lo' s' E F; cbn [access_lines] in E; [injection E as <- <-; exact F|].
  unfold access_line in E. destruct (is_empty_line _); cbn [rbind] in E; [eauto|]. destruct (scan_line l) as [[var val]|]; cbn [rbind] in E; [|discriminate].
  destruct (access_entry y rec _ _ lo s) as [[lo1 s1]| | | |] eqn:Q; try discriminate. cbn [rbind] in E. eapply IH; [exact E|]. eapply entry_sane; eauto.
Qed.
Lemma finish_sane lo s s' : finish y lo s = Done s' -> sanes s -> sanes s'.
Proof.
  intros E F. unfold finish in E. cbv zeta in E. set (s0 := put_depth _ s) in E. assert (F0 : sanes s0) by exact F. clearbody s0.
  destruct (match lo_curr lo with Some n => validate n lo s0 | None => Some s0 end) as [s1|] eqn:V; [|discriminate].
  assert (F1 : sanes s1) by (destruct (lo_curr lo); [eapply validate_sane; eauto|injection V as <-; exact F0]).
  destruct (_ =? 0); [|injection E as <-; exact F1].
  assert (K : (match M_accfile.expand_all (st_accs s1) with
      | Some l => match defaults_all y l with Some l0 => Done (put_accs l0 s1) | None => Exited end | None => Exited end) = Done s')
    by (destruct (lo_curr lo); [exact E|]; destruct (st_accs s1); [discriminate|exact E]).
  destruct (M_accfile.expand_all (st_accs s1)) as [l|] eqn:X; [|discriminate]. destruct (defaults_all y l) as [l0|] eqn:D; [|discriminate]. injection K as <-.
  unfold sanes, put_accs. cbn [st_accs]. unfold sanes in F1. clear - X D F1. revert l l0 X D. induction F1 as [|a r H F IH]; intros l l0 X D; cbn [M_accfile.expand_all] in X.
  - injection X as <-. injection D as <-. constructor.
  - destruct (expand_acc a) as [b|] eqn:EA; cbn [obind] in X; [|discriminate]. destruct (M_accfile.expand_all r) as [t|]; cbn [obind] in X; [|discriminate]. injection X as <-.
    cbn [defaults_all] in D. destruct (acc_defaults y b) as [c|] eqn:DA; cbn [obind] in D; [|discriminate]. destruct (defaults_all y t) as [t'|] eqn:DT; cbn [obind] in D; [|discriminate].
    injection D as <-. constructor; [|eauto]. exact (defaults_sane _ _ _ _ DA (expand_sane _ _ _ EA H)).
Qed.
Lemma file_sane fuel : forall name s s', parse_access_file fuel y name s = Done s' -> sanes s -> sanes s'.
Proof.
  induction fuel as [|k IH]; intros name s s' E F; cbn [parse_access_file] in E; [discriminate|].
  destruct (y_file y name) as [text|]; [|discriminate]. cbv zeta in E.
  destruct (access_lines y (parse_access_file k y) (file_lines text) (mkLocal None false false) (put_depth (st_depth s + 1) s)) as [[lo s1]| | | |] eqn:Q; try discriminate.
  cbn [rbind] in E. eapply finish_sane; [exact E|]. eapply lines_sane; [|exact Q|exact F]. intros n a b. apply IH.
Qed.
Lemma load_sane fuel name folder l fw : load_access fuel y name folder = Done (l, fw) -> Forall (sane ok) l.
Proof.
  unfold load_access. destruct folder as [f|].
  - destruct (parse_access_folder fuel y f start) as [s| | | |] eqn:Q; try discriminate. cbn [rbind]. destruct (valid_access_stanzas _); [|discriminate].
    intros E. injection E as <- _. eapply parse_folder_sane; [|exact Q|constructor]. intros n a b. apply file_sane.
  - destruct (parse_access_file fuel y name start) as [s| | | |] eqn:Q; try discriminate. cbn [rbind]. destruct (valid_access_stanzas _); [|discriminate].
    intros E. injection E as <- _. eapply file_sane; [exact Q|constructor].
Qed.
End Files.
