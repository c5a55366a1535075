(** Proofs about the reading of access.conf: the checks and defaults of a stanza. *)
From Verif Require Import Bytes M_base64 M_util M_message M_codec M_access M_replay M_cycle M_incoming M_conf M_accfile
  S_text S_base64 S_conf S_accfile P_bytes P_base64 P_util P_util2 P_access P_replay P_conf P_accfile P_accfile2.
From Verif Require T_access.
From Coq Require Import Init.Byte List ZArith Bool Lia.
Import ListNotations.
Open Scope Z_scope.

Local Ltac ands := repeat match goal with |- _ /\ _ => split end.

(** ** Raw stanzas *)
Definition bit (z : Z) : Prop := z = 0 \/ z = 1.
Record inv (a : acc) : Prop := mkInv {
  inv_key : forall k, strs a s_key = Some k -> ints a i_key_len = zlen k /\ ints a i_use_rijndael = 1;
  inv_hmac : forall k, strs a s_hmac_key = Some k -> ints a i_hmac_key_len = zlen k;
  inv_pw : forall p, strs a s_gpg_decrypt_pw = Some p -> ints a i_use_gpg = 1;
  inv_no_pw : bit (ints a i_allow_no_pw) /\ (ints a i_allow_no_pw = 1 -> strs a s_gpg_decrypt_pw <> None);
  inv_bits : bit (ints a i_snat) /\ bit (ints a i_masquerade) /\ bit (ints a i_nat) /\ bit (ints a i_forward_all) /\
             bit (ints a i_require_sig) /\ bit (ints a i_disable_sig);
  inv_nums : 0 <= ints a i_timer /\ 0 <= ints a i_fw_timeout /\ 0 <= ints a i_max_timeout /\ 0 <= ints a i_mode /\ 0 <= ints a i_hmac_type;
  inv_lists : lists a = ([], [], [], [], [], []) /\ strs a s_source <> None }.

Lemma inv_new src : inv (set_s s_source (Some src) new_acc).
Proof. split; cbn; try discriminate; unfold bit; intuition (try discriminate; try reflexivity; lia). Qed.

Lemma acc_bool_bit v : bit (acc_bool v).
Proof. unfold acc_bool, bit. destruct (yes v); auto. Qed.

Ltac known_param F n := apply find_param_In in F; unfold params in F; cbn [In] in F;
    repeat (destruct F as [F|F]; [injection F; clear F; intros ? ?; subst n|]); try contradiction.

Lemma set_param_inv y n v w w' : set_param params y n v w = Done w' -> inv (w_acc w) -> inv (w_acc w').
Proof.
  intros E I. pose proof (set_param_effect _ _ _ _ _ E) as (ES & EI & EL).
  destruct (find_param params n) as [a|] eqn:F.
  2: { unfold set_param in E. rewrite F in E. inversion E; subst. exact I. }
  assert (FP := F). unfold set_param in E. rewrite F in E.
  destruct I as [K1 K2 K3 [K4 K4'] (B1 & B2 & B3 & B4 & B5 & B6) (N1 & N2 & N3 & N4 & N5) [NL NS]].
  split; rewrite ?ES, ?EI.
  - intros k. cbn [touch_s touch_i].
    destruct (is n ($ "KEY")) eqn:X1; cbn [upd orb].
    + intros Q; inversion Q; subst. split; reflexivity.
    + destruct (is n ($ "KEY_BASE64")) eqn:X2; cbn [upd]; [|apply K1]. intros Q; rewrite Q. split; reflexivity.
  - intros k. cbn [touch_s touch_i].
    destruct (is n ($ "HMAC_KEY")) eqn:X1; cbn [upd]; [intros Q; inversion Q; subst; reflexivity|].
    destruct (is n ($ "HMAC_KEY_BASE64")) eqn:X2; cbn [upd]; [|apply K2]. intros Q; rewrite Q. reflexivity.
  - intros p. cbn [touch_s touch_i].
    destruct (is n ($ "GPG_DECRYPT_PW")) eqn:X1; cbn [upd]; [reflexivity|].
    destruct (is n ($ "GPG_ALLOW_NO_PW")) eqn:X2; cbn [upd]; [|apply K3].
    destruct (acc_bool v =? 1); cbn [upd]; [reflexivity|apply K3].
  - cbn [touch_s touch_i]. destruct (is n ($ "GPG_ALLOW_NO_PW")) eqn:X2; cbn [upd].
    + split; [apply acc_bool_bit|]. intros ->. change (1 =? 1) with true.
      destruct (is n ($ "GPG_DECRYPT_PW")); cbn [upd]; discriminate.
    + destruct (is n ($ "GPG_DECRYPT_PW")); cbn [upd]; [split; [auto|discriminate]|auto].
  - cbn [touch_i]. assert (A := acc_bool_bit v). ands;
      repeat match goal with |- context [is n ?p] => destruct (is n p); cbn [upd] end; auto; unfold bit; auto.
  - assert (Z1 : forall f lo hi, a = a_number f lo hi -> 0 <= lo <= hi -> 0 <= num v).
    { intros f lo hi -> L. destruct (number_done f lo hi y v w w' (proj1 L) (proj2 L) E). lia. }
    cbn [touch_i]. ands.
    + destruct (is n ($ "CMD_CYCLE_TIMER")) eqn:X; cbn [upd]; [|auto]. apply bseq_eq in X. subst n.
      apply (Z1 i_timer 1 8388608); [|lia]. cbn in FP. injection FP. auto.
    + destruct (is n ($ "FW_ACCESS_TIMEOUT")) eqn:X; cbn [upd]; [|auto]. apply bseq_eq in X. subst n.
      apply (Z1 i_fw_timeout 0 8388608); [|lia]. cbn in FP. injection FP. auto.
    + destruct (is n ($ "MAX_FW_TIMEOUT")) eqn:X; cbn [upd]; [|auto]. apply bseq_eq in X. subst n.
      apply (Z1 i_max_timeout 0 8388608); [|lia]. cbn in FP. injection FP. auto.
    + destruct (is n ($ "ENCRYPTION_MODE")) eqn:X; cbn [upd]; [|auto]. apply bseq_eq in X. subst n.
      cbn in FP. injection FP. intros <-. unfold a_mode in E. cbv zeta in E. destruct (enc_mode_strtoint v <? 0) eqn:Q; [discriminate|lia].
    + destruct (is n ($ "HMAC_DIGEST_TYPE")) eqn:X; cbn [upd]; [|auto]. apply bseq_eq in X. subst n.
      cbn in FP. injection FP. intros <-. unfold a_hmac_type in E. cbv zeta in E. destruct (hmac_digest_strtoint v <? 0) eqn:Q; [discriminate|lia].
  - split; [congruence|]. cbn [touch_s upd]; exact NS.
Qed.

Lemma block_run_inv y b : forall w w', block_run y b w = Done w' -> inv (w_acc w) -> inv (w_acc w').
Proof.
  induction b as [|[n v] b IH]; intros w w' E I; cbn in E; [inversion E; subst; auto|].
  destruct (set_param params y n v w) as [w1| | | |] eqn:S; try discriminate. cbn in E.
  eapply IH; eauto. eapply set_param_inv; eauto.
Qed.
Lemma raw_inv y src b w : raw y src b w -> inv (w_acc w).
Proof. intros (pw & u & sd & E). eapply block_run_inv; eauto. cbn. apply inv_new. Qed.

(** ** What the check and the defaults leave alone *)
Definition same_but (fs : list sfield) (fi : list ifield) (a a' : acc) : Prop :=
  (forall f, ~ In f fs -> strs a' f = strs a f) /\ (forall f, ~ In f fi -> ints a' f = ints a f).

Lemma set_s_other f v a g : g <> f -> strs (set_s f v a) g = strs a g.
Proof. intros N. cbn. destruct (sfield_beq g f) eqn:E; [apply internal_sfield_dec_bl in E; congruence|reflexivity]. Qed.
Lemma set_i_other f v a g : g <> f -> ints (set_i f v a) g = ints a g.
Proof. intros N. cbn. destruct (ifield_beq g f) eqn:E; [apply internal_ifield_dec_bl in E; congruence|reflexivity]. Qed.
Lemma set_s_same f v a : strs (set_s f v a) f = v.
Proof. cbn. now rewrite (internal_sfield_dec_lb f f eq_refl). Qed.
Lemma set_i_same f v a : ints (set_i f v a) f = v.
Proof. cbn. now rewrite (internal_ifield_dec_lb f f eq_refl). Qed.

Lemma sb_refl fs fi a : same_but fs fi a a.
Proof. split; auto. Qed.
Lemma sb_trans fs fi a b c : same_but fs fi a b -> same_but fs fi b c -> same_but fs fi a c.
Proof. intros [A B] [C D]. split; intros f N; [rewrite C, A; auto|rewrite D, B; auto]. Qed.
Lemma sb_set_i fs fi f v a : In f fi -> same_but fs fi a (set_i f v a).
Proof. intros I. split; [reflexivity|]. intros g N. apply set_i_other. intros ->. contradiction. Qed.
Lemma sb_set_s fs fi f v a : In f fs -> same_but fs fi a (set_s f v a).
Proof. intros I. split; [|reflexivity]. intros g N. apply set_s_other. intros ->. contradiction. Qed.

Definition checked_s : list sfield := [s_nat_ip].
Definition checked_i : list ifield := [i_key_len; i_nat; i_nat_port; i_gid; i_sudo_gid; i_do_close].

Lemma legacy_sb a : same_but checked_s checked_i a (legacy_key a) /\ lists (legacy_key a) = lists a.
Proof. unfold legacy_key. destruct (_ && _); split; try reflexivity; [apply sb_set_i; cbn; tauto|apply sb_refl]. Qed.
Lemma check_nat_sb a a' : check_nat a = Some a' -> same_but checked_s checked_i a a' /\ lists a' = lists a.
Proof.
  unfold check_nat. destruct (_ && _); [|intros E; inversion E; subst; split; [apply sb_refl|reflexivity]].
  destruct (_ =? _); [|discriminate]. intros E.
  assert (X : acc_force_nat ($ "0.0.0.0 0") a = Some (set_s s_nat_ip (Some ($ "0.0.0.0")) (set_i i_nat 1 (set_i i_nat_port 0 a)))) by reflexivity.
  rewrite X in E. inversion E; subst. split; [|reflexivity].
  eapply sb_trans; [apply (sb_set_i _ _ i_nat_port); cbn; tauto|].
  eapply sb_trans; [apply (sb_set_i _ _ i_nat); cbn; tauto|]. apply sb_set_s; cbn; tauto.
Qed.
Lemma fill_gids_sb pw u s a : same_but checked_s checked_i a (fill_gids pw u s a) /\ lists (fill_gids pw u s a) = lists a.
Proof.
  unfold fill_gids. cbv zeta.
  destruct (u && _ && _).
  - destruct (_ && _ && _); split; try reflexivity.
    + eapply sb_trans; [apply (sb_set_i _ _ i_gid); cbn; tauto|]. apply sb_set_i; cbn; tauto.
    + apply sb_set_i; cbn; tauto.
  - destruct (_ && _ && _); split; try reflexivity; [apply sb_set_i; cbn; tauto|apply sb_refl].
Qed.
Lemma check_cycle_sb a a' : check_cycle a = Some a' -> same_but checked_s checked_i a a' /\ lists a' = lists a.
Proof.
  unfold check_cycle. destruct (strs a s_cycle_open) as [o|], (strs a s_cycle_close) as [c|]; try discriminate.
  - cbv zeta. destruct (is_prefix _ c); destruct (_ && _); try discriminate; destruct (_ || _); try discriminate;
      intros E; inversion E; subst; split; try reflexivity; [apply sb_set_i; cbn; tauto|apply sb_refl].
  - intros E; inversion E; subst; split; [apply sb_refl|reflexivity].
Qed.

Lemma valid_stages pw u s a a1 fw : acc_data_is_valid pw u s a = Some (a1, fw) ->
  exists b, no_keys a = false /\ same_keys (legacy_key a) = false /\ check_nat (legacy_key a) = Some b /\
    check_cycle (fill_gids pw u s b) = Some a1 /\ fw = isnull (strs a1 s_cycle_open).
Proof.
  unfold acc_data_is_valid. destruct (no_keys a); [discriminate|]. cbv zeta.
  destruct (same_keys (legacy_key a)) eqn:SK; [discriminate|].
  destruct (check_nat (legacy_key a)) as [b|] eqn:CN; [|discriminate]. cbn [obind].
  destruct (check_cycle (fill_gids pw u s b)) as [c|] eqn:CC; [|discriminate]. cbn [obind]. intros E; inversion E; subst.
  exists b. auto.
Qed.
Lemma valid_sb pw u s a a1 fw : acc_data_is_valid pw u s a = Some (a1, fw) -> same_but checked_s checked_i a a1 /\ lists a1 = lists a.
Proof.
  intros E. destruct (valid_stages _ _ _ _ _ _ E) as (b & _ & _ & CN & CC & _).
  destruct (legacy_sb a) as [S1 L1]. destruct (check_nat_sb _ _ CN) as [S2 L2].
  destruct (fill_gids_sb pw u s b) as [S3 L3]. destruct (check_cycle_sb _ _ CC) as [S4 L4].
  split; [|congruence]. eapply sb_trans; [exact S1|]. eapply sb_trans; [exact S2|]. eapply sb_trans; eauto.
Qed.

Definition default_s : list sfield := [s_gpg_home_dir].
Definition default_i : list ifield := [i_fw_timeout; i_max_timeout; i_require_sig; i_mode; i_hmac_type].

(** The values of the defaults *)
Lemma defaults_spec y a a' : acc_defaults y a = Some a' ->
  same_but default_s default_i a a' /\ lists a' = lists a /\
  ints a' i_fw_timeout = (if ints a i_fw_timeout <? 1 then 30 else ints a i_fw_timeout) /\
  ints a' i_max_timeout = (if ints a i_max_timeout <? 1 then 300 else ints a i_max_timeout) /\
  ints a' i_mode = (if ints a i_mode =? 0 then 2 else ints a i_mode) /\
  ints a' i_hmac_type = (if (ints a i_hmac_type =? 0) && (0 <? ints a i_hmac_key_len) && negb (isnull (strs a s_hmac_key)) then 3 else ints a i_hmac_type) /\
  ints a' i_require_sig = (if negb (isnull (strs a s_gpg_decrypt_pw)) && (ints a i_require_sig =? 0) && (ints a i_disable_sig =? 0) then 1 else ints a i_require_sig) /\
  (strs a s_gpg_decrypt_pw <> None -> ints a i_disable_sig = 0 -> strs a s_gpg_remote_id <> None \/ strs a s_gpg_remote_fpr <> None).
Proof.
  unfold acc_defaults. cbv zeta.
  remember (if ints a i_fw_timeout <? 1 then set_i i_fw_timeout 30 a else a) as a1 eqn:E1.
  assert (S1 : same_but default_s default_i a a1 /\ lists a1 = lists a /\ (forall f, f <> i_fw_timeout -> ints a1 f = ints a f) /\
     ints a1 i_fw_timeout = (if ints a i_fw_timeout <? 1 then 30 else ints a i_fw_timeout)).
  { subst a1. destruct (ints a i_fw_timeout <? 1); ands; try reflexivity; try apply sb_refl; [apply sb_set_i; cbn; tauto|intros; apply set_i_other; auto]. }
  clear E1. destruct S1 as (S1 & L1 & O1 & V1).
  remember (if ints a1 i_max_timeout <? 1 then set_i i_max_timeout 300 a1 else a1) as a2 eqn:E2.
  assert (S2 : same_but default_s default_i a1 a2 /\ lists a2 = lists a1 /\ (forall f, f <> i_max_timeout -> ints a2 f = ints a1 f) /\
     ints a2 i_max_timeout = (if ints a1 i_max_timeout <? 1 then 300 else ints a1 i_max_timeout)).
  { subst a2. destruct (ints a1 i_max_timeout <? 1); ands; try reflexivity; try apply sb_refl; [apply sb_set_i; cbn; tauto|intros; apply set_i_other; auto]. }
  clear E2. destruct S2 as (S2 & L2 & O2 & V2).
  assert (S12 : same_but default_s default_i a a2) by (eapply sb_trans; eauto).
  match goal with |- obind ?x _ = _ -> _ => remember x as g eqn:EG end.
  destruct g as [a3|]; [|discriminate]. cbn [obind].
  assert (S3 : same_but default_s default_i a2 a3 /\ lists a3 = lists a2 /\ (forall f, f <> i_require_sig -> ints a3 f = ints a2 f) /\
    (forall f, f <> s_gpg_home_dir -> strs a3 f = strs a2 f) /\
    ints a3 i_require_sig = (if negb (isnull (strs a2 s_gpg_decrypt_pw)) && (ints a2 i_require_sig =? 0) && (ints a2 i_disable_sig =? 0) then 1 else ints a2 i_require_sig) /\
    (strs a2 s_gpg_decrypt_pw <> None -> ints a2 i_disable_sig = 0 -> strs a2 s_gpg_remote_id <> None \/ strs a2 s_gpg_remote_fpr <> None)).
  { destruct (strs a2 s_gpg_decrypt_pw) as [p|] eqn:P; cbn [isnull negb andb] in *.
    2: { inversion EG; subst. ands; try reflexivity; try apply sb_refl; congruence. }
    remember (if isnull (strs a2 s_gpg_home_dir) then set_s s_gpg_home_dir (Some (y_gpg_home y)) a2 else a2) as b eqn:EB.
    assert (SB : same_but default_s default_i a2 b /\ lists b = lists a2 /\ ints b = ints a2 /\ (forall f, f <> s_gpg_home_dir -> strs b f = strs a2 f)).
    { subst b. destruct (isnull _); ands; try reflexivity; try apply sb_refl; [apply sb_set_s; cbn; tauto|intros; apply set_s_other; auto]. }
    clear EB. destruct SB as (SB & LB & IB & OB). rewrite IB in EG.
    destruct ((ints a2 i_require_sig =? 0) && (ints a2 i_disable_sig =? 0)) eqn:Q.
    - cbn [ints strs set_i] in EG. rewrite IB in EG.
      change (ifield_beq i_disable_sig i_require_sig) with false in EG. cbv iota in EG.
      rewrite (OB s_gpg_remote_id), (OB s_gpg_remote_fpr) in EG by discriminate.
      destruct ((ints a2 i_disable_sig =? 0) && _) eqn:Q2; [discriminate|]. inversion EG; subst a3. clear EG.
      ands.
      + eapply sb_trans; [exact SB|]. apply sb_set_i; cbn; tauto.
      + exact LB.
      + intros f N. rewrite set_i_other by auto. now rewrite IB.
      + exact OB.
      + apply set_i_same.
      + intros _ D. rewrite D in Q2. cbn in Q2. destruct (strs a2 s_gpg_remote_id); [left; discriminate|].
        destruct (strs a2 s_gpg_remote_fpr); [right; discriminate|discriminate].
    - rewrite IB in EG. rewrite (OB s_gpg_remote_id), (OB s_gpg_remote_fpr) in EG by discriminate.
      destruct ((ints a2 i_disable_sig =? 0) && (_ && _)) eqn:Q2; [discriminate|]. inversion EG; subst a3. clear EG.
      ands; auto.
      + intros f N. now rewrite IB.
      + now rewrite IB.
      + intros _ D. rewrite D in Q2. cbn in Q2. destruct (strs a2 s_gpg_remote_id); [left; discriminate|].
        destruct (strs a2 s_gpg_remote_fpr); [right; discriminate|discriminate]. }
  clear EG. destruct S3 as (S3 & L3 & O3 & OS3 & V3 & G3).
  remember (if ints a3 i_mode =? 0 then set_i i_mode 2 a3 else a3) as a4 eqn:E4.
  assert (S4 : same_but default_s default_i a3 a4 /\ lists a4 = lists a3 /\ (forall f, f <> i_mode -> ints a4 f = ints a3 f) /\ strs a4 = strs a3 /\
     ints a4 i_mode = (if ints a3 i_mode =? 0 then 2 else ints a3 i_mode)).
  { subst a4. destruct (ints a3 i_mode =? 0); ands; try reflexivity; try apply sb_refl; [apply sb_set_i; cbn; tauto|intros; apply set_i_other; auto]. }
  clear E4. destruct S4 as (S4 & L4 & O4 & OS4 & V4).
  intros E. assert (E5 := f_equal (fun o => match o with Some x => x | None => a' end) E). cbn beta iota in E5. clear E. symmetry in E5.
  assert (S5 : same_but default_s default_i a4 a' /\ lists a' = lists a4 /\ (forall f, f <> i_hmac_type -> ints a' f = ints a4 f) /\
     ints a' i_hmac_type = (if (ints a4 i_hmac_type =? 0) && (0 <? ints a4 i_hmac_key_len) && negb (isnull (strs a4 s_hmac_key)) then 3 else ints a4 i_hmac_type)).
  { subst a'. destruct ((ints a4 i_hmac_type =? 0) && (0 <? ints a4 i_hmac_key_len) && negb (isnull (strs a4 s_hmac_key))); ands; try reflexivity; try apply sb_refl; [apply sb_set_i; cbn; tauto|intros; apply set_i_other; auto]. }
  clear E5. destruct S5 as (S5 & L5 & O5 & V5).
  assert (SS : forall f, f <> s_gpg_home_dir -> strs a2 f = strs a f).
  { intros f N. apply S12. cbn. intuition congruence. }
  ands.
  - eapply sb_trans; [exact S12|]. eapply sb_trans; [exact S3|]. eapply sb_trans; [exact S4|exact S5].
  - congruence.
  - rewrite O5, O4, O3, O2 by discriminate. exact V1.
  - rewrite O5, O4, O3 by discriminate. rewrite V2, O1 by discriminate. reflexivity.
  - rewrite O5 by discriminate. rewrite V4, O3, O2, O1 by discriminate. reflexivity.
  - rewrite V5. rewrite !O4, !O3, !O2, !O1 by discriminate. rewrite OS4, OS3, SS by discriminate. reflexivity.
  - rewrite O5, O4 by discriminate. rewrite V3. rewrite !O2, !O1, SS by discriminate. reflexivity.
  - intros P D. rewrite <- !SS by discriminate. apply G3; [rewrite SS by discriminate; auto|]. rewrite O2, O1 by discriminate. auto.
Qed.

Lemma expand_spec a a' : expand_acc a = Some a' -> strs a' = strs a /\ ints a' = ints a.
Proof.
  unfold expand_acc. destruct (expand_more _ _ (l_source a)) as [x1|]; [|discriminate]. cbn [obind].
  destruct (expand_more _ _ (l_dest a)) as [x2|]; [|discriminate]. cbn [obind].
  destruct (expand_more _ _ (l_open a)) as [x3|]; [|discriminate]. cbn [obind].
  destruct (expand_more _ _ (l_restrict a)) as [x4|]; [|discriminate]. cbn [obind].
  destruct (expand_more _ _ (l_ids a)) as [x5|]; [|discriminate]. cbn [obind].
  destruct (expand_more _ _ (l_fprs a)) as [x6|]; [|discriminate]. cbn [obind].
  intros E; inversion E; subst. auto.
Qed.

(** ** A checked stanza is complete *)
Definition sealed (a : acc) : Prop := exists b pw u s fw, inv b /\ acc_data_is_valid pw u s b = Some (a, fw).

Lemma ztake_ge n (s : bytes) : zlen s <= n -> ztake n s = s.
Proof. intros H. unfold ztake. apply firstn_all2. unfold zlen in H. lia. Qed.

Lemma sealed_complete y a b c : sealed a -> expand_acc a = Some b -> acc_defaults y b = Some c -> complete c.
Proof.
  intros (r & pw & u & s & fw & I & V) E D.
  destruct (expand_spec _ _ E) as [XS XI].
  destruct (defaults_spec _ _ _ D) as ([DS DI] & _ & D1 & D2 & D3 & D4 & D5 & D6).
  destruct (valid_sb _ _ _ _ _ _ V) as [[VS VI] _].
  destruct (valid_stages _ _ _ _ _ _ V) as (n & NK & SK & CN & CC & _).
  destruct I as [K1 K2 K3 [K4 K4'] (B1 & B2 & B3 & B4 & B5 & B6) (N1 & N2 & N3 & N4 & N5) NL].
  rewrite XS, XI in *.
  assert (CS : forall f, ~ In f default_s -> ~ In f checked_s -> strs c f = strs r f).
  { intros f H1 H2. rewrite DS, VS; auto. }
  assert (CI : forall f, ~ In f default_i -> ~ In f checked_i -> ints c f = ints r f).
  { intros f H1 H2. rewrite DI, VI; auto. }
  assert (XC : forall f, In f [s_key; s_hmac_key; s_gpg_decrypt_pw; s_cycle_open; s_cycle_close; s_gpg_remote_id; s_gpg_remote_fpr] -> strs c f = strs r f).
  { intros f J. apply CS; cbn in *; intuition congruence. }
  assert (XJ : forall f, In f [i_hmac_key_len; i_use_rijndael; i_use_gpg; i_allow_no_pw; i_snat; i_masquerade; i_timer; i_disable_sig] -> ints c f = ints r f).
  { intros f J. apply CI; cbn in *; intuition congruence. }
  assert (VM : ints a i_mode = ints r i_mode) by (apply VI; cbn; intuition congruence).
  unfold complete. ands.
  - (* keys *)
    rewrite (XC s_key), (XC s_gpg_decrypt_pw), (XJ i_use_rijndael), (XJ i_use_gpg), (XJ i_allow_no_pw) by (cbn; tauto).
    unfold no_keys in NK. apply orb_false_iff in NK. destruct NK as [NK _]. apply andb_false_iff in NK. destruct NK as [NK|NK].
    + left. apply orb_false_iff in NK. destruct NK as [NK1 NK2]. destruct (strs r s_key) as [k|] eqn:K; [|discriminate].
      exists k. destruct (K1 k eq_refl) as [KL KU]. ands; auto. intros ->. rewrite KL in NK2. discriminate.
    + right. apply andb_false_iff in NK. destruct NK as [NK|NK].
      * apply orb_false_iff in NK. destruct NK as [NK1 NK2]. destruct (strs r s_gpg_decrypt_pw) as [p|] eqn:K; [|discriminate].
        exists p. ands; eauto. left. intros ->. discriminate.
      * apply Z.eqb_neq in NK. destruct K4 as [K4|K4]; [contradiction|]. specialize (K4' K4).
        destruct (strs r s_gpg_decrypt_pw) as [p|] eqn:K; [|congruence]. exists p. ands; eauto.
  - (* different keys *)
    intros k EK NE HK. unfold enc_key in EK. rewrite (XC s_key) in EK by (cbn; tauto). rewrite (XC s_hmac_key) in HK by (cbn; tauto).
    destruct (strs r s_key) as [k0|] eqn:K; [|discriminate]. destruct (K1 k0 eq_refl) as [KL KU]. pose proof (K2 _ HK) as HL.
    assert (M8 : (ints c i_mode =? 8) = (ints r i_mode =? 8)).
    { rewrite D3, VM. destruct (Z.eqb_spec (ints r i_mode) 0) as [->|]; reflexivity. }
    rewrite M8 in EK.
    assert (LK : ints (legacy_key r) i_key_len = zlen k /\ ztake (zlen k) k0 = k).
    { unfold legacy_key. rewrite KU, K, KL. cbn [Z.eqb negb isnull andb].
      destruct (ints r i_mode =? 8) eqn:M; cbn [andb].
      - inversion EK; subst k. destruct (16 <? zlen k0) eqn:L.
        + rewrite set_i_same. rewrite zlen_ztake by lia. replace (Z.min 16 (zlen k0)) with 16 by lia. auto.
        + rewrite ztake_ge by lia. rewrite KL. split; [auto|]. apply ztake_ge; lia.
      - inversion EK; subst k. rewrite KL. split; [auto|]. apply ztake_ge; lia. }
    destruct LK as [LK1 LK2].
    destruct (legacy_sb r) as [[LS LI] _].
    assert (KPOS : zlen k <> 0) by (destruct k; [congruence|unfold zlen; cbn; lia]).
    unfold same_keys in SK.
    rewrite (LS s_key), (LS s_hmac_key), (LI i_hmac_key_len) in SK by (cbn; intuition congruence).
    rewrite K, HK, HL, LK1 in SK. cbn [isnull negb andb] in SK.
    rewrite (proj2 (Z.eqb_neq (zlen k) 0) KPOS), Z.eqb_refl in SK. cbn [negb andb memeq] in SK.
    rewrite LK2, (ztake_ge (zlen k) k) in SK by lia. rewrite bseq_refl in SK. discriminate.
  - (* NAT *)
    rewrite (XJ i_snat), (XJ i_masquerade) by (cbn; tauto). intros SN.
    assert (X : ints c i_nat = ints n i_nat).
    { rewrite DI by (cbn; intuition congruence).
      destruct (fill_gids_sb pw u s n) as [[_ FI] _].
      transitivity (ints (fill_gids pw u s n) i_nat).
      - clear - CC. unfold check_cycle in CC. remember (fill_gids pw u s n) as g. destruct (strs g s_cycle_open), (strs g s_cycle_close); try discriminate; [|inversion CC; reflexivity].
        cbv zeta in CC. destruct (is_prefix _ _); destruct (_ && _); try discriminate; destruct (_ || _); try discriminate; inversion CC; reflexivity.
      - clear. unfold fill_gids. cbv zeta. destruct (u && _ && _); destruct (_ && _ && _); reflexivity. }
    rewrite X. unfold check_nat in CN. destruct (legacy_sb r) as [[LS LI] _].
    rewrite (LI i_snat), (LI i_masquerade), (LI i_forward_all) in CN by (cbn; intuition congruence).
    assert (LN : ints (legacy_key r) i_nat = ints r i_nat) by (clear; unfold legacy_key; destruct (_ && _); reflexivity).
    rewrite LN in CN.
    assert (Q : (ints r i_snat =? 1) || (ints r i_masquerade =? 1) = true).
    { apply orb_true_iff. destruct SN as [->| ->]; auto. }
    rewrite Q in CN. cbn [andb] in CN. destruct B3 as [B3|B3].
    + rewrite B3 in CN. cbn [Z.eqb] in CN. destruct (ints r i_forward_all =? 1); [|discriminate].
      assert (Y : acc_force_nat ($ "0.0.0.0 0") (legacy_key r) = Some (set_s s_nat_ip (Some ($ "0.0.0.0")) (set_i i_nat 1 (set_i i_nat_port 0 (legacy_key r))))) by reflexivity.
      rewrite Y in CN. inversion CN; subst n. reflexivity.
    + rewrite B3 in CN. cbn [Z.eqb Pos.eqb] in CN. inversion CN; subst n. rewrite LN. exact B3.
  - rewrite (XC s_cycle_open), (XC s_cycle_close) by (cbn; tauto).
    unfold check_cycle in CC. destruct (fill_gids_sb pw u s n) as [[FS _] _]. destruct (check_nat_sb _ _ CN) as [[NS _] _]. destruct (legacy_sb r) as [[LS _] _].
    rewrite !FS, !NS, !LS in CC by (cbn; intuition congruence).
    destruct (strs r s_cycle_open), (strs r s_cycle_close); try discriminate; split; congruence.
  - rewrite (XC s_cycle_open), (XJ i_timer) by (cbn; tauto). rewrite DI by (cbn; intuition congruence).
    intros OP DC. unfold check_cycle in CC.
    assert (TM : ints (fill_gids pw u s n) i_timer = ints r i_timer).
    { destruct (fill_gids_sb pw u s n) as [[_ FI] _]. destruct (check_nat_sb _ _ CN) as [[_ NI] _]. destruct (legacy_sb r) as [[_ LI] _].
      rewrite FI, NI, LI by (cbn; intuition congruence). reflexivity. }
    assert (OP' : strs (fill_gids pw u s n) s_cycle_open = strs r s_cycle_open).
    { destruct (fill_gids_sb pw u s n) as [[FS _] _]. destruct (check_nat_sb _ _ CN) as [[NS _] _]. destruct (legacy_sb r) as [[LS _] _].
      rewrite FS, NS, LS by (cbn; intuition congruence). reflexivity. }
    rewrite OP' in CC. destruct (strs r s_cycle_open) as [o|]; [|congruence].
    destruct (strs (fill_gids pw u s n) s_cycle_close) as [cl|]; [|discriminate]. cbv zeta in CC.
    remember (if is_prefix ($ "NONE") cl then set_i i_do_close 0 (fill_gids pw u s n) else fill_gids pw u s n) as g eqn:EG.
    assert (GT : ints g i_timer = ints r i_timer) by (subst g; destruct (is_prefix _ cl); [rewrite set_i_other by discriminate|]; exact TM).
    rewrite GT in CC. destruct ((ints r i_timer =? 0) && negb (ints g i_do_close =? 0)) eqn:Q; [discriminate|].
    destruct (_ || _); [discriminate|]. inversion CC; subst a. 
    apply andb_false_iff in Q. destruct Q as [Q|Q]; [lia|]. apply negb_false_iff, Z.eqb_eq in Q. congruence.
  - rewrite D1. destruct (ints a i_fw_timeout <? 1) eqn:Q; lia.
  - rewrite D2. destruct (ints a i_max_timeout <? 1) eqn:Q; lia.
  - rewrite D3. destruct (Z.eqb_spec (ints a i_mode) 0); congruence.
  - rewrite (XC s_gpg_decrypt_pw), (XC s_gpg_remote_id), (XC s_gpg_remote_fpr), (XJ i_disable_sig) by (cbn; tauto).
    intros P DD.
    assert (RS : ints a i_require_sig = ints r i_require_sig) by (apply VI; cbn; intuition congruence).
    assert (DS0 : ints a i_disable_sig = ints r i_disable_sig) by (apply VI; cbn; intuition congruence).
    assert (PS : strs a s_gpg_decrypt_pw = strs r s_gpg_decrypt_pw) by (apply VS; cbn; intuition congruence).
    split.
    + rewrite D5, PS, RS, DS0, DD. destruct (strs r s_gpg_decrypt_pw); [|congruence]. cbn [isnull negb andb].
      destruct B5 as [->| ->]; reflexivity.
    + rewrite PS, DS0 in D6. specialize (D6 P DD).
      rewrite (VS s_gpg_remote_id), (VS s_gpg_remote_fpr) in D6 by (cbn; intuition congruence). exact D6.
Qed.

(** ** A stanza says what its lines say *)
Definition final (y : system) (src : bytes) (b : list (bytes * bytes)) (a : acc) : Prop :=
  exists w a1 fw a2, raw y src b w /\ acc_data_is_valid (w_pw w) (w_user w) (w_sudo w) (w_acc w) = Some (a1, fw) /\
    expand_acc a1 = Some a2 /\ acc_defaults y a2 = Some a.

Lemma decided_imp {X Y} b ps (R : bytes -> bytes -> X -> Prop) (Q : bytes -> bytes -> Y -> Prop) d e x z :
  decided b ps R d x -> (forall p v, R p v x -> Q p v z) -> (x = d -> z = e) -> decided b ps Q e z.
Proof. intros [A B] H K. split; [intros p v L; apply H; auto|auto]. Qed.

Lemma final_says y src b a : final y src b a -> stanza_says src b a.
Proof.
  intros (w & a1 & fw & a2 & R & V & E & D).
  destruct (expand_spec _ _ E) as [XS XI].
  destruct (defaults_spec _ _ _ D) as ([DS DI] & _ & D1 & D2 & D3 & D4 & D5 & D6).
  destruct (valid_sb _ _ _ _ _ _ V) as [[VS VI] _]. rewrite XS, XI in *.
  pose proof (raw_inv _ _ _ _ R) as I.
  assert (CS : forall f, ~ In f default_s -> ~ In f checked_s -> strs a f = strs (w_acc w) f).
  { intros f H1 H2. rewrite DS, VS; auto. }
  assert (CI : forall f, ~ In f default_i -> ~ In f checked_i -> ints a f = ints (w_acc w) f).
  { intros f H1 H2. rewrite DI, VI; auto. }
  unfold stanza_says. ands.
  - rewrite CS by (cbn; intuition congruence). eapply raw_source; eauto.
  - intros p f T. rewrite CS; [eapply raw_string; eauto| |]; clear - T; unfold string_table in T; cbn [In] in T;
      repeat (destruct T as [T|T]; [injection T; intros <- _; cbn; intuition congruence|]); contradiction.
  - intros ps f T. rewrite CI; [eapply raw_flag; eauto| |]; clear - T; unfold flag_table in T; cbn [In] in T;
      repeat (destruct T as [T|T]; [injection T; intros <- _; cbn; intuition congruence|]); contradiction.
  - rewrite D1, VI by (cbn; intuition congruence).
    eapply decided_imp; [apply (raw_number y src b w ($ "FW_ACCESS_TIMEOUT") i_fw_timeout 8388608 0 R); [reflexivity|reflexivity|lia]| |].
    + intros p v [L H] n T B. specialize (H n T B). rewrite H in *. split; [auto|].
      destruct (Z.ltb_spec n 1), (Z.eqb_spec n 0); auto; lia.
    + intros ->. reflexivity.
  - rewrite D2, VI by (cbn; intuition congruence).
    eapply decided_imp; [apply (raw_number y src b w ($ "MAX_FW_TIMEOUT") i_max_timeout 8388608 0 R); [reflexivity|reflexivity|lia]| |].
    + intros p v [L H] n T B. specialize (H n T B). rewrite H in *. split; [auto|].
      destruct (Z.ltb_spec n 1), (Z.eqb_spec n 0); auto; lia.
    + intros ->. reflexivity.
  - rewrite CS by (cbn; intuition congruence). eapply raw_key; eauto.
  - rewrite CS by (cbn; intuition congruence). eapply raw_hmac_key; eauto.
  - rewrite D3, VI by (cbn; intuition congruence).
    eapply decided_imp; [apply (raw_mode y src b w R)| |].
    + intros p v H. assert (P : 0 < ints (w_acc w) i_mode).
      { eapply one_of_pos; [|exact H]. intros n z J. cbn in J. repeat (destruct J as [J|J]; [inversion J; lia|]). contradiction. }
      destruct (Z.eqb_spec (ints (w_acc w) i_mode) 0); [lia|exact H].
    + intros ->. reflexivity.
  - rewrite D4, (CS s_hmac_key), (VS s_hmac_key), (VI i_hmac_type), (VI i_hmac_key_len) by (cbn; intuition congruence).
    eapply decided_imp; [apply (raw_hmac_type y src b w R)| |].
    + intros p v H. assert (P : 0 < ints (w_acc w) i_hmac_type).
      { eapply one_of_pos; [|exact H]. intros n z J. cbn in J. repeat (destruct J as [J|J]; [inversion J; lia|]). contradiction. }
      destruct (Z.eqb_spec (ints (w_acc w) i_hmac_type) 0); [lia|exact H].
    + intros ->. cbn [Z.eqb andb]. destruct (strs (w_acc w) s_hmac_key) as [k|] eqn:K.
      * rewrite (inv_hmac _ I _ K). cbn [isnull negb]. rewrite andb_true_r. reflexivity.
      * cbn [isnull negb]. rewrite andb_false_r. reflexivity.
Qed.

(** ** Lists *)
Lemma addresses_one o l l' : l = [] -> expand_more expand_acc_int_list o l = Some l' -> addresses o (compare_addr_list l').
Proof.
  intros -> E s items Ps -> NE L F O x A. cbn in E. destruct (expand_acc_int_list s) as [r|] eqn:X; [|discriminate].
  cbn in E. inversion E; subst. destruct (T_access.C25_networks_partial s items Ps L F O) as (l & X' & _ & H).
  rewrite X in X'. inversion X'; subst. apply H. exact A.
Qed.
Lemma addresses_nonempty o ok : addresses (nonempty o) ok -> addresses o ok.
Proof.
  intros H s items Ps -> NE. destruct s as [|c s]; [congruence|]. apply H; [reflexivity|auto].
Qed.
Lemma ports_one o l l' : l = [] -> expand_more expand_acc_port_list (nonempty o) l = Some l' -> ports o l'.
Proof.
  intros -> E. destruct o as [[|c s]|]; cbn [nonempty expand_more] in E; unfold ports; [inversion E; auto| |inversion E; auto].
  intros SM. destruct (expand_acc_port_list (c :: s)) as [r|] eqn:X; [|discriminate]. cbn in E. inversion E; subst.
  apply T_access.C38_port_list_partial in X; auto. destruct X as (items & L & F). exists items. split; auto.
  clear - F. induction F as [|it e items l [P _] _ IH]; constructor; auto.
Qed.
Lemma names_one o l l' : l = [] -> expand_more expand_acc_string_list (nonempty o) l = Some l' -> names o l'.
Proof.
  intros -> E. destruct o as [[|c s]|]; cbn [nonempty expand_more] in E; unfold names; [inversion E; auto| |inversion E; auto].
  destruct (expand_acc_string_list (c :: s)) as [r|] eqn:X; [|discriminate]. cbn in E. inversion E; subst.
  apply T_access.C38_string_list in X. apply X.
Qed.

Lemma expand_lists a b : expand_acc a = Some b -> lists a = ([], [], [], [], [], []) -> strs a s_source <> None -> lists_say b.
Proof.
  intros E L S. destruct (expand_spec _ _ E) as [XS _]. unfold lists_say. rewrite XS. unfold lists in L.
  injection L; intros L6 L5 L4 L3 L2 L1. unfold expand_acc in E.
  destruct (expand_more expand_acc_int_list _ (l_source a)) as [x1|] eqn:E1; [|discriminate]. cbn [obind] in E.
  destruct (expand_more expand_acc_int_list _ (l_dest a)) as [x2|] eqn:E2; [|discriminate]. cbn [obind] in E.
  destruct (expand_more expand_acc_port_list _ (l_open a)) as [x3|] eqn:E3; [|discriminate]. cbn [obind] in E.
  destruct (expand_more expand_acc_port_list _ (l_restrict a)) as [x4|] eqn:E4; [|discriminate]. cbn [obind] in E.
  destruct (expand_more expand_acc_string_list _ (l_ids a)) as [x5|] eqn:E5; [|discriminate]. cbn [obind] in E.
  destruct (expand_more expand_acc_string_list _ (l_fprs a)) as [x6|] eqn:E6; [|discriminate]. cbn [obind] in E.
  inversion E; subst b. cbn [l_source l_dest l_open l_restrict l_ids l_fprs]. ands.
  - destruct (strs a s_source) as [s|]; [|congruence]. eapply addresses_one; [exact L1|exact E1].
  - apply addresses_nonempty. eapply addresses_one; [exact L2|exact E2].
  - eapply ports_one; [exact L3|exact E3].
  - eapply ports_one; [exact L4|exact E4].
  - eapply names_one; [exact L5|exact E5].
  - eapply names_one; [exact L6|exact E6].
Qed.

Lemma sealed_lists y a b c : sealed a -> expand_acc a = Some b -> acc_defaults y b = Some c -> lists_say c.
Proof.
  intros (r & pw & u & s & fw & I & V) E D. destruct (inv_lists _ I) as [L NS].
  destruct (valid_sb _ _ _ _ _ _ V) as [[VS _] VL].
  assert (X : lists_say b).
  { eapply expand_lists; eauto; [congruence|]. rewrite VS by (cbn; intuition congruence). exact NS. }
  destruct (defaults_spec _ _ _ D) as ([DS _] & DL & _). unfold lists_say in *. unfold lists in DL.
  injection DL; intros L6 L5 L4 L3 L2 L1. rewrite !DS by (cbn; intuition congruence). rewrite L1, L2, L3, L4, L5, L6. exact X.
Qed.
