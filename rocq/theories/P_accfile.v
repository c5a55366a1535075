(** Proofs about the reading of access.conf: single entries and stanzas. *)
From Verif Require Import Bytes M_base64 M_util M_message M_codec M_access M_replay M_cycle M_incoming M_conf M_accfile
  S_text S_base64 S_conf S_accfile P_bytes P_util P_util2 P_access P_conf.
From Coq Require Import Init.Byte List ZArith Bool Lia.
Import ListNotations.
Open Scope Z_scope.

(** ** What an entry changes *)
(** The fields are decided by the names below; [touch] gives the new value of a field. *)
Definition is (n : bytes) (p : bytes) : bool := bseq n p.
Definition touch_s (f : sfield) (n v : bytes) : option (option bytes) :=
  let one p := if is n p then Some (Some v) else None in
  match f with
  | s_source => None
  | s_destination => one ($ "DESTINATION")
  | s_open_ports => one ($ "OPEN_PORTS")
  | s_restrict_ports => one ($ "RESTRICT_PORTS")
  | s_key => if is n ($ "KEY") then Some (Some v) else if is n ($ "KEY_BASE64") then Some (b64_decode v) else None
  | s_key_base64 => one ($ "KEY_BASE64")
  | s_hmac_key => if is n ($ "HMAC_KEY") then Some (Some v) else if is n ($ "HMAC_KEY_BASE64") then Some (b64_decode v) else None
  | s_hmac_key_base64 => one ($ "HMAC_KEY_BASE64")
  | s_sudo_user => one ($ "CMD_SUDO_EXEC_USER")
  | s_sudo_group => one ($ "CMD_SUDO_EXEC_GROUP")
  | s_user => one ($ "CMD_EXEC_USER")
  | s_group => one ($ "CMD_EXEC_GROUP")
  | s_cycle_open => one ($ "CMD_CYCLE_OPEN")
  | s_cycle_close => one ($ "CMD_CYCLE_CLOSE")
  | s_require_username => one ($ "REQUIRE_USERNAME")
  | s_gpg_home_dir => one ($ "GPG_HOME_DIR")
  | s_gpg_exe => one ($ "GPG_EXE")
  | s_gpg_decrypt_id => one ($ "GPG_DECRYPT_ID")
  | s_gpg_decrypt_pw => if is n ($ "GPG_DECRYPT_PW") then Some (Some v)
                        else if is n ($ "GPG_ALLOW_NO_PW") then (if acc_bool v =? 1 then Some (Some []) else None) else None
  | s_gpg_remote_id => one ($ "GPG_REMOTE_ID")
  | s_gpg_remote_fpr => one ($ "GPG_FINGERPRINT_ID")
  | s_nat_ip => if is n ($ "FORCE_NAT") then match scan_word 15 v with Some (ip, _) => Some (Some ip) | None => None end else None
  | s_snat_ip => if is n ($ "FORCE_SNAT") then match scan_word 15 v with Some (ip, _) => Some (Some ip) | None => None end else None
  end.
Definition num (v : bytes) : Z := fst (strtol_wrapper v 0 0).
Definition touch_i (y : system) (f : ifield) (n v : bytes) : option Z :=
  let yn p := if is n p then Some (acc_bool v) else None in
  match f with
  | i_key_len => if is n ($ "KEY") then Some (zlen v)
                 else if is n ($ "KEY_BASE64") then match b64_decode v with Some k => Some (zlen k) | None => None end else None
  | i_hmac_key_len => if is n ($ "HMAC_KEY") then Some (zlen v)
                 else if is n ($ "HMAC_KEY_BASE64") then match b64_decode v with Some k => Some (zlen k) | None => None end else None
  | i_hmac_type => if is n ($ "HMAC_DIGEST_TYPE") then Some (hmac_digest_strtoint v) else None
  | i_use_rijndael => if is n ($ "KEY") || is n ($ "KEY_BASE64") then Some 1 else None
  | i_fw_timeout => if is n ($ "FW_ACCESS_TIMEOUT") then Some (num v) else None
  | i_max_timeout => if is n ($ "MAX_FW_TIMEOUT") then Some (num v) else None
  | i_cmd => yn ($ "ENABLE_CMD_EXEC")
  | i_sudo => yn ($ "ENABLE_CMD_SUDO_EXEC")
  | i_sudo_uid => if is n ($ "CMD_SUDO_EXEC_USER") then match y_pw y v with Some (u, _) => Some u | None => None end else None
  | i_sudo_gid => if is n ($ "CMD_SUDO_EXEC_GROUP") then match y_pw y v with Some (_, g) => Some g | None => None end else None
  | i_do_close => if is n ($ "CMD_CYCLE_OPEN") then Some 1 else None
  | i_timer => if is n ($ "CMD_CYCLE_TIMER") then Some (num v) else None
  | i_uid => if is n ($ "CMD_EXEC_USER") then match y_pw y v with Some (u, _) => Some u | None => None end else None
  | i_gid => if is n ($ "CMD_EXEC_GROUP") then match y_pw y v with Some (_, g) => Some g | None => None end else None
  | i_require_source => if is n ($ "REQUIRE_SOURCE_ADDRESS") || is n ($ "REQUIRE_SOURCE") then Some (acc_bool v) else None
  | i_require_sig => yn ($ "GPG_REQUIRE_SIG")
  | i_disable_sig => yn ($ "GPG_DISABLE_SIG")
  | i_ignore_sig_error => yn ($ "GPG_IGNORE_SIG_VERIFY_ERROR")
  | i_use_gpg => if is n ($ "GPG_DECRYPT_PW") then Some 1
                 else if is n ($ "GPG_ALLOW_NO_PW") then (if acc_bool v =? 1 then Some 1 else None) else None
  | i_allow_no_pw => yn ($ "GPG_ALLOW_NO_PW")
  | i_expire => if is n ($ "ACCESS_EXPIRE") then acc_expire_time y v
                else if is n ($ "ACCESS_EXPIRE_EPOCH") then acc_expire_epoch v else None
  | i_mode => if is n ($ "ENCRYPTION_MODE") then Some (enc_mode_strtoint v) else None
  | i_nat => if is n ($ "FORCE_NAT") then Some 1 else None
  | i_nat_port => if is n ($ "FORCE_NAT") then
                    match scan_word 15 v with
                    | Some (_, r) => match scan_num_n 5 r with Some (p, _) => Some (u32 p) | None => None end
                    | None => None end
                  else None
  | i_forward_all => yn ($ "FORWARD_ALL")
  | i_disable_dnat => yn ($ "DISABLE_DNAT")
  | i_snat => if is n ($ "FORCE_SNAT") then Some 1 else yn ($ "FORCE_MASQUERADE")
  | i_masquerade => yn ($ "FORCE_MASQUERADE")
  end.
Definition lists (a : acc) := (l_source a, l_dest a, l_open a, l_restrict a, l_ids a, l_fprs a).

Definition upd {A} (o : option A) (d : A) : A := match o with Some x => x | None => d end.

Lemma num_wrapper v lo hi x e : strtol_wrapper v lo hi = (x, e) -> num v = x.
Proof. unfold num, strtol_wrapper. destruct (strtol v). intros E; inversion E; reflexivity. Qed.

(** All the ways in which an entry can be found in a list of parameters *)
Lemma find_param_In l n a : find_param l n = Some a -> In (n, a) l.
Proof.
  induction l as [|[m b] l IH]; cbn; [discriminate|]. destruct (bseq n m) eqn:E.
  - intros X; inversion X; subst. apply bseq_eq in E. subst. auto.
  - auto.
Qed.

Ltac fields := intros f; destruct f; cbn [w_acc put_acc strs ints set_s set_i sfield_beq ifield_beq upd acc_bool Z.eqb Pos.eqb]; try reflexivity.

Definition effect_ok (y : system) (n v : bytes) (w w' : work) : Prop :=
  (forall f, strs (w_acc w') f = upd (touch_s f n v) (strs (w_acc w) f)) /\
  (forall f, ints (w_acc w') f = upd (touch_i y f n v) (ints (w_acc w) f)) /\
  lists (w_acc w') = lists (w_acc w).

Ltac eff := unfold effect_ok; split; [|split; [|reflexivity]];
  [intros f; destruct f; reflexivity | intros f; destruct f; reflexivity].

Lemma set_param_effect y n v w w' : set_param params y n v w = Done w' -> effect_ok y n v w w'.
Proof.
  unfold set_param. destruct (find_param params n) as [a|] eqn:F.
  - apply find_param_In in F. unfold params in F. cbn [In] in F. intros E.
    repeat (destruct F as [F|F]; [inversion F; subst n a; clear F|]); try contradiction;
    try (inversion E; subst w'; eff).
    + unfold a_key in E. destruct (changeme v); [discriminate|]. inversion E; subst w'; eff.
    + unfold a_key_base64 in E. destruct (changeme v); [discriminate|]. destruct (negb _); [discriminate|].
      destruct (b64_decode v) as [k|] eqn:B; [|discriminate]. inversion E; subst w'.
      unfold effect_ok; split; [|split; [|reflexivity]]; intros f; destruct f; try reflexivity; cbn; rewrite B; reflexivity.
    + unfold a_hmac_type in E. cbv zeta in E. destruct (_ <? 0); [discriminate|]. inversion E; subst w'; eff.
    + unfold a_hmac_key_base64 in E. destruct (changeme v); [discriminate|]. destruct (negb _); [discriminate|].
      destruct (b64_decode v) as [k|] eqn:B; [|discriminate]. inversion E; subst w'.
      unfold effect_ok; split; [|split; [|reflexivity]]; intros f; destruct f; try reflexivity; cbn; rewrite B; reflexivity.
    + unfold a_hmac_key in E. destruct (changeme v); [discriminate|]. inversion E; subst w'; eff.
    + unfold a_number in E. destruct (strtol_wrapper v 0 8388608) as [x e] eqn:S. destruct (strtol_ok e); [|discriminate].
      apply num_wrapper in S. subst x. inversion E; subst w'; eff.
    + unfold a_number in E. destruct (strtol_wrapper v 0 8388608) as [x e] eqn:S. destruct (strtol_ok e); [|discriminate].
      apply num_wrapper in S. subst x. inversion E; subst w'; eff.
    + unfold a_mode in E. cbv zeta in E. destruct (_ <? 0); [discriminate|]. inversion E; subst w'; eff.
    + unfold a_user in E. destruct (y_pw y v) as [[u g]|] eqn:P; [|discriminate]. inversion E; subst w'.
      unfold effect_ok; split; [|split; [|reflexivity]]; intros f; destruct f; try reflexivity; cbn; rewrite P; reflexivity.
    + unfold a_group in E. destruct (y_pw y v) as [[u g]|] eqn:P; [|discriminate]. inversion E; subst w'.
      unfold effect_ok; split; [|split; [|reflexivity]]; intros f; destruct f; try reflexivity; cbn; rewrite P; reflexivity.
    + unfold a_user in E. destruct (y_pw y v) as [[u g]|] eqn:P; [|discriminate]. inversion E; subst w'.
      unfold effect_ok; split; [|split; [|reflexivity]]; intros f; destruct f; try reflexivity; cbn; rewrite P; reflexivity.
    + unfold a_group in E. destruct (y_pw y v) as [[u g]|] eqn:P; [|discriminate]. inversion E; subst w'.
      unfold effect_ok; split; [|split; [|reflexivity]]; intros f; destruct f; try reflexivity; cbn; rewrite P; reflexivity.
    + unfold a_number in E. destruct (strtol_wrapper v 1 8388608) as [x e] eqn:S. destruct (strtol_ok e); [|discriminate].
      apply num_wrapper in S. subst x. inversion E; subst w'; eff.
    + unfold a_gpg_home in E. destruct (y_is_dir y v); [|discriminate]. inversion E; subst w'; eff.
    + unfold a_gpg_pw in E. destruct (changeme v); [discriminate|]. inversion E; subst w'; eff.
    + inversion E; subst w'. cbn [put_acc w_acc]. unfold effect_ok. cbn [w_acc].
      destruct (acc_bool v =? 1) eqn:B; (split; [|split; [|reflexivity]]);
        intros f; destruct f; try reflexivity; cbn; rewrite B; reflexivity.
    + unfold a_expire in E. destruct (acc_expire_time y v) as [t|] eqn:P; [|discriminate]. inversion E; subst w'.
      unfold effect_ok; split; [|split; [|reflexivity]]; intros f; destruct f; try reflexivity; cbn; rewrite P; reflexivity.
    + unfold a_expire_epoch in E. destruct (acc_expire_epoch v) as [t|] eqn:P; [|discriminate]. inversion E; subst w'.
      unfold effect_ok; split; [|split; [|reflexivity]]; intros f; destruct f; try reflexivity; cbn; rewrite P; reflexivity.
    + unfold a_force_nat in E. destruct (negb _); [discriminate|]. destruct (acc_force_nat v (w_acc w)) as [a|] eqn:P; [|discriminate].
      inversion E; subst w'. unfold acc_force_nat in P.
      destruct (scan_word 15 v) as [[ip r]|] eqn:S1; [|discriminate]. cbn [obind] in P. destruct (scan_num_n 5 r) as [[q r2]|] eqn:S2; [|discriminate].
      cbn [obind] in P; cbv zeta in P. destruct (65535 <? u32 q); [discriminate|]. destruct (negb _); [discriminate|]. inversion P; subst a.
      unfold effect_ok; split; [|split; [|reflexivity]]; intros f; destruct f; try reflexivity; cbn; rewrite ?S1, ?S2; reflexivity.
    + unfold a_force_snat in E. destruct (negb _); [discriminate|]. destruct (acc_force_snat v (w_acc w)) as [a|] eqn:P; [|discriminate].
      inversion E; subst w'. unfold acc_force_snat in P.
      destruct (scan_word 15 v) as [[ip r]|] eqn:S1; [|discriminate]. cbn [obind] in P. destruct (negb _); [discriminate|]. inversion P; subst a.
      unfold effect_ok; split; [|split; [|reflexivity]]; intros f; destruct f; try reflexivity; cbn; rewrite ?S1; reflexivity.
  - intros E; inversion E; subst w'.
    assert (N : forall p, In p (map fst params) -> is n p = false).
    { intros p I. destruct (is n p) eqn:X; [|reflexivity]. apply bseq_eq in X. subst p. exfalso. revert F. revert I. generalize params.
      induction l as [|[m b] l IH]; cbn; [contradiction|]. intros [->|I]; [rewrite bseq_refl; discriminate|]. destruct (bseq n m); [discriminate|auto]. }
    unfold effect_ok. split; [|split; [|reflexivity]]; intros f; destruct f; cbn [touch_s touch_i upd]; try reflexivity;
      repeat (rewrite N by (cbn; tauto)); reflexivity.
Qed.
