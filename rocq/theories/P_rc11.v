(** Proofs about the configuration of the client: what is saved is what was given. *)
From Verif Require Import Bytes M_accfile M_base64 M_util M_message M_codec M_cipher M_ctx M_access M_replay M_cycle M_incoming M_conf M_codec M_client M_send
  S_base64 S_text S_conf S_accfile S_client S_send P_bytes P_base64 P_util P_util2 P_access P_replay P_conf P_accfile P_accfile2 P_accfile3 P_accfile4 P_accfile6 P_message P_codec P_ctx2 P_client P_client4 M_rc S_rc P_rc P_rc2 P_rc3 P_rc4 P_rc5 P_rc6 P_rc9 P_rc10.
From Coq Require Import Init.Byte List ZArith Bool Lia.
Import ListNotations.
Open Scope Z_scope.

Local Ltac ands := repeat match goal with |- _ /\ _ => split end.

(** ** The variables of an option *)
Definition vars_of (c : copt) : list var :=
  match c with
  | O_a => [V_ALLOW_IP] | O_A => [V_ACCESS] | O_D => [V_SPA_SERVER] | O_f => [V_FW_TIMEOUT] | O_g => [V_USE_GPG] | O_G => [V_KEY_FILE]
  | O_get_hmac_key => [V_HMAC_KEY_FILE] | O_key_rijndael => [V_KEY] | O_key_base64_rijndael => [V_KEY_BASE64]
  | O_key_base64_hmac => [V_USE_HMAC; V_HMAC_KEY_BASE64] | O_key_hmac => [V_USE_HMAC; V_HMAC_KEY]
  | O_hmac_digest_type => [V_USE_HMAC; V_HMAC_DIGEST_TYPE] | O_hmac_key_len => [V_USE_HMAC] | O_m => [V_DIGEST_TYPE] | O_M => [V_ENCRYPTION_MODE]
  | O_no_save_args => [V_NO_SAVE_ARGS] | O_N => [V_NAT_ACCESS] | O_p => [V_SPA_SERVER_PORT] | O_P => [V_SPA_SERVER_PROTO] | O_Q => [V_SPOOF_SOURCE_IP]
  | O_r => [V_RAND_PORT] | O_R => [V_RESOLVE_IP_HTTPS] | O_resolve_http_only => [V_RESOLVE_IP_HTTPS; V_RESOLVE_HTTP_ONLY] | O_resolve_url => [V_RESOLVE_URL]
  | O_server_resolve_ipv4 => [V_SERVER_RESOLVE_IPV4] | O_w => [V_WGET_CMD] | O_S => [V_SPA_SOURCE_PORT] | O_u => [V_HTTP_USER_AGENT] | O_U => [V_SPOOF_USER]
  | O_gpg_recipient_key => [V_GPG_RECIPIENT; V_USE_GPG] | O_gpg_signer_key => [V_GPG_SIGNER; V_USE_GPG] | O_gpg_home_dir => [V_GPG_HOMEDIR; V_USE_GPG]
  | O_gpg_exe => [V_GPG_EXE; V_USE_GPG] | O_gpg_agent => [V_USE_GPG_AGENT; V_USE_GPG] | O_gpg_no_signing_pw => [V_GPG_NO_SIGNING_PW; V_USE_GPG]
  | O_nat_local => [V_NAT_LOCAL] | O_nat_rand_port => [V_NAT_RAND_PORT] | O_nat_port => [V_NAT_PORT] | O_time_plus | O_time_minus => [V_TIME_OFFSET]
  | O_use_hmac => [V_USE_HMAC] | O_use_wget_user_agent => [V_USE_WGET_USER_AGENT]
  | _ => []
  end.
Lemma arg_mask a o m o' m' : second_arg a (o, m) = Ok (Some (o', m')) -> m' = vars_of (fst a) ++ m.
Proof.
  destruct a as [c v]. destruct c; cbn [second_arg fst vars_of app]; cbv beta zeta; intro E; try discriminate E;
    try (injection E; clear E; intros <- _; reflexivity);
    try (apply sbind_ok in E as (o1 & S & E); injection E; clear E; intros <- _; reflexivity);
    (match type of E with (if ?b then _ else _) = _ => destruct b end; try discriminate E; injection E; clear E; intros <- _; reflexivity).
Qed.
Lemma mem_app x a b : mem_var x (a ++ b) = mem_var x a || mem_var x b.
Proof. apply existsb_app. Qed.
Definition given_var (x : var) (args : list arg) : bool := existsb (fun a => mem_var x (vars_of (fst a))) args.
Lemma args_mask args x : forall o m o' m', all_args second_arg args (o, m) = Ok (Some (o', m')) -> mem_var x m' = mem_var x m || given_var x args.
Proof.
  induction args as [|a args IH]; intros o m o' m' E; cbn [all_args] in E.
  - injection E as _ <-. cbn [given_var existsb]. now rewrite orb_false_r.
  - apply sbind_ok in E as ([o1 m1] & S & E). rewrite (IH _ _ _ _ E), (arg_mask _ _ _ _ _ S), mem_app. unfold given_var. cbn [existsb].
    now rewrite orb_assoc, (orb_comm (mem_var x m)).
Qed.
Lemma first_mask args x : x <> V_VERBOSE -> forall o m o' m', all_args first_arg args (o, m) = Ok (Some (o', m')) -> mem_var x m' = mem_var x m.
Proof.
  intros N. induction args as [|[c v] args IH]; intros o m o' m' E; cbn [all_args] in E.
  - now injection E as _ <-.
  - apply sbind_ok in E as ([o1 m1] & S & E). rewrite (IH _ _ _ _ E). destruct c; cbn [first_arg] in S; try discriminate S; injection S as _ <-; try reflexivity.
    unfold mem_var. cbn [existsb]. destruct (var_beq x V_VERBOSE) eqn:B; [|reflexivity]. apply internal_var_dec_bl in B. contradiction.
Qed.

(** ** Fields and their variables *)
Definition ttable : list (tfield * var * bytes) :=
  [ (t_access, V_ACCESS, $ "ACCESS"); (t_server, V_SPA_SERVER, $ "SPA_SERVER"); (t_ip, V_ALLOW_IP, $ "ALLOW_IP"); (t_spoof_ip, V_SPOOF_SOURCE_IP, $ "SPOOF_SOURCE_IP");
    (t_user, V_SPOOF_USER, $ "SPOOF_USER"); (t_recipient, V_GPG_RECIPIENT, $ "GPG_RECIPIENT"); (t_signer, V_GPG_SIGNER, $ "GPG_SIGNER");
    (t_gpg_home, V_GPG_HOMEDIR, $ "GPG_HOMEDIR"); (t_gpg_exe, V_GPG_EXE, $ "GPG_EXE"); (t_key, V_KEY, $ "KEY"); (t_key64, V_KEY_BASE64, $ "KEY_BASE64");
    (t_hmac, V_HMAC_KEY, $ "HMAC_KEY"); (t_hmac64, V_HMAC_KEY_BASE64, $ "HMAC_KEY_BASE64"); (t_key_file, V_KEY_FILE, $ "KEY_FILE"); (t_nat, V_NAT_ACCESS, $ "NAT_ACCESS");
    (t_agent, V_HTTP_USER_AGENT, $ "HTTP_USER_AGENT"); (t_url, V_RESOLVE_URL, $ "RESOLVE_URL"); (t_wget, V_WGET_CMD, $ "WGET_CMD") ].
Definition ntable : list (qfield * var * bytes) :=
  [ (q_digest, V_DIGEST_TYPE, $ "DIGEST_TYPE"); (q_proto, V_SPA_SERVER_PROTO, $ "SPA_SERVER_PROTO"); (q_dport, V_SPA_SERVER_PORT, $ "SPA_SERVER_PORT");
    (q_sport, V_SPA_SOURCE_PORT, $ "SPA_SOURCE_PORT"); (q_timeout, V_FW_TIMEOUT, $ "FW_TIMEOUT"); (q_mode, V_ENCRYPTION_MODE, $ "ENCRYPTION_MODE");
    (q_use_gpg, V_USE_GPG, $ "USE_GPG"); (q_gpg_agent, V_USE_GPG_AGENT, $ "USE_GPG_AGENT"); (q_gpg_no_pw, V_GPG_NO_SIGNING_PW, $ "GPG_NO_SIGNING_PW");
    (q_rand_port, V_RAND_PORT, $ "RAND_PORT"); (q_have_key, V_KEY, $ "KEY"); (q_have_key64, V_KEY_BASE64, $ "KEY_BASE64"); (q_have_hmac, V_HMAC_KEY, $ "HMAC_KEY");
    (q_have_hmac64, V_HMAC_KEY_BASE64, $ "HMAC_KEY_BASE64"); (q_hmac_type, V_HMAC_DIGEST_TYPE, $ "HMAC_DIGEST_TYPE"); (q_wget_agent, V_USE_WGET_USER_AGENT, $ "USE_WGET_USER_AGENT");
    (q_http_only, V_RESOLVE_HTTP_ONLY, $ "RESOLVE_HTTP_ONLY"); (q_have_url, V_RESOLVE_URL, $ "RESOLVE_URL"); (q_ipv4, V_SERVER_RESOLVE_IPV4, $ "SERVER_RESOLVE_IPV4");
    (q_nat_local, V_NAT_LOCAL, $ "NAT_LOCAL"); (q_nat_rand, V_NAT_RAND_PORT, $ "NAT_RAND_PORT"); (q_nat_port, V_NAT_PORT, $ "NAT_PORT") ].
Definition some {X} (x : option X) : bool := match x with Some _ => true | None => false end.
Definition touchedb {X} (t : bytes -> bytes -> option X) (b : list (bytes * bytes)) : bool := existsb (fun e => some (t (fst e) (snd e))) b.
Lemma table_t a : savable (fst a) = true -> Forall (fun '(f, x, _) => touchedb (touch_t f) (means a) = mem_var x (vars_of (fst a))) ttable.
Proof. destruct a as [c v]. destruct c; cbn [fst savable]; intros S; try discriminate S; clear S; repeat constructor. Qed.
Lemma table_n a : savable (fst a) = true -> Forall (fun '(f, x, _) => touchedb (touch_n f) (means a) = mem_var x (vars_of (fst a))) ((q_use_hmac, V_USE_HMAC, $ "USE_HMAC") :: ntable).
Proof. destruct a as [c v]. destruct c; cbn [fst savable]; intros S; try discriminate S; clear S; repeat constructor. Qed.
Lemma touched_app {X} (t : bytes -> bytes -> option X) a b : touchedb t (a ++ b) = touchedb t a || touchedb t b.
Proof. apply existsb_app. Qed.
Lemma touched_given {X} (t : bytes -> bytes -> option X) x args :
  (forall a, In a args -> touchedb t (means a) = mem_var x (vars_of (fst a))) -> touchedb t (command args) = given_var x args.
Proof.
  induction args as [|a args IH]; intros H; [reflexivity|]. change (command (a :: args)) with (means a ++ command args). rewrite touched_app, IH by (intros; apply H; now right).
  unfold given_var. cbn [existsb]. now rewrite H by now left.
Qed.
Lemma run_cases {X} (t : bytes -> bytes -> option X) b :
  (touchedb t b = false /\ forall d, run t b d = d) \/ (touchedb t b = true /\ exists n v x, In (n, v) b /\ t n v = Some x /\ forall d, run t b d = x).
Proof.
  induction b as [|[n v] b IH] using rev_ind; [left; auto|]. rewrite touched_app. unfold touchedb at 2 4. cbn [existsb fst snd]. rewrite !orb_false_r.
  destruct (t n v) as [x|] eqn:T; cbn [some].
  - right. rewrite orb_true_r. split; [reflexivity|]. exists n, v, x. ands; auto; [apply in_or_app; right; now left|]. intros d. now rewrite run_snoc, T.
  - rewrite !orb_false_r. destruct IH as [[A B]|(A & k & w & x & I & TK & R)]; [left|right]; rewrite A.
    + split; [reflexivity|]. intros d. rewrite run_snoc, T. apply B.
    + split; [reflexivity|]. exists k, w, x. ands; auto; [apply in_or_app; now left|]. intros d. rewrite run_snoc, T. apply R.
Qed.
Lemma run_flat {X} (t : bytes -> bytes -> option X) o m l d :
  run t (flat_map (fun '(n, x) => if mem_var x m then match var_text x o with Some v => [(n, v)] | None => [] end else []) l) d =
  fold_left (fun y '(n, x) => if mem_var x m then match var_text x o with Some v => upd (t n v) y | None => y end else y) l d.
Proof.
  revert d. induction l as [|[n x] l IH]; intros d; [reflexivity|]. cbn [flat_map fold_left]. rewrite run_app, IH. f_equal.
  destruct (mem_var x m); [|reflexivity]. destruct (var_text x o); reflexivity.
Qed.
Lemma run_saved {X} (t : bytes -> bytes -> option X) o m n x d : In (n, x) var_array ->
  (forall n' x' v, In (n', x') var_array -> n' <> n -> mem_var x' m = true -> var_text x' o = Some v -> t n' v = None) ->
  run t (saved o m) d = if mem_var x m then match var_text x o with Some v => upd (t n v) d | None => d end else d.
Proof.
  intros I NT. unfold saved. rewrite run_flat.
  assert (ND : NoDup (map fst var_array)).
  { assert (Q : forall l : list bytes, (fix nd l := match l with [] => true | x :: r => negb (existsb (bseq x) r) && nd r end) l = true -> NoDup l).
    { induction l as [|y l IH]; [constructor|]. rewrite andb_true_iff, negb_true_iff. intros [A B]. constructor; [|auto]. intros J.
      assert (existsb (bseq y) l = true) by (apply existsb_exists; exists y; split; [exact J|now apply bseq_eq]). congruence. }
    apply Q. vm_compute. reflexivity. }
  assert (SKIP : forall l d, incl l var_array -> ~ In n (map fst l) ->
    fold_left (fun y '(n, x) => if mem_var x m then match var_text x o with Some v => upd (t n v) y | None => y end else y) l d = d).
  { induction l as [|[n' x'] l IH]; intros d0 IL NI; [reflexivity|]. cbn [fold_left]. cbn [map fst In] in NI. rewrite IH; [|intros y Y; apply IL; now right|tauto].
    destruct (mem_var x' m) eqn:M; [|reflexivity]. destruct (var_text x' o) as [v|] eqn:V; [|reflexivity]. now rewrite (NT n' x' v (IL _ (or_introl eq_refl)) ltac:(intros ->; tauto) M V). }
  revert d. apply in_split in I as (l1 & l2 & EQ). intros d. rewrite EQ in ND, SKIP |- *. rewrite map_app in ND. cbn [map fst] in ND.
  apply NoDup_remove_2 in ND. rewrite in_app_iff in ND. rewrite fold_left_app. cbn [fold_left]. rewrite (SKIP l1); [|intros y Y; apply in_or_app; now left|tauto].
  rewrite (SKIP l2); [reflexivity|intros y Y; apply in_or_app; right; now right|tauto].
Qed.
