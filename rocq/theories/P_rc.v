(** Proofs about the configuration of the client: what an entry of the rc file and an option of
    the command line change. *)
From Verif Require Import Bytes M_accfile M_base64 M_util M_message M_codec M_cipher M_ctx M_access M_replay M_cycle M_incoming M_conf M_codec M_client M_send
  S_base64 S_text S_conf S_accfile P_bytes P_base64 P_util P_util2 P_access P_replay P_conf P_accfile P_accfile2 P_accfile3 P_accfile4 P_client P_client4 M_rc S_rc.
From Coq Require Import Init.Byte List ZArith Bool Lia.
Import ListNotations.
Open Scope Z_scope.

Local Ltac ands := repeat match goal with |- _ /\ _ => split end.

Definition nv (v : bytes) : Z := fst (strtol_wrapper v 0 0).
Lemma nv_wrapper v lo hi x e : strtol_wrapper v lo hi = (x, e) -> x = nv v.
Proof. unfold nv, strtol_wrapper. destruct (strtol v). intros E; inversion E; reflexivity. Qed.

(** ** What an entry changes *)
Definition touch_t (f : tfield) (n v : bytes) : option bytes :=
  let one p := if is n p then Some (fit f v) else None in
  match f with
  | t_access => one ($ "ACCESS")
  | t_server => one ($ "SPA_SERVER")
  | t_ip => if is n ($ "-s") then Some ($ "0.0.0.0") else if is n ($ "-a") then Some (fit t_ip v)
            else if is n ($ "ALLOW_IP") then
              if strcaseeq v ($ "source") then Some ($ "0.0.0.0") else if strcaseeq v ($ "resolve") then None else Some (fit t_ip v)
            else None
  | t_spoof_ip => one ($ "SPOOF_SOURCE_IP")
  | t_user => one ($ "SPOOF_USER")
  | t_recipient => one ($ "GPG_RECIPIENT")
  | t_signer => one ($ "GPG_SIGNER")
  | t_gpg_home => if is n ($ "--gpg-home-dir") then Some (fit t_gpg_home (chop_slash (fit t_gpg_home v))) else one ($ "GPG_HOMEDIR")
  | t_gpg_exe => one ($ "GPG_EXE")
  | t_key => if is n ($ "KEY") then Some (fit t_key v) else one ($ "GPG_SIGNING_PW")
  | t_key64 => if is n ($ "KEY_BASE64") then Some (fit t_key64 v) else one ($ "GPG_SIGNING_PW_BASE64")
  | t_hmac => one ($ "HMAC_KEY")
  | t_hmac64 => one ($ "HMAC_KEY_BASE64")
  | t_key_file => if is n ($ "KEY_FILE") then Some (fit t_key_file v) else one ($ "HMAC_KEY_FILE")
  | t_hmac_file => one ($ "--get-hmac-key")
  | t_nat => one ($ "NAT_ACCESS")
  | t_agent => one ($ "HTTP_USER_AGENT")
  | t_url => one ($ "RESOLVE_URL")
  | t_wget => one ($ "WGET_CMD")
  | t_command => one ($ "-C")
  | t_save_file => one ($ "-B")
  | t_proxy => one ($ "-H")
  | t_args_file | t_rc_file | t_stanza | t_gen_file => None
  end.
Definition off_value (v : bytes) : option Z := match time_offset v with Ok (Some (z, _)) => Some z | _ => None end.
Definition minus_value (v : bytes) : bool := match v with c :: _ => beq c "-"%byte | [] => false end.
Definition touch_n (f : qfield) (n v : bytes) : option Z :=
  let yes p := if is n p then if is_yes v then Some 1 else None else None in
  let number p := if is n p then Some (nv v) else None in
  match f with
  | q_digest => if is n ($ "DIGEST_TYPE") then Some (hmac_digest_strtoint v) else None
  | q_proto => if is n ($ "SPA_SERVER_PROTO") then Some (name_value protos v) else None
  | q_dport => number ($ "SPA_SERVER_PORT")
  | q_sport => number ($ "SPA_SOURCE_PORT")
  | q_timeout => if is n ($ "FW_TIMEOUT") then Some (nv v) else number ($ "-f")
  | q_plus => if is n ($ "--time-offset-plus") then off_value v
              else if is n ($ "TIME_OFFSET") then if minus_value v then None else off_value v else None
  | q_minus => if is n ($ "--time-offset-minus") then off_value v
               else if is n ($ "TIME_OFFSET") then if minus_value v then off_value (tl v) else None else None
  | q_mode => if is n ($ "ENCRYPTION_MODE") then Some (enc_mode_strtoint v) else None
  | q_use_gpg => yes ($ "USE_GPG")
  | q_gpg_agent => yes ($ "USE_GPG_AGENT")
  | q_gpg_no_pw => yes ($ "GPG_NO_SIGNING_PW")
  | q_rand_port => yes ($ "RAND_PORT")
  | q_have_key => if is n ($ "KEY") || is n ($ "GPG_SIGNING_PW") then Some 1 else None
  | q_have_key64 => if is n ($ "KEY_BASE64") || is n ($ "GPG_SIGNING_PW_BASE64") then Some 1 else None
  | q_have_hmac => if is n ($ "HMAC_KEY") then Some 1 else None
  | q_have_hmac64 => if is n ($ "HMAC_KEY_BASE64") then Some 1 else None
  | q_hmac_type => if is n ($ "HMAC_DIGEST_TYPE") then Some (hmac_digest_strtoint v) else None
  | q_use_hmac => if is n ($ "HMAC_KEY") || is n ($ "HMAC_KEY_BASE64") then Some 1 else yes ($ "USE_HMAC")
  | q_wget_agent => yes ($ "USE_WGET_USER_AGENT")
  | q_resolve => if is n ($ "RESOLVE_IP_HTTP") then if is_yes v then Some 1 else None
                 else if is n ($ "RESOLVE_IP_HTTPS") then if is_yes v then Some 1 else None
                 else if is n ($ "ALLOW_IP") then if strcaseeq v ($ "source") then Some 0 else if strcaseeq v ($ "resolve") then Some 1 else Some 0
                 else None
  | q_http_only => yes ($ "RESOLVE_HTTP_ONLY")
  | q_have_url => if is n ($ "RESOLVE_URL") then Some 1 else None
  | q_ipv4 => yes ($ "SERVER_RESOLVE_IPV4")
  | q_nat_local => yes ($ "NAT_LOCAL")
  | q_nat_rand => yes ($ "NAT_RAND_PORT")
  | q_nat_port => number ($ "NAT_PORT")
  | q_verbose => if is n ($ "VERBOSE") then if is_yes v then Some 1 else Some (nv v) else None
  | q_no_save => yes ($ "NO_SAVE_ARGS")
  | q_test => yes ($ "-T")
  | q_key_gen => yes ($ "-k")
  | q_version => yes ($ "-V")
  | q_show_last => yes ($ "--show-last")
  | q_run_last => yes ($ "-l")
  | q_icmp_type => number ($ "--icmp-type")
  | q_icmp_code => number ($ "--icmp-code")
  | q_append => yes ($ "-b")
  | q_force => yes ($ "--force-stanza")
  | q_key_len | q_hmac_key_len | q_no_home | q_no_rc | q_got | q_save | q_list | q_fd => None
  end.
(** Fields that are not covered *)
Definition unseen (f : qfield) : bool :=
  match f with q_key_len | q_hmac_key_len | q_got | q_fd => true | _ => false end.
Definition unseen_t (f : tfield) : bool := match f with t_args_file | t_rc_file | t_gen_file => true | _ => false end.
Definition moved (b : list (bytes * bytes)) (o o' : copts) : Prop :=
  (forall f, unseen_t f = false -> txt o' f = fold_left (fun x e => upd (touch_t f (fst e) (snd e)) x) b (txt o f)) /\
  (forall f, unseen f = false -> num o' f = fold_left (fun x e => upd (touch_n f (fst e) (snd e)) x) b (num o f)).
Lemma moved_app b c o o1 o2 : moved b o o1 -> moved c o1 o2 -> moved (b ++ c) o o2.
Proof. intros [A B] [C D]. split; intros f U; rewrite fold_left_app; [rewrite <- A, <- C|rewrite <- B, <- D]; auto. Qed.
Lemma moved_nil o : moved [] o o.
Proof. split; reflexivity. Qed.

Lemma lookup_In l n x : lookup l n = Some x -> In (n, x) l.
Proof.
  induction l as [|[m y] l IH]; cbn; [discriminate|]. destruct (bseq n m) eqn:E.
  - intros X; inversion X; subst. apply bseq_eq in E. subst. auto.
  - auto.
Qed.

Ltac fields := split; intros f U; destruct f; try discriminate U; clear U; reflexivity.
Lemma e_number_ok f hi v o o' : e_number f hi v o = Ok (true, o') -> o' = set_n f (nv v) o.
Proof.
  unfold e_number. destruct (strtol_wrapper v 0 hi) as [x e] eqn:W. destruct (strtol_ok e); [|discriminate].
  intros E; inversion E; subst. now rewrite (nv_wrapper _ _ _ _ _ W).
Qed.
Lemma e_name_ok f z o o' : e_name f z o = Ok (true, o') -> o' = set_n f z o.
Proof. unfold e_name. destruct (z <? 0); [discriminate|]. intros E; inversion E; reflexivity. Qed.
Lemma e_offset_ok f v o o' : e_offset f v o = Ok (true, o') -> exists z, off_value v = Some z /\ o' = set_n f z o.
Proof.
  unfold e_offset, off_value. destruct (time_offset v) as [[[z ok]|]|]; try discriminate. intros E; inversion E; subst. eauto.
Qed.
Lemma ok_snd {A B} (a b : A) (x y : B) : Ok (a, x) = Ok (b, y) -> y = x.
Proof. intros E; inversion E; reflexivity. Qed.
Lemma entry_moved n x v o o' : lookup var_array n = Some x -> parse_rc_param x v o = Ok (true, o') -> moved [(n, v)] o o'.
Proof.
  intros L E. apply lookup_In in L. unfold var_array in L. cbn [In] in L.
  repeat (destruct L as [L|L]; [injection L; clear L; intros <- <-; cbn [parse_rc_param] in E; cbv beta in E;
    first [ apply e_number_ok in E; subst o'; fields
          | apply e_name_ok in E; subst o'; fields
          | unfold e_yes in E; inversion E; subst o'; clear E; split; intros f U; destruct f; try discriminate U; clear U; try reflexivity;
              cbn [fold_left touch_n touch_t fst snd upd]; cbv beta iota; destruct (is_yes v); reflexivity
          | unfold e_text in E; inversion E; subst o'; fields
          | idtac ]|]); try contradiction.
  all: try (apply ok_snd in E; subst o'; fields).
  - (* ALLOW_IP *)
    destruct (strcaseeq v ($ "source")) eqn:E1; [|destruct (strcaseeq v ($ "resolve")) eqn:E2]; cbv zeta in E; apply ok_snd in E; subst o';
      (split; intros f U; (destruct f; try discriminate U; clear U; try reflexivity;
       cbn [fold_left touch_n touch_t fst snd upd]; change (is ($ "ALLOW_IP") ($ "ALLOW_IP")) with true;
       cbv iota; rewrite E1, ?E2; reflexivity)).
  - (* TIME_OFFSET *)
    destruct v as [|c r].
    + apply e_offset_ok in E as (z & Z & ->). split; intros f U; (destruct f; try discriminate U; clear U; try reflexivity).
      cbn [fold_left fst snd touch_n minus_value]. change (is ($ "TIME_OFFSET") ($ "TIME_OFFSET")) with true. cbv iota. rewrite Z. reflexivity.
    + destruct (beq c "-"%byte) eqn:M; apply e_offset_ok in E as (z & Z & ->); split; intros f U; (destruct f; try discriminate U; clear U; try reflexivity);
        cbn [fold_left fst snd touch_n minus_value tl]; change (is ($ "TIME_OFFSET") ($ "TIME_OFFSET")) with true; cbv iota; rewrite M, ?Z; reflexivity.
  - destruct (is_yes v) eqn:Y.
    + inversion E; subst o'. split; intros f U; (destruct f; try discriminate U; clear U; try reflexivity).
    cbn [fold_left fst snd touch_n]. change (is ($ "VERBOSE") ($ "VERBOSE")) with true. cbv iota. rewrite Y. reflexivity.
    + apply e_number_ok in E; subst o'. split; intros f U; (destruct f; try discriminate U; clear U; try reflexivity).
    cbn [fold_left fst snd touch_n]. change (is ($ "VERBOSE") ($ "VERBOSE")) with true. cbv iota. rewrite Y. reflexivity.
Qed.

Lemma s_number_ok f lo hi v o o' : s_number f lo hi v o = Ok (Some o') -> o' = set_n f (nv v) o.
Proof.
  unfold s_number. destruct (strtol_wrapper v lo hi) as [x e] eqn:W. destruct (strtol_ok e); [|discriminate].
  intros E; inversion E; subst. now rewrite (nv_wrapper _ _ _ _ _ W).
Qed.
Lemma s_offset_ok f v o o' : s_offset f v o = Ok (Some o') -> exists z, off_value v = Some z /\ o' = set_n f z o.
Proof.
  unfold s_offset. destruct (e_offset f v o) as [[[|] o1]|] eqn:E; try discriminate. intros X; inversion X; subst. eapply e_offset_ok; eauto.
Qed.
Ltac offs Z := split; intros f U; (destruct f; try discriminate U; clear U; try reflexivity); cbn [fold_left fst snd touch_n];
  repeat match goal with |- context [is ?a ?b] => let r := eval vm_compute in (is a b) in change (is a b) with r; cbv iota end; rewrite Z; reflexivity.
Lemma arg_moved a o m o' m' : second_arg a (o, m) = Ok (Some (o', m')) -> moved (means a) o o'.
Proof.
  destruct a as [c v]. destruct c; cbn [second_arg means]; cbv beta zeta; intro E;
    try discriminate E;
    try (injection E; clear E; intros _ <-; fields);
    try (apply sbind_ok in E as (o1 & S & E); injection E; clear E; intros _ <-;
         first [apply s_number_ok in S; subst o1; fields | apply s_offset_ok in S as (z & Z & ->); offs Z]);
    try (match type of E with (if ?b then _ else _) = _ => destruct b end; try discriminate E; injection E; clear E; intros _ <-; fields).
Qed.
Lemma args_moved args : forall o m o' m', all_args second_arg args (o, m) = Ok (Some (o', m')) -> moved (command args) o o'.
Proof.
  induction args as [|a args IH]; intros o m o' m' E; cbn [all_args] in E.
  - injection E as <- _. apply moved_nil.
  - apply sbind_ok in E as ([o1 m1] & S & E). change (command (a :: args)) with (means a ++ command args).
    eapply moved_app; [eapply arg_moved; eauto|eauto].
Qed.
