(** Proofs about the configuration of the client: the saved entries are accepted. *)
From Verif Require Import Bytes M_accfile M_base64 M_util M_message M_codec M_cipher M_ctx M_access M_replay M_cycle M_incoming M_conf M_codec M_client M_send
  S_base64 S_text S_conf S_accfile S_client S_send P_bytes P_base64 P_util P_util2 P_access P_replay P_conf P_accfile P_accfile2 P_accfile3 P_accfile4 P_accfile6 P_message P_codec P_ctx2 P_client P_client4 M_rc S_rc P_rc P_rc2 P_rc3 P_rc4 P_rc5 P_rc6 P_rc9 P_rc10 P_rc11 P_rc12.
From Coq Require Import Init.Byte List ZArith Bool Lia.
Import ListNotations.
Open Scope Z_scope.

Local Ltac ands := repeat match goal with |- _ /\ _ => split end.

Lemma dec_ok_num n hi : 0 <= n <= hi -> hi <= 131072 -> ok_num hi (dec_i n) = true.
Proof.
  intros R H. unfold ok_num, dec_i. destruct (Z.ltb_spec n 0); [lia|]. destruct (dec_spec n) as (D & E & L & _); [lia|].
  assert (NE : dec n <> []) by (intros Q; rewrite Q in L; rewrite zlen_nil in L; lia).
  destruct (strtol_wrapper (dec n) 0 hi) as [x e] eqn:W. cbn [snd].
  destruct (strtol_wrapper_reads _ 0 hi _ (digits_integer _ D NE) ltac:(lia) _ _ W) as [-> X]. rewrite E in *. assert (XE : e = STRTOL_OK) by (apply X; lia). now subst e.
Qed.
Lemma means_short a : Forall (fun e => zlen (snd e) <= Z.max 9 (zlen (snd a))) (means a).
Proof.
  destruct a as [c v]. cbn [snd]. assert (Y : zlen ($ "Y") <= Z.max 9 (zlen v)) by (change (zlen ($ "Y")) with 1; lia). assert (H : zlen ($ "http") <= Z.max 9 (zlen v)) by (change (zlen ($ "http")) with 4; lia). assert (V : zlen v <= Z.max 9 (zlen v)) by lia.
  destruct c; cbn [means]; repeat (apply Forall_cons; [cbn [snd]; assumption|]); apply Forall_nil.
Qed.
Lemma command_short args n v : (forall a, In a args -> zlen (snd a) <= 65535) -> In (n, v) (command args) -> zlen v <= 65535.
Proof.
  intros S. unfold command. rewrite in_concat. intros (l & L & I). apply in_map_iff in L as (a & <- & J). pose proof (means_short a) as F.
  rewrite Forall_forall in F. apply F in I. cbn [snd] in I. specialize (S a J). lia.
Qed.
Lemma in_ztake {X} n (l : list X) b : In b (ztake n l) -> In b l.
Proof. unfold ztake. revert l. induction (Z.to_nat n) as [|k IH]; intros [|y l] I; cbn [firstn] in I; try contradiction. destruct I as [I|I]; [now left|right; auto]. Qed.
Lemma base64_fit f v : zlen v <= 65535 -> is_base64 v (zlen v) = true -> is_base64 (fit f v) (zlen (fit f v)) = true.
Proof.
  unfold is_base64. intros L. rewrite u16_small by (pose proof (zlen_nonneg v); lia). rewrite ztake_all by lia. rewrite !forallb_forall. intros H b I. apply H.
  apply in_ztake in I. unfold fit in I. destruct (size f); [|exact I]. eapply in_ztake; eauto.
Qed.

Section Accepted.
Variables (args : list arg) (o : copts) (m : mask) (dt : tfield -> bytes) (dn : qfield -> Z).
Hypothesis SAV : forall a, In a args -> savable (fst a) = true.
Hypothesis LEN : forall a, In a args -> zlen (snd a) <= 65535.
Hypothesis MK : forall x, x <> V_VERBOSE -> mem_var x m = given_var x args.
Hypothesis GC : Forall good (command args).
Hypothesis OW : Forall (fun e => one_word (snd e)) (saved o m).
Let c := command args.
Hypothesis TXT : forall f, unseen_t f = false -> f <> t_stanza -> f <> t_agent -> txt o f = run (touch_t f) c (dt f).
Hypothesis NUM : forall f x n, In (f, x, n) ntable -> f <> q_hmac_type -> num o f = run (touch_n f) c (dn f).
Hypothesis HT : forall d, num o q_hmac_type = run (touch_n q_hmac_type) c d \/ run (touch_n q_hmac_type) c d = 0 \/ mem_var V_HMAC_DIGEST_TYPE m = false.
Hypothesis TIME : num o q_timeout <= 65536.
Hypothesis PLUS : 0 <= num o q_plus <= 65536.
Hypothesis MINUS : 0 <= num o q_minus <= 65536.
Hypothesis VERB : mem_var V_VERBOSE m = true -> 1 <= num o q_verbose <= 4.
Hypothesis IP : given (txt o t_ip) = true -> valid_ip (txt o t_ip) = true.

Lemma given_number f x n : In (f, x, n) ntable -> mem_var x m = true -> exists p v y, In (p, v) c /\ good (p, v) /\ touch_n f p v = Some y /\ forall d, run (touch_n f) c d = y.
Proof.
  intros T M. destruct (table_var_n _ _ _ T) as [IV NV].
  assert (TG : touchedb (touch_n f) c = true).
  { rewrite <- M, MK by exact NV. apply touched_given. intros a I. pose proof (table_n a (SAV a I)) as F. apply Forall_inv_tail in F. rewrite Forall_forall in F. exact (F _ T). }
  destruct (run_cases (touch_n f) c) as [[A B]|(A & p & v & y & I & TP & R)]; [congruence|]. exists p, v, y. ands; auto. rewrite Forall_forall in GC. apply GC, I.
Qed.
Lemma given_text f x n : In (f, x, n) ttable -> mem_var x m = true -> exists p v y, In (p, v) c /\ good (p, v) /\ touch_t f p v = Some y /\ forall d, run (touch_t f) c d = y.
Proof.
  intros T M. destruct (table_var_t _ _ _ T) as [IV NV].
  assert (TG : touchedb (touch_t f) c = true).
  { rewrite <- M, MK by exact NV. apply touched_given. intros a I. pose proof (table_t a (SAV a I)) as F. rewrite Forall_forall in F. exact (F _ T). }
  destruct (run_cases (touch_t f) c) as [[A B]|(A & p & v & y & I & TP & R)]; [congruence|]. exists p, v, y. ands; auto. rewrite Forall_forall in GC. apply GC, I.
Qed.
Lemma number_in_range f x n hi q : In (f, x, n) ntable -> mem_var x m = true -> f <> q_hmac_type -> touch_n f = (fun n v => if is n q then Some (nv v) else None) ->
  (forall w, goodb q w = ok_num hi w) -> 0 <= hi -> 0 <= num o f <= hi.
Proof.
  intros T M NH TN GB H. destruct (given_number f x n T M) as (p & v & y & I & G & TP & R). rewrite (NUM f x n T NH), R. rewrite TN in TP. unfold is in TP. destruct (bseq p q) eqn:P; [|discriminate TP]. injection TP as <-.
  apply bseq_eq in P. subst p. unfold good in G. cbn [fst snd] in G. rewrite GB in G. destruct (ok_num_in hi v H G) as [? _]. lia.
Qed.
Lemma saved_good e : In e (saved o m) -> In (fst e) variables /\ good e.
Proof.
  intros I. destruct e as [n v]. cbn [fst].
  pose proof OW as OW'. rewrite Forall_forall in OW'. pose proof (OW' _ I) as (_ & NE & _). cbn [snd] in NE. clear OW'.
  unfold saved in I. apply in_flat_map in I as ([n' x] & IV & I). destruct (mem_var x m) eqn:M; [|contradiction]. destruct (var_text x o) as [w|] eqn:W; [|contradiction].
  destruct I as [I|[]]. injection I as -> ->. unfold good. cbn [fst snd].
  unfold var_array in IV. cbn [In] in IV.
  repeat (destruct IV as [IV|IV]; [injection IV; clear IV; intros <- <-; split; [unfold variables; cbn [In]; tauto|]; first [reflexivity|discriminate W|cbn [var_text] in W; injection W as <-]|]); try contradiction.
  - destruct (given_number q_digest V_DIGEST_TYPE ($ "DIGEST_TYPE")) as (p & v & y & I & G & TP & R); [unfold ntable; cbn [In]; tauto|exact M|].
    rewrite (NUM q_digest V_DIGEST_TYPE ($ "DIGEST_TYPE")), R by (discriminate || (unfold ntable; cbn [In]; tauto)). cbn [touch_n] in TP. destruct (is p ($ "DIGEST_TYPE")) eqn:P; [|discriminate TP]. apply bseq_eq in P. subst p. injection TP as <-.
    change (0 <=? hmac_digest_strtoint v = true) in G. destruct (digest_back _ v (digest_one_of v ltac:(lia))) as [? E]. change (0 <=? hmac_digest_strtoint (value_name digest_names ($ "Unknown") (hmac_digest_strtoint v)) = true). rewrite E. lia.
  - destruct (given_number q_proto V_SPA_SERVER_PROTO ($ "SPA_SERVER_PROTO")) as (p & v & y & I & G & TP & R); [unfold ntable; cbn [In]; tauto|exact M|].
    rewrite (NUM q_proto V_SPA_SERVER_PROTO ($ "SPA_SERVER_PROTO")), R by (discriminate || (unfold ntable; cbn [In]; tauto)). cbn [touch_n] in TP. destruct (is p ($ "SPA_SERVER_PROTO")) eqn:P; [|discriminate TP]. apply bseq_eq in P. subst p. injection TP as <-.
    change (0 <=? name_value protos v = true) in G. pose proof (proto_back _ v (proto_one_of v ltac:(lia))) as E. change (0 <=? name_value protos (value_name protos [] (name_value protos v)) = true). rewrite E. exact G.
  - change (ok_num 65535 (dec_i (num o q_dport)) = true). apply dec_ok_num; [|lia]. apply (number_in_range q_dport V_SPA_SERVER_PORT ($ "SPA_SERVER_PORT") 65535 ($ "SPA_SERVER_PORT")); try reflexivity; try discriminate; [unfold ntable; cbn [In]; tauto|exact M].
  - change (ok_num 65535 (dec_i (num o q_sport)) = true). apply dec_ok_num; [|lia]. apply (number_in_range q_sport V_SPA_SOURCE_PORT ($ "SPA_SOURCE_PORT") 65535 ($ "SPA_SOURCE_PORT")); try reflexivity; try discriminate; [unfold ntable; cbn [In]; tauto|exact M].
  - change (ok_num 65536 (dec_i (num o q_timeout)) = true). apply dec_ok_num; [|lia]. split; [|exact TIME].
    destruct (given_number q_timeout V_FW_TIMEOUT ($ "FW_TIMEOUT")) as (p & v & y & I & G & TP & R); [unfold ntable; cbn [In]; tauto|exact M|].
    rewrite (NUM q_timeout V_FW_TIMEOUT ($ "FW_TIMEOUT")), R by (discriminate || (unfold ntable; cbn [In]; tauto)). cbn [touch_n] in TP. unfold good in G. cbn [fst snd] in G. unfold is in TP. destruct (bseq p ($ "FW_TIMEOUT")) eqn:P.
    + apply bseq_eq in P. subst p. injection TP as <-. change (ok_num 65536 v = true) in G. destruct (ok_num_in 65536 v ltac:(lia) G) as [? _]. lia.
    + destruct (bseq p ($ "-f")) eqn:P'; [|discriminate TP]. apply bseq_eq in P'. subst p. injection TP as <-. change (ok_num 131072 v = true) in G. destruct (ok_num_in 131072 v ltac:(lia) G) as [? _]. lia.
  - assert (GV : given (txt o t_ip) = true) by (destruct (txt o t_ip); [contradiction|reflexivity]). specialize (IP GV).
    change (strcaseeq (txt o t_ip) ($ "source") || strcaseeq (txt o t_ip) ($ "resolve") || is_valid_ipv4_addr (ztake 15 (txt o t_ip)) (zlen (ztake 15 (txt o t_ip))) = true).
    assert (F : ztake 15 (txt o t_ip) = txt o t_ip).
    { destruct (given_text t_ip V_ALLOW_IP ($ "ALLOW_IP")) as (p & v & y & I & G & TP & R); [unfold ttable; cbn [In]; tauto|exact M|]. rewrite (TXT t_ip), R by (reflexivity || discriminate). change (fit t_ip y = y).
      clear - TP. cbn [touch_t] in TP; cbv zeta in TP; repeat match type of TP with (if ?b then _ else _) = _ => destruct b end; try discriminate TP; injection TP as <-; (apply fit_fit || reflexivity). }
    rewrite F. unfold valid_ip in IP. rewrite IP. now rewrite orb_true_r.
  - unfold is_set in *. destruct (Z.eqb_spec (num o q_minus) 0) as [ZM|ZM]; cbn [negb] in *.
    + destruct (Z.eqb_spec (num o q_plus) 0) as [ZP|ZP]; cbn [negb] in *; [contradiction|].
      change (ok_off (if minus_value (dec_i (num o q_plus)) then tl (dec_i (num o q_plus)) else dec_i (num o q_plus)) = true). rewrite minus_dec by lia. apply off_dec. lia.
    + change (ok_off (dec_i (num o q_minus)) = true). apply off_dec. lia.
  - destruct (given_number q_mode V_ENCRYPTION_MODE ($ "ENCRYPTION_MODE")) as (p & v & y & I & G & TP & R); [unfold ntable; cbn [In]; tauto|exact M|].
    rewrite (NUM q_mode V_ENCRYPTION_MODE ($ "ENCRYPTION_MODE")), R by (discriminate || (unfold ntable; cbn [In]; tauto)). cbn [touch_n] in TP. destruct (is p ($ "ENCRYPTION_MODE")) eqn:P; [|discriminate TP]. apply bseq_eq in P. subst p. injection TP as <-.
    change (0 <=? enc_mode_strtoint v = true) in G. pose proof (mode_back _ v (mode_one_of v ltac:(lia))) as E. change (0 <=? enc_mode_strtoint (value_name mode_names [] (enc_mode_strtoint v)) = true). rewrite E. exact G.
  - destruct (given_text t_key64 V_KEY_BASE64 ($ "KEY_BASE64")) as (p & v & y & I & G & TP & R); [unfold ttable; cbn [In]; tauto|exact M|]. rewrite (TXT t_key64), R by (reflexivity || discriminate).
    change (is_base64 y (zlen y) = true). pose proof (command_short _ _ _ LEN I) as SH. cbn [touch_t] in TP. cbv zeta in TP. unfold is in TP. unfold good in G. cbn [fst snd] in G. destruct (bseq p ($ "KEY_BASE64")) eqn:P.
    + apply bseq_eq in P. subst p. injection TP as <-. apply base64_fit; [exact SH|exact G].
    + destruct (bseq p ($ "GPG_SIGNING_PW_BASE64")) eqn:P'; [|discriminate TP]. apply bseq_eq in P'. subst p. injection TP as <-. apply base64_fit; [exact SH|exact G].
  - destruct (given_number q_hmac_type V_HMAC_DIGEST_TYPE ($ "HMAC_DIGEST_TYPE")) as (p & v & y & I & G & TP & R); [unfold ntable; cbn [In]; tauto|exact M|].
    cbn [touch_n] in TP. destruct (is p ($ "HMAC_DIGEST_TYPE")) eqn:P; [|discriminate TP]. apply bseq_eq in P. subst p. injection TP as <-.
    change (0 <=? hmac_digest_strtoint v = true) in G. destruct (digest_back _ v (digest_one_of v ltac:(lia))) as [RG E].
    destruct (HT 0) as [H|[H|H]]; [|rewrite R in H; lia|congruence]. rewrite H, R. change (0 <=? hmac_digest_strtoint (value_name digest_names ($ "Unknown") (hmac_digest_strtoint v)) = true). rewrite E. lia.
  - destruct (given_text t_hmac64 V_HMAC_KEY_BASE64 ($ "HMAC_KEY_BASE64")) as (p & v & y & I & G & TP & R); [unfold ttable; cbn [In]; tauto|exact M|]. rewrite (TXT t_hmac64), R by (reflexivity || discriminate).
    change (is_base64 y (zlen y) = true). pose proof (command_short _ _ _ LEN I) as SH. cbn [touch_t] in TP. cbv zeta in TP. unfold is in TP. unfold good in G. cbn [fst snd] in G. destruct (bseq p ($ "HMAC_KEY_BASE64")) eqn:P; [|discriminate TP].
    apply bseq_eq in P. subst p. injection TP as <-. apply base64_fit; [exact SH|exact G].
  - change (ok_num 65535 (dec_i (num o q_nat_port)) = true). apply dec_ok_num; [|lia]. apply (number_in_range q_nat_port V_NAT_PORT ($ "NAT_PORT") 65535 ($ "NAT_PORT")); try reflexivity; try discriminate; [unfold ntable; cbn [In]; tauto|exact M].
  - match goal with |- goodb _ ?v = true => change (is_yes v || ok_num 4 v = true) end. specialize (VERB M). destruct (Z.eqb_spec (num o q_verbose) 0); [lia|]. destruct (Z.eqb_spec (num o q_verbose) 1) as [->|]; [reflexivity|].
    cbn [orb]. rewrite dec_ok_num by lia. apply orb_true_r.
Qed.
End Accepted.
