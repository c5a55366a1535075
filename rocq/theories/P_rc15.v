(** Proofs about the configuration of the client: saving and reading again. *)
From Verif Require Import Bytes M_accfile M_base64 M_util M_message M_codec M_cipher M_ctx M_access M_replay M_cycle M_incoming M_conf M_codec M_client M_send
  S_base64 S_text S_conf S_accfile S_client S_send P_bytes P_base64 P_util P_util2 P_access P_replay P_conf P_accfile P_accfile2 P_accfile3 P_accfile4 P_accfile6 P_message P_codec P_ctx2 P_client P_client4 M_rc S_rc P_rc P_rc2 P_rc3 P_rc4 P_rc5 P_rc6 P_rc8 P_rc9 P_rc10 P_rc11 P_rc12 P_rc13 P_rc14.
From Coq Require Import Init.Byte List ZArith Bool Lia.
Import ListNotations.
Open Scope Z_scope.

Local Ltac ands := repeat match goal with |- _ /\ _ => split end.

Local Ltac dif := match goal with |- context [if ?b then _ else _] => destruct b end.
Lemma first_verbose args : forall o m o' m', all_args first_arg args (o, m) = Ok (Some (o', m')) -> mem_var V_VERBOSE m' = true -> mem_var V_VERBOSE m = true \/ exists v, In (O_v, v) args.
Proof.
  induction args as [|[c v] args IH]; intros o m o' m' E M; cbn [all_args] in E.
  - injection E as _ <-. now left.
  - apply sbind_ok in E as ([o1 m1] & S & E). destruct (IH _ _ _ _ E M) as [H|(w & I)]; [|right; exists w; now right].
    destruct c; cbn [first_arg] in S; try discriminate S; injection S as _ <-; try (left; exact H). right. exists v. now left.
Qed.
Lemma config_mask rc args o m : config_init rc args = Ok (Some (o, m)) ->
  (forall x, x <> V_VERBOSE -> mem_var x m = given_var x args) /\ (mem_var V_VERBOSE m = true -> exists v, In (O_v, v) args).
Proof.
  intros E. unfold config_init in E. apply sbind_ok in E as ([o1 m1] & E1 & E). apply sbind_ok in E as (oa & E2 & E). apply sbind_ok in E as ([o2 m2] & E3 & E). apply sbind_ok in E as (o3 & E4 & E). injection E as -> ->.
  split.
  - intros x N. rewrite (args_mask _ _ _ _ _ _ E3), (first_mask _ _ N _ _ _ _ E1). reflexivity.
  - intros M. rewrite (args_mask _ _ _ _ _ _ E3) in M. apply orb_true_iff in M as [M|M].
    + destruct (first_verbose _ _ _ _ _ E1 M) as [Q|Q]; [discriminate Q|exact Q].
    + unfold given_var in M. apply existsb_exists in M as ([k v] & I & M). destruct k; discriminate M.
Qed.
Lemma validate_forward o : (given (txt o t_stanza) = true -> is_set o q_got = true \/ is_set o q_save = true) -> (is_set o q_save = true -> given (txt o t_stanza) = true) ->
  special o = false -> given (txt o t_server) = true -> (given (txt o t_ip) = true \/ is_set o q_resolve = true \/ is_set o q_have_url = true) ->
  (given (txt o t_ip) = true -> looked_up o = false -> valid_ip (txt o t_ip) = true) ->
  (given (txt o t_spoof_ip) = true -> valid_ip (txt o t_spoof_ip) = true /\ (num o q_proto = 3 \/ num o q_proto = 1 \/ num o q_proto = 4)) ->
  (given (txt o t_proxy) = true -> num o q_proto = 5) -> (is_set o q_use_gpg = true -> given (txt o t_recipient) = true) ->
  (num o q_mode = 7 -> is_set o q_use_gpg = true) -> (num o q_mode = 8 -> is_set o q_use_hmac = false) ->
  exists o', validate_options o = Ok (Some o').
Proof.
  intros A B SP SV SO IP SF PX GP AS LE. unfold validate_options.
  replace (given (txt o t_stanza) && negb (is_set o q_got) && negb (is_set o q_save)) with false.
  2: { symmetry. destruct (given (txt o t_stanza)); [|reflexivity]. destruct (A eq_refl) as [->| ->]; [reflexivity|apply andb_false_r]. }
  replace (is_set o q_save && negb (given (txt o t_stanza))) with false by (destruct (is_set o q_save); [rewrite (B eq_refl)|]; reflexivity).
  unfold sbind at 1. cbn [ret]. fold (special o). rewrite SP, SV. cbn [negb].
  set (oa := if is_set o q_have_url then set_n q_resolve 1 o else o).
  assert (TA : txt oa = txt o) by (unfold oa; destruct (is_set o q_have_url); reflexivity).
  assert (NA : forall f, f <> q_resolve -> num oa f = num o f). { intros f F. unfold oa. destruct (is_set o q_have_url); [|reflexivity]. destruct f; try reflexivity. contradiction. }
  assert (X : negb (is_set oa q_resolve) && negb (given (txt oa t_ip)) = false).
  { rewrite TA. destruct (given (txt o t_ip)); [apply andb_false_r|]. rewrite andb_true_r. apply negb_false_iff. destruct SO as [Q|[Q|Q]]; [discriminate Q| |].
    - unfold oa. destruct (is_set o q_have_url); [reflexivity|exact Q].
    - unfold oa. now rewrite Q. }
  cbv zeta. fold oa. rewrite X. unfold sbind at 1. cbn [ret]. rewrite TA. fold (looked_up o) (valid_ip (txt o t_ip)).
  set (ob := if given (txt o t_ip) && negb (looked_up o) then set_n q_resolve 0 oa else oa).
  replace (if given (txt o t_ip) && negb (looked_up o) then if valid_ip (txt o t_ip) then ret (set_n q_resolve 0 oa) else fail else ret oa) with (ret ob).
  2: { unfold ob. destruct (given (txt o t_ip)); [|reflexivity]. destruct (looked_up o); [reflexivity|]. cbn [andb negb]. now rewrite (IP eq_refl eq_refl). }
  unfold sbind at 1. cbn [ret].
  assert (TB : txt ob = txt o) by (unfold ob; dif; exact TA).
  assert (NB : forall f, f <> q_resolve -> num ob f = num o f). { intros f F. rewrite <- (NA f F). unfold ob. dif; [|reflexivity]. destruct f; try reflexivity. contradiction. }
  rewrite TB, !NB by discriminate. fold (valid_ip (txt o t_spoof_ip)).
  replace (given (txt o t_spoof_ip) && negb (valid_ip (txt o t_spoof_ip) && ((num o q_proto =? 3) || (num o q_proto =? 1) || (num o q_proto =? 4)))) with false.
  2: { symmetry. destruct (given (txt o t_spoof_ip)); [|reflexivity]. destruct (SF eq_refl) as [V P]. rewrite V. cbn [andb]. apply negb_false_iff. destruct P as [P|[P|P]]; rewrite P; reflexivity. }
  set (oc := if (is_set ob q_resolve || (num o q_proto =? 5)) && negb (given (txt o t_agent)) then set_t t_agent ($ "Fwknop/2.6.11") ob else ob).
  assert (NC : num oc = num ob) by (unfold oc; dif; reflexivity).
  assert (TC : forall f, f <> t_agent -> txt oc f = txt o f). { intros f F. rewrite <- TB. unfold oc. dif; [|reflexivity]. destruct f; try reflexivity. contradiction. }
  assert (SC : forall f, f <> q_resolve -> is_set oc f = is_set o f) by (intros f F; unfold is_set; rewrite NC, (NB f F); reflexivity).
  rewrite !TC, !SC, NC, !NB by discriminate.
  replace (given (txt o t_proxy) && negb (num o q_proto =? 5)) with false by (destruct (given (txt o t_proxy)); [rewrite (PX eq_refl)|]; reflexivity).
  replace (is_set o q_use_gpg && negb (given (txt o t_recipient))) with false by (destruct (is_set o q_use_gpg); [rewrite (GP eq_refl)|]; reflexivity).
  change FKO_ENC_MODE_ASYMMETRIC with 7. change FKO_ENC_MODE_CBC_LEGACY_IV with 8.
  replace ((num o q_mode =? 7) && negb (is_set o q_use_gpg)) with false by (destruct (Z.eqb_spec (num o q_mode) 7) as [Q|]; [rewrite (AS Q)|]; reflexivity).
  replace ((num o q_mode =? 8) && is_set o q_use_hmac) with false by (destruct (Z.eqb_spec (num o q_mode) 8) as [Q|]; [rewrite (LE Q)|]; reflexivity).
  eexists. reflexivity.
Qed.

Section Back.
Variables (r0 : list (bytes * bytes)) (args : list arg) (o1 o2 o o2' : copts) (m : mask) (name : bytes).
Let c := command args.
Hypothesis SAV : forall a, In a args -> savable (fst a) = true.
Hypothesis LEN : forall a, In a args -> zlen (snd a) <= 65535.
Hypothesis MK : forall x, x <> V_VERBOSE -> mem_var x m = given_var x args.
Hypothesis (TR : Forall taken r0) (M1 : moved1 c defaults o1) (MV : moved (r0 ++ c) o1 o2) (CH : checked o2 o) (GC : Forall good c).
Hypothesis OW : Forall (fun e => one_word (snd e)) (saved o m).
Hypothesis TIME : num o q_timeout <= 65536.
Hypothesis PLUS : 0 <= num o q_plus <= 65536.
Hypothesis MINUS : 0 <= num o q_minus <= 65536.
Hypothesis ONE : num o q_plus = 0 \/ num o q_minus = 0.
Hypothesis NOOFF : ~ mentioned r0 ($ "TIME_OFFSET").
Hypothesis VERB : mem_var V_VERBOSE m = true -> 1 <= num o q_verbose <= 4.
Hypothesis LU : looked_up o = false.
Hypothesis NN : name <> [].

Lemma back_ip : given (txt o t_ip) = true -> valid_ip (txt o t_ip) = true.
Proof.
  assert (E : txt o t_ip = txt o2 t_ip) by (apply (ch_txt _ _ CH); discriminate). rewrite E. intros G. apply (ch_ip _ _ CH G). unfold looked_up in *. now rewrite <- E.
Qed.
Lemma back_txt f : unseen_t f = false -> f <> t_stanza -> f <> t_agent -> txt o f = run (touch_t f) c (run (touch_t f) r0 []).
Proof. intros U S A. rewrite (set_txt _ _ _ _ _ M1 MV CH f U S A). apply run_app. Qed.
Lemma plain_n f : skip1 f = false -> first_n f = (fun _ _ => None) -> unseen f = false -> f <> q_resolve -> f <> q_hmac_type -> num o f = run (touch_n f) c (run (touch_n f) r0 (num defaults f)).
Proof. intros K F U R H. rewrite (set_num _ _ _ _ _ MV CH f U R H), (set_num1 _ _ M1 f K F). apply run_app. Qed.
Lemma table_plain f x n : In (f, x, n) ntable -> skip1 f = false /\ first_n f = (fun _ _ => None) /\ unseen f = false /\ f <> q_resolve.
Proof. unfold ntable. cbn [In]. intros T. repeat (destruct T as [T|T]; [injection T; clear T; intros _ _ <-; ands; (reflexivity || discriminate)|]). contradiction. Qed.
Lemma back_num f x n : In (f, x, n) ntable -> f <> q_hmac_type -> num o f = run (touch_n f) c (run (touch_n f) r0 (num defaults f)).
Proof. intros T H. destruct (table_plain _ _ _ T) as (A & B & D & E). now apply plain_n. Qed.
Lemma hmac_run : run (touch_n q_hmac_type) c (run (touch_n q_hmac_type) r0 0) = num o2 q_hmac_type.
Proof. rewrite (run_moved_n _ _ _ q_hmac_type MV eq_refl), (set_num1 _ _ M1 q_hmac_type eq_refl eq_refl), run_app. reflexivity. Qed.
Lemma hmac_cases : num o q_hmac_type = num o2 q_hmac_type \/ num o2 q_hmac_type = 0.
Proof. rewrite (ch_hmac_type _ _ CH). destruct (Z.eqb_spec (num o2 q_hmac_type) 0) as [Z|Z]; [right; exact Z|left]. now rewrite andb_false_r. Qed.
Lemma hmac_back : forall d, num o q_hmac_type = run (touch_n q_hmac_type) c d \/ run (touch_n q_hmac_type) c d = 0 \/ mem_var V_HMAC_DIGEST_TYPE m = false.
Proof.
  intros d. assert (TG : touchedb (touch_n q_hmac_type) c = mem_var V_HMAC_DIGEST_TYPE m).
  { rewrite MK by discriminate. apply touched_given. intros a I. pose proof (table_n a (SAV a I)) as F. apply Forall_inv_tail in F. rewrite Forall_forall in F. apply (F (q_hmac_type, V_HMAC_DIGEST_TYPE, $ "HMAC_DIGEST_TYPE")). unfold ntable. cbn [In]. tauto. }
  destruct (run_cases (touch_n q_hmac_type) c) as [[A B]|(A & p & v & y & I & TP & R)]; [right; right; congruence|]. pose proof hmac_run as H. rewrite R in H. rewrite R, H.
  destruct hmac_cases; auto.
Qed.
Lemma back_good e : In e (saved o m) -> In (fst e) variables /\ good e.
Proof.
  apply (saved_good args o m (fun f => run (touch_t f) r0 []) (fun f => run (touch_n f) r0 (num defaults f))); auto using back_txt, back_ip, hmac_back.
  exact back_num.
Qed.
(** Options that cannot be in a stanza and are not given *)
Definition never_t (f : tfield) : bool := match f with t_hmac_file | t_command | t_save_file | t_proxy => true | _ => false end.
Definition never_n (f : qfield) : bool := match f with q_test | q_key_gen | q_version | q_show_last | q_run_last | q_icmp_type | q_icmp_code | q_append => true | _ => false end.
Lemma never_given_t f n v : never_t f = true -> In (n, v) c -> touch_t f n v = None.
Proof.
  intros NF I. unfold c, command in I. rewrite in_concat in I. destruct I as (l & L & I). apply in_map_iff in L as ([k w] & <- & J). apply SAV in J. cbn [fst] in J.
  destruct k; cbn [savable] in J; try discriminate J; cbn [means] in I; cbn [In] in I; destruct f; try discriminate NF;
    repeat (destruct I as [I|I]; [injection I; clear I; intros <- <-; reflexivity|]); contradiction.
Qed.
Lemma never_given_n f n v : never_n f = true -> In (n, v) c -> touch_n f n v = None.
Proof.
  intros NF I. unfold c, command in I. rewrite in_concat in I. destruct I as (l & L & I). apply in_map_iff in L as ([k w] & <- & J). apply SAV in J. cbn [fst] in J.
  destruct k; cbn [savable] in J; try discriminate J; cbn [means] in I; cbn [In] in I; destruct f; try discriminate NF;
    repeat (destruct I as [I|I]; [injection I; clear I; intros <- <-; reflexivity|]); contradiction.
Qed.
Lemma never_var_t f n v : never_t f = true -> In n variables -> touch_t f n v = None.
Proof. intros NF I. unfold variables in I. cbn [In] in I. destruct f; try discriminate NF; repeat (destruct I as [<-|I]; [reflexivity|]); contradiction. Qed.
Lemma never_var_n f n v : never_n f = true -> In n variables -> touch_n f n v = None.
Proof. intros NF I. unfold variables in I. cbn [In] in I. destruct f; try discriminate NF; repeat (destruct I as [<-|I]; [reflexivity|]); contradiction. Qed.
Lemma r0_names n v : In (n, v) r0 -> In n variables.
Proof. intros I. rewrite Forall_forall in TR. exact (proj2 (taken_good _ (TR _ I))). Qed.

Hypothesis MV' : moved (r0 ++ saved o m) (set_t t_stanza name defaults) o2'.
Hypothesis GOT : num o2' q_got = 1.
Lemma new_txt f : unseen_t f = false -> f <> t_stanza -> txt o2' f = run (touch_t f) (saved o m) (run (touch_t f) r0 []).
Proof.
  intros U S. rewrite (run_moved_t _ _ _ f MV' U), run_app. f_equal. f_equal. destruct f; try reflexivity. contradiction.
Qed.
Lemma new_num f : unseen f = false -> num o2' f = run (touch_n f) (saved o m) (run (touch_n f) r0 (num defaults f)).
Proof. intros U. now rewrite (run_moved_n _ _ _ f MV' U), run_app. Qed.
Lemma same_txt f : ~ In f [t_stanza; t_args_file; t_rc_file; t_gen_file; t_agent] -> txt o2' f = txt o f.
Proof.
  intros NF. cbn [In] in NF. assert (U : unseen_t f = false) by (destruct f; try reflexivity; exfalso; apply NF; tauto). rewrite (new_txt f U) by (intros ->; tauto).
  destruct (never_t f) eqn:NV.
  - rewrite (back_txt f U) by (intros ->; tauto). rewrite (run_none _ (saved o m)), (run_none _ c); [reflexivity|..].
    + intros n v I. now apply never_given_t.
    + intros n v I. apply never_var_t; [exact NV|]. exact (proj1 (back_good _ I)).
  - assert (T : exists x n, In (f, x, n) ttable).
    { destruct f; try discriminate NV; try (exfalso; apply NF; tauto); do 2 eexists; unfold ttable; cbn [In]; repeat (first [left; reflexivity|right]). }
    destruct T as (x & n & T). apply (text_back args o m SAV MK OW f x n); auto; [intros ->; tauto|intros ->; split; [exact LU|exact back_ip]|]. apply back_txt; [exact U|intros ->; tauto..].
Qed.
Lemma same_num f : ~ In f [q_verbose; q_no_save; q_key_len; q_hmac_key_len; q_no_home; q_got; q_save; q_force; q_fd; q_list; q_no_rc; q_resolve; q_hmac_type; q_plus; q_minus] -> num o2' f = num o f.
Proof.
  intros NF. cbn [In] in NF. assert (U : unseen f = false) by (destruct f; try reflexivity; exfalso; apply NF; tauto). rewrite (new_num f U).
  destruct (never_n f) eqn:NV.
  - rewrite plain_n; [|destruct f; try discriminate NV; reflexivity|destruct f; try discriminate NV; reflexivity|exact U|intros ->; tauto|intros ->; tauto]. rewrite (run_none _ (saved o m)), (run_none _ c); [reflexivity|..].
    + intros n v I. now apply never_given_n.
    + intros n v I. apply never_var_n; [exact NV|]. exact (proj1 (back_good _ I)).
  - destruct (qfield_eq_dec f q_use_hmac) as [->|NU].
    + rewrite (use_hmac_back args o m SAV MK); [symmetry|]; apply plain_n; (reflexivity || discriminate).
    + assert (T : exists x n, In (f, x, n) ntable).
      { destruct f; try discriminate NV; try (exfalso; apply NF; tauto); try contradiction; do 2 eexists; unfold ntable; cbn [In]; repeat (first [left; reflexivity|right]). }
      destruct T as (x & n & T). rewrite (back_num f x n T) by (intros ->; tauto). apply (number_back args o m SAV MK GC f x n); auto.
      * intros ->. tauto.
      * intros _. apply (back_num f x n T). intros ->; tauto.
Qed.
Lemma new_hmac_type : num o2' q_hmac_type = num o2 q_hmac_type.
Proof.
  rewrite new_num by reflexivity. rewrite <- hmac_run. apply (number_back args o m SAV MK GC q_hmac_type V_HMAC_DIGEST_TYPE ($ "HMAC_DIGEST_TYPE")).
  - unfold ntable. cbn [In]. tauto.
  - discriminate.
  - intros _. change (num defaults q_hmac_type) with 0. fold c. rewrite hmac_run. exact hmac_cases.
  - congruence.
Qed.
(** Offsets *)
Lemma other_offset n v : In (n, v) r0 -> touch_n q_plus n v = None /\ touch_n q_minus n v = None.
Proof.
  intros I. assert (NT : n <> $ "TIME_OFFSET") by (intros ->; apply NOOFF; now exists v). apply r0_names in I. unfold variables in I. cbn [In] in I.
  repeat (destruct I as [<-|I]; [first [split; reflexivity|exfalso; apply NT; reflexivity]|]). contradiction.
Qed.
Lemma offset_given (f : qfield) : f = q_plus \/ f = q_minus -> mem_var V_TIME_OFFSET m = false -> num o f = 0.
Proof.
  intros F M. assert (P : num o f = run (touch_n f) c (run (touch_n f) r0 (num defaults f))) by (destruct F as [->| ->]; apply plain_n; (reflexivity || discriminate)).
  rewrite P, !run_none; [destruct F as [->| ->]; reflexivity|intros n v I; destruct (other_offset _ _ I) as [A B]; destruct F as [->| ->]; assumption|].
  intros n v I. rewrite MK in M by discriminate. unfold c, command in I. rewrite in_concat in I. destruct I as (l & L & I). apply in_map_iff in L as ([k w] & <- & J).
  assert (K : mem_var V_TIME_OFFSET (vars_of k) = false). { apply not_true_is_false. intros Q. assert (X : given_var V_TIME_OFFSET args = true); [|congruence]. unfold given_var. apply existsb_exists. exists (k, w). auto. }
  destruct k; try discriminate K; cbn [means] in I; cbn [In] in I; destruct F as [->| ->]; repeat (destruct I as [I|I]; [injection I; clear I; intros <- <-; reflexivity|]); contradiction.
Qed.
Lemma same_offsets : num o2' q_plus = num o q_plus /\ num o2' q_minus = num o q_minus.
Proof.
  rewrite !new_num by reflexivity. assert (R : forall f, f = q_plus \/ f = q_minus -> run (touch_n f) r0 (num defaults f) = 0).
  { intros f F. rewrite run_none; [destruct F as [->| ->]; reflexivity|]. intros n v I. destruct (other_offset _ _ I) as [A B]. destruct F as [->| ->]; assumption. }
  rewrite !R by auto.
  assert (IV : In ($ "TIME_OFFSET", V_TIME_OFFSET) var_array) by (unfold var_array; cbn [In]; tauto).
  assert (OT : forall f n' x' v, f = q_plus \/ f = q_minus -> In (n', x') var_array -> n' <> $ "TIME_OFFSET" -> touch_n f n' v = None).
  { intros f n' x' v F I NE. unfold var_array in I. cbn [In] in I. destruct F as [->| ->];
      (repeat (destruct I as [I|I]; [injection I; clear I; intros <- <-; first [reflexivity | exfalso; apply NE; reflexivity]|]); contradiction). }
  rewrite (run_saved (touch_n q_plus) o m ($ "TIME_OFFSET") V_TIME_OFFSET 0 IV) by (intros n' x' v I NE _ _; apply (OT q_plus n' x' v); auto).
  rewrite (run_saved (touch_n q_minus) o m ($ "TIME_OFFSET") V_TIME_OFFSET 0 IV) by (intros n' x' v I NE _ _; apply (OT q_minus n' x' v); auto).
  destruct (mem_var V_TIME_OFFSET m) eqn:M.
  - pose proof (saved_word o m OW _ _ _ IV M eq_refl) as (_ & NE & _). cbn [var_text]. unfold is_set in *.
    destruct (Z.eqb_spec (num o q_minus) 0) as [ZM|ZM]; cbn [negb] in *.
    + destruct (Z.eqb_spec (num o q_plus) 0) as [ZP|ZP]; cbn [negb] in *; [exfalso; apply NE; reflexivity|].
      destruct (off_dec (num o q_plus)) as [D _]; [lia|]. rewrite ZM. split.
      * change (upd (if minus_value (dec_i (num o q_plus)) then None else off_value (dec_i (num o q_plus))) 0 = num o q_plus). rewrite minus_dec by lia. rewrite D. reflexivity.
      * change (upd (if minus_value (dec_i (num o q_plus)) then off_value (tl (dec_i (num o q_plus))) else None) 0 = 0). rewrite minus_dec by lia. reflexivity.
    + destruct ONE as [ZP|ZP]; [|contradiction]. rewrite ZP. split; [reflexivity|].
      change (upd (off_value (dec_i (num o q_minus))) 0 = num o q_minus). destruct (off_dec (num o q_minus)) as [D _]; [lia|]. rewrite D. reflexivity.
  - rewrite !offset_given by auto. auto.
Qed.
Lemma no_key_gen : special o2 = false /\ is_set o q_key_gen = false.
Proof.
  assert (Z : forall f, never_n f = true -> f <> q_icmp_type -> num o f = 0).
  { intros f NV _. rewrite plain_n; [|destruct f; try discriminate NV; reflexivity|destruct f; try discriminate NV; reflexivity|destruct f; try discriminate NV; reflexivity|intros ->; discriminate NV|intros ->; discriminate NV].
    rewrite !run_none; [destruct f; try discriminate NV; reflexivity|intros n v I; apply never_var_n; [exact NV|]; eapply r0_names; eauto|intros n v I; now apply never_given_n]. }
  unfold special, is_set. rewrite <- !(ch_num _ _ CH) by discriminate. rewrite !Z by (reflexivity || discriminate). auto.
Qed.
Theorem settings_back : exists o', validate_options o2' = Ok (Some o') /\ same_settings o o'.
Proof.
  destruct no_key_gen as [SP KG]. destruct same_offsets as [SO1 SO2].
  assert (EQ : forall f, f <> q_resolve -> f <> q_hmac_type -> num o f = num o2 f) by exact (ch_num _ _ CH).
  assert (ET : forall f, f <> t_stanza -> f <> t_agent -> txt o f = txt o2 f) by exact (ch_txt _ _ CH).
  assert (N2 : forall f, In f [q_proto; q_use_gpg; q_mode; q_use_hmac; q_have_url; q_key_gen; q_test; q_version; q_show_last; q_run_last] -> num o2' f = num o2 f).
  { intros f I. rewrite same_num, EQ; [reflexivity|intros ->; cbn in I; intuition discriminate|intros ->; cbn in I; intuition discriminate|].
    intros J. cbn [In] in I, J. intuition (subst; discriminate). }
  assert (T2 : forall f, In f [t_server; t_ip; t_spoof_ip; t_proxy; t_recipient] -> txt o2' f = txt o2 f).
  { intros f I. rewrite same_txt, ET; [reflexivity|intros ->; cbn in I; intuition discriminate|intros ->; cbn in I; intuition discriminate|].
    intros J. cbn [In] in I, J. intuition (subst; discriminate). }
  assert (SP' : special o2' = false).
  { rewrite <- SP. unfold special, is_set. rewrite !N2 by (cbn [In]; tauto). reflexivity. }
  assert (LU2 : looked_up o2 = false). { unfold looked_up in *. rewrite <- ET by discriminate. exact LU. }
  assert (LU' : looked_up o2' = false). { unfold looked_up in *. rewrite T2 by (cbn [In]; tauto). exact LU2. }
  assert (ST' : txt o2' t_stanza = fit t_stanza name). { rewrite (run_moved_t _ _ _ t_stanza MV' eq_refl). rewrite run_none by reflexivity. reflexivity. }
  assert (GS : given (txt o2' t_stanza) = true). { rewrite ST'. destruct name as [|b r]; [contradiction|reflexivity]. }
  assert (GO : is_set o2' q_got = true) by (unfold is_set; rewrite GOT; reflexivity).
  (* the address is looked up after all *)
  assert (IPR : given (txt o2 t_ip) = false -> num o2' q_resolve <> 0 \/ is_set o2 q_have_url = true).
  { intros GI. destruct (is_set o2 q_have_url) eqn:HU; [now right|left].
    destruct (ch_some _ _ CH SP) as [Q|Q]; [congruence|]. pose proof (ch_resolve _ _ CH (or_introl GI)) as R. rewrite HU, andb_false_r in R. unfold is_set in Q. rewrite R in Q.
    rewrite new_num by reflexivity. change (num defaults q_resolve) with 0.
    rewrite (run_moved_n _ _ _ q_resolve MV eq_refl), (set_num1 _ _ M1 q_resolve eq_refl eq_refl), run_app in Q, R. change (num defaults q_resolve) with 0 in Q, R.
    assert (NA : mem_var V_ALLOW_IP m = false).
    { apply not_true_is_false. intros M. pose proof (saved_word o m OW ($ "ALLOW_IP") V_ALLOW_IP (txt o t_ip) ltac:(unfold var_array; cbn [In]; tauto) M eq_refl) as (_ & NE & _).
      rewrite ET in NE by discriminate. destruct (txt o2 t_ip); [contradiction|discriminate GI]. }
    assert (TG : touchedb (touch_n q_resolve) c = mem_var V_RESOLVE_IP_HTTPS m).
    { rewrite MK by discriminate. apply touched_given. intros [k w] I. apply SAV in I. cbn [fst] in *. destruct k; try discriminate I; reflexivity. }
    assert (RS : run (touch_n q_resolve) (saved o m) (run (touch_n q_resolve) r0 0) = if mem_var V_RESOLVE_IP_HTTPS m then match var_text V_RESOLVE_IP_HTTPS o with Some v => upd (touch_n q_resolve ($ "RESOLVE_IP_HTTPS") v) (run (touch_n q_resolve) r0 0) | None => run (touch_n q_resolve) r0 0 end else run (touch_n q_resolve) r0 0).
    { apply run_saved; [unfold var_array; cbn [In]; tauto|]. intros n' x' v I NE M V.
      assert (NH : mem_var V_RESOLVE_IP_HTTP m = false). { rewrite MK by discriminate. apply not_true_is_false. unfold given_var. rewrite existsb_exists. intros ([k w] & _ & X). destruct k; discriminate X. }
      unfold var_array in I. cbn [In] in I. repeat (destruct I as [I|I]; [injection I; clear I; intros <- <-; first [reflexivity|exfalso; apply NE; reflexivity|congruence]|]). contradiction. }
    rewrite RS. destruct (mem_var V_RESOLVE_IP_HTTPS m) eqn:MM.
    - cbn [var_text]. rewrite R. destruct (run_cases (touch_n q_resolve) c) as [[A _]|(_ & p & v & y & I & TP & RR)]; [congruence|]. rewrite RR in *.
      assert (Y : y = 1 \/ y = 0).
      { clear - TP. cbn [touch_n] in TP. repeat match type of TP with (if ?b then _ else _) = _ => destruct b end; try discriminate TP; injection TP as <-; auto. }
      destruct Y as [->| ->]; [|discriminate Q]. vm_compute. discriminate.
    - destruct (run_cases (touch_n q_resolve) c) as [[_ B]|(A & _)]; [|congruence]. rewrite B in Q. intros Z. rewrite Z in Q. discriminate Q. }
  assert (SV0 : is_set o2' q_save = false). { unfold is_set. rewrite new_num by reflexivity. rewrite !run_none by reflexivity. reflexivity. }
  destruct (validate_forward o2') as (o' & V).
  - intros _. now left.
  - rewrite SV0. discriminate.
  - exact SP'.
  - rewrite T2 by (cbn [In]; tauto). apply (ch_server _ _ CH SP).
  - rewrite T2 by (cbn [In]; tauto). destruct (given (txt o2 t_ip)) eqn:GI; [now left|right]. destruct (IPR eq_refl) as [R|R]; [left|right].
    + unfold is_set. apply negb_true_iff. now apply Z.eqb_neq.
    + unfold is_set in *. rewrite N2 by (cbn [In]; tauto). exact R.
  - rewrite T2 by (cbn [In]; tauto). intros G _. apply (ch_ip _ _ CH G LU2).
  - rewrite T2, N2 by (cbn [In]; tauto). apply (ch_spoof _ _ CH).
  - rewrite T2, N2 by (cbn [In]; tauto). apply (ch_proxy _ _ CH).
  - unfold is_set. rewrite T2, N2 by (cbn [In]; tauto). apply (ch_gpg _ _ CH).
  - unfold is_set. rewrite !N2 by (cbn [In]; tauto). apply (ch_asym _ _ CH).
  - unfold is_set. rewrite !N2 by (cbn [In]; tauto). apply (ch_legacy _ _ CH).
  - exists o'. split; [exact V|]. pose proof (validate_checked _ _ V) as CH'.
    assert (BIT : forall x, x = 0 \/ x = 1 -> negb (x =? 0) = true -> x = 1) by (intros x [->| ->] X; [discriminate X|reflexivity]).
    assert (RES : num o' q_resolve = num o q_resolve).
    { destruct (given (txt o2 t_ip)) eqn:GI.
      - rewrite (proj2 (ch_ip _ _ CH GI LU2)). apply (ch_ip _ _ CH'); [rewrite T2 by (cbn [In]; tauto); exact GI|exact LU'].
      - assert (R1 : num o q_resolve = 1).
        { apply BIT; [exact (set_resolve _ _ _ _ _ M1 MV CH)|]. destruct (ch_some _ _ CH SP) as [Q|Q]; [congruence|exact Q]. }
        rewrite R1. apply BIT.
        + rewrite (ch_resolve _ _ CH') by (left; rewrite T2 by (cbn [In]; tauto); exact GI). destruct (negb (special o2') && is_set o2' q_have_url); [now right|].
          rewrite (run_moved_n _ _ _ q_resolve MV' eq_refl). apply resolve_bool. now left.
        + destruct (ch_some _ _ CH' SP') as [Q|Q]; [rewrite T2 in Q by (cbn [In]; tauto); congruence|exact Q]. }
    assert (HMT : num o' q_hmac_type = num o q_hmac_type).
    { rewrite (ch_hmac_type _ _ CH), (ch_hmac_type _ _ CH'), new_hmac_type. unfold is_set. rewrite !N2 by (cbn [In]; tauto). reflexivity. }
    assert (AG : txt o' t_agent = txt o t_agent).
    { rewrite (ch_agent _ _ CH'). assert (PR : num o2' q_proto = num o2 q_proto) by (apply N2; cbn [In]; tauto).
      assert (IR : is_set o' q_resolve = is_set o q_resolve) by (unfold is_set; now rewrite RES). rewrite IR, PR.
      rewrite new_txt by (reflexivity || discriminate).
      assert (IA : In (t_agent, V_HTTP_USER_AGENT, $ "HTTP_USER_AGENT") ttable) by (unfold ttable; cbn [In]; tauto).
      destruct (table_var_t _ _ _ IA) as [IV NV].
      rewrite (run_saved (touch_t t_agent) o m ($ "HTTP_USER_AGENT") V_HTTP_USER_AGENT _ IV) by (intros n' x' v; exact (others_t args o m SAV MK t_agent V_HTTP_USER_AGENT ($ "HTTP_USER_AGENT") n' x' v IA)).
      pose proof (ch_agent _ _ CH) as AG. rewrite (run_moved_t _ _ _ t_agent MV eq_refl) in AG.
      assert (T1 : txt o1 t_agent = []). { destruct M1 as (T & _). rewrite (T t_agent eq_refl). apply run_none. reflexivity. }
      rewrite T1, run_app in AG.
      assert (TG : touchedb (touch_t t_agent) c = mem_var V_HTTP_USER_AGENT m).
      { rewrite MK by exact NV. apply touched_given. intros a I. pose proof (table_t a (SAV a I)) as F. rewrite Forall_forall in F. exact (F _ IA). }
      destruct (mem_var V_HTTP_USER_AGENT m) eqn:MM.
      - pose proof (saved_word o m OW _ _ _ IV MM eq_refl) as (_ & NE & _). cbn [var_text].
        change (upd (touch_t t_agent ($ "HTTP_USER_AGENT") (txt o t_agent)) (run (touch_t t_agent) r0 [])) with (fit t_agent (txt o t_agent)).
        destruct (run_cases (touch_t t_agent) c) as [[A _]|(_ & p & v & y & I & TP & RR)]; [congruence|]. rewrite RR in AG.
        assert (FY : fit t_agent y = y). { clear - TP. cbn [touch_t] in TP; cbv zeta in TP; repeat match type of TP with (if ?b then _ else _) = _ => destruct b end; try discriminate TP; injection TP as <-; apply fit_fit. }
        assert (FA : fit t_agent (txt o t_agent) = txt o t_agent). { rewrite AG. destruct ((is_set o q_resolve || (num o2 q_proto =? 5)) && negb (given y)); [reflexivity|exact FY]. }
        rewrite FA. destruct (txt o t_agent) as [|b w]; [contradiction|]. cbn [given negb]. now rewrite andb_false_r.
      - destruct (run_cases (touch_t t_agent) c) as [[_ B]|(A & _)]; [|congruence]. rewrite B in AG. now rewrite AG. }
    split.
    + intros f NF. destruct (tfield_eq_dec f t_agent) as [->|NA]; [exact AG|]. rewrite (ch_txt _ _ CH') by (cbn [In] in NF; intuition congruence). apply same_txt. cbn [In] in *. intuition congruence.
    + intros f NF. destruct (qfield_eq_dec f q_resolve) as [->|NR]; [exact RES|]. destruct (qfield_eq_dec f q_hmac_type) as [->|NH]; [exact HMT|].
      rewrite (ch_num _ _ CH') by assumption. destruct (qfield_eq_dec f q_plus) as [->|NP]; [exact SO1|]. destruct (qfield_eq_dec f q_minus) as [->|NMI]; [exact SO2|].
      apply same_num. cbn [In] in *. intuition congruence.
Qed.
End Back.

(** ** The two runs *)
Lemma stanza_last nm h ls es : stanza nm h (ls ++ [[]]) es <-> stanza nm h ls es.
Proof.
  split.
  - revert h es. induction ls as [|l ls IH]; intros h es S; cbn [app] in S.
    + inversion S as [|h' l' ls' es' C S'|h' l' n ls' es' H N S'|h' l' n ls' es' H N S'|l' ls' es' C NH S'|l' n v ls' es' SE S']; subst;
        try (exfalso; match goal with H : heading [] _ |- _ => apply (proj1 H); left; reflexivity | C : ~ comment [] |- _ => apply C; left; reflexivity | SE : sets [] _ _ |- _ => apply (proj1 SE); left; reflexivity end).
      exact S'.
    + inversion S as [|h' l' ls' es' C S'|h' l' n ls' es' H N S'|h' l' n ls' es' H N S'|l' ls' es' C NH S'|l' n v ls' es' SE S']; subst.
      * apply st_comment; auto.
      * eapply st_enter; eauto.
      * eapply st_leave; eauto.
      * apply st_skip; auto.
      * apply st_entry; auto.
  - induction 1; cbn [app].
    + apply st_comment; [left; reflexivity|constructor].
    + apply st_comment; auto.
    + eapply st_enter; eauto.
    + eapply st_leave; eauto.
    + apply st_skip; auto.
    + apply st_entry; auto.
Qed.
Lemma last_line_ok ls : Forall line_ok ls -> Forall line_ok (ls ++ [[]]).
Proof. intros F. apply Forall_app. split; [exact F|]. constructor; [|constructor]. unfold line_ok. rewrite zlen_nil. cbn. intuition lia. Qed.
Lemma last_simple ls : Forall simple ls -> Forall simple (ls ++ [[]]).
Proof. intros F. apply Forall_app. split; [exact F|]. constructor; [|constructor]. unfold simple. cbn. tauto. Qed.
Lemma var_line_short o m e : In e (saved o m) -> one_word (snd e) -> zlen (var_line1 e) <= 1022.
Proof.
  destruct e as [n v]. intros I (L & _). cbn [snd] in L. destruct (saved_name _ _ _ _ I) as (_ & x & IV & _). unfold var_line1. cbn [fst snd]. rewrite !zlen_app.
  assert (Q : zlen n + zlen (repeat " "%byte (24 - length n)) + zlen ($ "    ") <= 32).
  { unfold var_array in IV. cbn [In] in IV. repeat (destruct IV as [IV|IV]; [injection IV; clear IV; intros <- <-; vm_compute; discriminate|]). contradiction. }
  lia.
Qed.
Theorem save_and_read ask lines args o m new :
  Forall line_ok lines -> Forall simple lines -> (forall l, In l lines -> ~ heading l []) ->
  (forall a, In a args -> savable (fst a) = true /\ zlen (snd a) <= 65535) -> (exists v, In (O_save_rc_stanza, v) args) ->
  config_init (Some (file (lines ++ [[]]))) args = Ok (Some (o, m)) ->
  ~ twice (txt o t_stanza) lines -> name_ok (txt o t_stanza) -> txt o t_stanza <> [] -> zlen (txt o t_stanza) <= 1020 -> ~ same_name (txt o t_stanza) ($ "default") ->
  Forall (fun e => one_word (snd e)) (saved o m) -> is_set o q_force = true ->
  num o q_timeout <= 65536 -> 0 <= num o q_plus <= 65536 -> 0 <= num o q_minus <= 65536 -> num o q_plus = 0 \/ num o q_minus = 0 ->
  (forall d, stanza ($ "default") false lines d -> ~ mentioned d ($ "TIME_OFFSET")) ->
  ((exists v, In (O_v, v) args) -> 1 <= num o q_verbose <= 4) -> looked_up o = false ->
  save_text ask o m (file (lines ++ [[]])) = (new, true) ->
  exists o' m', config_init (Some new) [(O_n, txt o t_stanza)] = Ok (Some (o', m')) /\ same_settings o o'.
Proof.
  intros LO SI NH SL (sv & SVI) E T NM NN NL ND OW FO TIME PLUS MINUS ONE NOOFF VERB LU SAVE.
  destruct (save_spec ask o m lines new LO SI T NM OW SAVE) as (nls & kept & EN & CN & FROM & OTH & ST & K & GH). rewrite FO in K. subst kept.
  assert (BE : forall (l : list (bytes * bytes)), besides [] l = l) by (unfold besides; induction l as [|e l IH]; cbn; [reflexivity|f_equal; exact IH]).
  cbn [map app] in ST. rewrite BE in ST.
  assert (SAV : forall a, In a args -> savable (fst a) = true) by (intros a I; apply SL, I).
  assert (LEN : forall a, In a args -> zlen (snd a) <= 65535) by (intros a I; apply SL, I).
  destruct (config_mask _ _ _ _ E) as [MK MVB].
  destruct (config_parts (Some (file (lines ++ [[]]))) (lines ++ [[]]) args o m) as (r & o1 & o2 & RS & TR & _ & M1 & MV & CH & GC); auto using last_line_ok, last_simple.
  { intros l I. apply in_app_or in I as [I|[<-|[]]]; [now apply NH|]. intros (C & _). apply C. left. reflexivity. }
  assert (RD : stanza ($ "default") false lines r).
  { destruct RS as [[(v & I) _]|(_ & nm & d & s & -> & _ & SD & [[_ ->]|(_ & NS & _)])].
    - exfalso. unfold command in I. rewrite in_concat in I. destruct I as (l & L & I). apply in_map_iff in L as ([k w] & <- & J). apply SAV in J. cbn [fst] in J.
      destruct k; cbn [savable] in J; try discriminate J; cbn [means In] in I; repeat (destruct I as [I|I]; [discriminate I|]); contradiction.
    - rewrite app_nil_r. exact (proj1 (stanza_last _ _ _ _) SD).
    - exfalso. apply NS. exists ($ "Y"). unfold command. rewrite in_concat. exists (means (O_save_rc_stanza, sv)). split; [apply in_map; exact SVI|]. now left. }
  assert (NO : ~ mentioned r ($ "TIME_OFFSET")) by exact (NOOFF r RD).
  assert (VB : mem_var V_VERBOSE m = true -> 1 <= num o q_verbose <= 4) by auto.
  (* the new file *)
  assert (LO' : Forall line_ok nls).
  { rewrite Forall_forall in *. intros l I. destruct (CN l I) as (A & B & _). unfold line_ok. ands; auto.
    destruct (FROM l I) as [J|[->|[->|(e & J & ->)]]].
    - apply (LO l J).
    - rewrite zlen_nil. lia.
    - rewrite !zlen_app. change (zlen ($ "[")) with 1. change (zlen ($ "]")) with 1. lia.
    - eapply var_line_short; eauto. }
  assert (SI' : Forall simple nls). { rewrite Forall_forall in *. intros l I. apply (CN l I). }
  assert (SD' : stanza ($ "default") false (nls ++ [[]]) r). { apply (proj2 (stanza_last _ _ _ _)). apply OTH; [|exact RD]. intros Q. apply ND. unfold same_name in *. congruence. }
  assert (ST' : stanza (txt o t_stanza) false (nls ++ [[]]) (saved o m)) by exact (proj2 (stanza_last _ _ _ _) ST).
  assert (GR : Forall (fun e => In (fst e) variables /\ good e) r).
  { rewrite Forall_forall in *. intros e I. destruct (taken_good e (TR e I)). auto. }
  assert (GS : Forall (fun e => In (fst e) variables /\ good e) (saved o m)).
  { rewrite Forall_forall. intros e I. eapply (back_good r args o1 o2 o m); eauto. }
  set (nm := txt o t_stanza) in *. set (oa := set_t t_stanza nm defaults).
  pose proof (last_line_ok _ LO') as LL. pose proof (last_simple _ SI') as SS.
  destruct (rc_lines_forward ($ "default") (nls ++ [[]]) LL SS false r SD' GR oa) as (ob & EB).
  destruct (rc_lines_stanza ($ "default") (nls ++ [[]]) LL SS false oa ob EB) as (d & D1 & MD & _ & GD).
  rewrite (stanza_unique _ _ LL SS _ _ _ D1 SD') in MD. clear D1.
  assert (NMF : fit t_stanza nm = nm). { change (ztake 1023 nm = nm). apply ztake_all. lia. }
  assert (TA : txt oa t_stanza = nm) by (unfold oa; exact NMF).
  assert (TB : txt ob t_stanza = nm). { rewrite (run_moved_t _ _ _ t_stanza MD eq_refl), run_none by reflexivity. exact TA. }
  assert (GB : num ob q_got = 1).
  { destruct GD as [[_ G]|[G _]]; [exact G|]. exfalso. apply G. rewrite TA. destruct GH as (l & n & I & H). exists l, n. split; [apply in_or_app; now left|exact H]. }
  assert (SB : is_set ob q_save = false). { unfold is_set. rewrite (run_moved_n _ _ _ q_save MD eq_refl), run_none by reflexivity. reflexivity. }
  destruct (rc_lines_forward nm (nls ++ [[]]) LL SS false (saved o m) ST' GS ob) as (oc & EC).
  destruct (rc_lines_stanza nm (nls ++ [[]]) LL SS false ob oc EC) as (s & S1 & MS & _ & GC2).
  rewrite (stanza_unique _ _ LL SS _ _ _ S1 ST') in MS. clear S1.
  assert (GO : num oc q_got = 1) by (destruct GC2 as [[_ G]|[_ G]]; congruence).
  assert (MV' : moved (r ++ saved o m) oa oc) by (eapply moved_app; eauto).
  destruct (settings_back r args o1 o2 o oc m nm SAV LEN MK TR M1 MV CH GC OW TIME PLUS MINUS ONE NO VB LU NN MV' GO) as (o' & V & SAME).
  exists o', []. split; [|exact SAME]. unfold config_init. cbn [all_args first_arg]. unfold sbind at 1 2. cbn [ret]. fold oa.
  change (is_set oa q_no_rc) with false. cbv iota. change (num oa q_list =? 1) with false. cbv iota. cbn [process_rc_section]. rewrite EN, (file_lines_nl _ LL).
  rewrite EB. unfold sbind at 2. rewrite SB. unfold is_set at 1. rewrite GB. cbn [negb andb Z.eqb]. rewrite TB, EC. unfold sbind at 1. cbn [all_args second_arg]. unfold sbind. cbn [ret]. rewrite V. reflexivity.
Qed.
