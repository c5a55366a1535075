(** Proofs about the configuration of the client: what the program starts with. *)
From Verif Require Import Bytes M_accfile M_base64 M_util M_message M_codec M_cipher M_ctx M_access M_replay M_cycle M_incoming M_conf M_codec M_client M_send
  S_base64 S_text S_conf S_accfile P_bytes P_base64 P_util P_util2 P_access P_replay P_conf P_accfile P_accfile2 P_accfile3 P_accfile4 P_accfile6 P_message P_codec P_client P_client4 P_incoming5 M_rc S_rc P_rc P_rc2 P_rc3 P_rc4 P_rc5.
From Coq Require Import Init.Byte List ZArith Bool Lia.
Import ListNotations.
Open Scope Z_scope.

Local Ltac ands := repeat match goal with |- _ /\ _ => split end.

(** ** Names that occur on the command line *)
Definition command_names : list bytes :=
  [ $ "-a"; $ "ACCESS"; $ "-b"; $ "-B"; $ "-C"; $ "SPA_SERVER"; $ "-f"; $ "USE_GPG"; $ "KEY_FILE"; $ "--get-hmac-key"; $ "USE_HMAC"; $ "-H"; $ "SPA_SERVER_PROTO";
    $ "-k"; $ "KEY"; $ "KEY_BASE64"; $ "HMAC_KEY"; $ "HMAC_KEY_BASE64"; $ "HMAC_DIGEST_TYPE"; $ "--icmp-type"; $ "--icmp-code"; $ "-l"; $ "DIGEST_TYPE"; $ "ENCRYPTION_MODE";
    $ "NO_SAVE_ARGS"; $ "-n"; $ "NAT_ACCESS"; $ "SPA_SERVER_PORT"; $ "SPOOF_SOURCE_IP"; $ "RAND_PORT"; $ "RESOLVE_IP_HTTPS"; $ "RESOLVE_HTTP_ONLY"; $ "RESOLVE_URL";
    $ "SERVER_RESOLVE_IPV4"; $ "WGET_CMD"; $ "--show-last"; $ "-s"; $ "SPA_SOURCE_PORT"; $ "-T"; $ "HTTP_USER_AGENT"; $ "SPOOF_USER"; $ "-v"; $ "-V"; $ "GPG_RECIPIENT";
    $ "GPG_SIGNER"; $ "--gpg-home-dir"; $ "GPG_EXE"; $ "USE_GPG_AGENT"; $ "GPG_NO_SIGNING_PW"; $ "NAT_LOCAL"; $ "NAT_RAND_PORT"; $ "NAT_PORT"; $ "--time-offset-plus";
    $ "--time-offset-minus"; $ "USE_WGET_USER_AGENT"; $ "--save-rc-stanza"; $ "--force-stanza"; $ "--no-rc-file" ].
Definition mem (n : bytes) (l : list bytes) : bool := existsb (bseq n) l.
Lemma mem_In n l : mem n l = true <-> In n l.
Proof.
  unfold mem. rewrite existsb_exists. split.
  - intros (x & I & E). apply bseq_eq in E. now subst.
  - intros I. exists n. split; [exact I|now apply bseq_eq].
Qed.
Lemma means_names a : Forall (fun e => mem (fst e) command_names = true /\ (In (fst e) [$ "--no-rc-file"; $ "--save-rc-stanza"] -> snd e = $ "Y")) (means a).
Proof.
  destruct a as [c v]. destruct c; cbn [means]; repeat (apply Forall_cons; [split; [reflexivity|]; cbn [fst snd]; intros I; try reflexivity;
    exfalso; apply mem_In in I; vm_compute in I; discriminate I|]); apply Forall_nil.
Qed.
Lemma command_named args n v : In (n, v) (command args) -> In n command_names.
Proof.
  unfold command. rewrite in_concat. intros (l & L & I). apply in_map_iff in L as (a & <- & _). pose proof (means_names a) as F.
  rewrite Forall_forall in F. apply mem_In. exact (proj1 (F _ I)).
Qed.
Lemma command_flag args n v : In n [$ "--no-rc-file"; $ "--save-rc-stanza"] -> In (n, v) (command args) -> v = $ "Y".
Proof.
  unfold command. rewrite in_concat. intros N (l & L & I). apply in_map_iff in L as (a & <- & _). pose proof (means_names a) as F.
  rewrite Forall_forall in F. exact (proj2 (F _ I) N).
Qed.
Lemma not_mentioned args n : mem n command_names = false -> ~ mentioned (command args) n.
Proof. intros M (v & I). apply command_named in I. apply mem_In in I. congruence. Qed.
Lemma flag_iff args o1 n f : In n [$ "--no-rc-file"; $ "--save-rc-stanza"] ->
  (forall m v, first_n f m v = if is m n then if is_yes v then Some 1 else None else None) -> num o1 f = run (first_n f) (command args) 0 ->
  (is_set o1 f = true <-> mentioned (command args) n).
Proof.
  intros N T E. assert (S : switch (exists m v, In (m, v) (command args) /\ m = n /\ is_yes v = true) (num o1 f)).
  { rewrite E. apply run_switch; [|reflexivity]. intros m v. rewrite T. unfold is. destruct (bseq m n) eqn:Q.
    - apply bseq_eq in Q. subst m. destruct (is_yes v); [left|right]; intuition congruence.
    - right. split; [|reflexivity]. intros [-> _]. rewrite (proj2 (bseq_eq n n) eq_refl) in Q. discriminate Q. }
  unfold is_set. destruct S as [[(m & v & I & -> & Y) ->]|[NP ->]].
  - split; [intros _; now exists v|reflexivity].
  - split; [discriminate|]. intros (v & I). exfalso. apply NP. exists n, v. ands; auto. rewrite (command_flag args n v N I). reflexivity.
Qed.

(** ** The steps of config_init *)
Lemma arg_got a o m o' m' : second_arg a (o, m) = Ok (Some (o', m')) -> num o' q_got = num o q_got.
Proof.
  destruct a as [c v]. assert (N : forall f lo hi o1, f <> q_got -> s_number f lo hi v o = Ok (Some o1) -> num o1 q_got = num o q_got).
  { intros f lo hi o1 F. unfold s_number. destruct (strtol_wrapper v lo hi) as [x e]. destruct (strtol_ok e); [|discriminate]. intros Q. injection Q as <-.
    destruct f; try reflexivity. contradiction. }
  assert (T : forall f o1, f <> q_got -> s_offset f v o = Ok (Some o1) -> num o1 q_got = num o q_got).
  { intros f o1 F. unfold s_offset, e_offset. destruct (time_offset v) as [[[z [|]]|]|]; try discriminate. intros Q. injection Q as <-.
    destruct f; try reflexivity. contradiction. }
  destruct c; cbn [second_arg]; cbv beta zeta; intros E; try discriminate E;
    try (match type of E with (if ?b then _ else _) = _ => destruct b; [|]; try discriminate E end);
    try (injection E as E1 E2; rewrite <- E1; reflexivity);
    (apply sbind_ok in E as (o1 & E1 & E); injection E as E2 E3; rewrite <- E2; cbn [num set_n qfield_beq];
     first [eapply N; [|exact E1]; discriminate|eapply T; [|exact E1]; discriminate]).
Qed.
Lemma args_got args : forall o m o' m', all_args second_arg args (o, m) = Ok (Some (o', m')) -> num o' q_got = num o q_got.
Proof.
  induction args as [|a args IH]; intros o m o' m' E; cbn [all_args] in E; [now injection E as <- <-|].
  apply sbind_ok in E as ([o1 m1] & S & E). rewrite (IH _ _ _ _ E). exact (arg_got _ _ _ _ _ S).
Qed.
Lemma same_name_nil n : same_name n [] -> n = [].
Proof. unfold same_name. destruct n; [reflexivity|discriminate]. Qed.
Lemma rc_section_stanza rc lines sec o o' : (rc = Some (file lines) \/ rc = None /\ lines = []) -> Forall line_ok lines -> Forall simple lines ->
  process_rc_section rc sec o = Ok (Some o') ->
  exists es, stanza sec false lines es /\ moved es o o' /\ Forall taken es /\
    ((got_heading lines (txt o t_stanza) /\ num o' q_got = 1) \/ (~ got_heading lines (txt o t_stanza) /\ num o' q_got = num o q_got)).
Proof.
  intros [->|[-> ->]] LO SI; cbn [process_rc_section].
  - rewrite (file_lines_nl _ LO). intros E. exact (rc_lines_stanza sec lines LO SI false o o' E).
  - intros E. injection E as <-. exists []. ands; [constructor|apply moved_nil|constructor|]. right. split; [|reflexivity]. intros (? & ? & [] & _).
Qed.
Lemma stanza_in name h lines es : stanza name h lines es -> forall n v, In (n, v) es -> exists l, In l lines /\ sets l n v.
Proof.
  induction 1; intros a b I; try (destruct (IHstanza a b I) as (x & X & Y); exists x; split; [now right|exact Y]); [contradiction|].
  destruct I as [I|I]; [injection I as <- <-; exists l; split; [now left|assumption]|].
  destruct (IHstanza a b I) as (x & X & Y); exists x; split; [now right|exact Y].
Qed.
Lemma config_parts rc lines args o m :
  (rc = Some (file lines) \/ rc = None /\ lines = []) -> Forall line_ok lines -> Forall simple lines -> (forall l, In l lines -> ~ heading l []) ->
  config_init rc args = Ok (Some (o, m)) ->
  exists r o1 o2, rc_says lines (command args) r /\ Forall taken r /\ (forall n v, In (n, v) r -> exists l, In l lines /\ sets l n v) /\
    moved1 (command args) defaults o1 /\ moved (r ++ command args) o1 o2 /\ checked o2 o /\ Forall good (command args).
Proof.
  intros RC LO SI NE E. unfold config_init in E. apply sbind_ok in E as ([o1 m1] & E1 & E).
  pose proof (firsts_moved _ _ _ E1) as M1. cbn [fst] in M1. pose proof M1 as (MT & MN & _).
  apply sbind_ok in E as (oa & E2 & E). apply sbind_ok in E as ([o2 m2] & E3 & E). apply sbind_ok in E as (o3 & E4 & E). injection E as -> ->.
  pose proof (args_moved _ _ _ _ _ E3) as M3. pose proof (args_good _ _ _ E3) as G3. pose proof (validate_checked _ _ E4) as CH.
  assert (NR : is_set o1 q_no_rc = true <-> mentioned (command args) ($ "--no-rc-file")).
  { apply flag_iff; [cbn [In]; tauto|reflexivity|exact (MN q_no_rc eq_refl)]. }
  assert (SV : is_set o1 q_save = true <-> mentioned (command args) ($ "--save-rc-stanza")).
  { apply flag_iff; [cbn [In]; tauto|reflexivity|exact (MN q_save eq_refl)]. }
  assert (ST : stanza_name (command args) (txt o1 t_stanza)).
  { rewrite (MT t_stanza eq_refl). change (txt defaults t_stanza) with (@nil byte). apply run_decided.
    - intros n v N. cbn [first_t]. isnt [$ "-n"]. reflexivity.
    - intros n v _ I. which I. eexists; split; reflexivity. }
  assert (GT : num o1 q_got = 0). { rewrite (MN q_got eq_refl). apply run_none. reflexivity. }
  destruct (is_set o1 q_no_rc) eqn:QN.
  - destruct (is_set o1 q_save || given (txt o1 t_stanza) || is_set o1 q_list); [discriminate E2|]. injection E2 as <-.
    exists [], o1, o2. ands; auto; [left; split; [now apply NR|reflexivity]|intros n v []].
  - destruct (num o1 q_list =? 1); [discriminate E2|]. apply sbind_ok in E2 as (ob & EB & E2).
    destruct (rc_section_stanza _ _ _ _ _ RC LO SI EB) as (d & SD & MD & TD & GD).
    assert (SB : is_set ob q_save = is_set o1 q_save). { unfold is_set. rewrite (run_moved_n _ _ _ q_save MD eq_refl). rewrite run_none by reflexivity. reflexivity. }
    assert (TB : txt ob t_stanza = txt o1 t_stanza). { rewrite (run_moved_t _ _ _ t_stanza MD eq_refl). rewrite run_none by reflexivity. reflexivity. }
    assert (NRN : ~ mentioned (command args) ($ "--no-rc-file")). { rewrite <- NR. discriminate. }
    destruct (is_set ob q_got && negb (is_set ob q_save)) eqn:GS.
    + apply andb_true_iff in GS as [GS NS]. apply negb_true_iff in NS. rewrite TB in E2.
      destruct GD as [[GH _]|[_ GD]]; [|unfold is_set in GS; rewrite GD, GT in GS; discriminate GS].
      destruct (rc_section_stanza _ _ _ _ _ RC LO SI E2) as (s & SS & MS & TS & _).
      exists (d ++ s), o1, o2. ands; auto.
      * right. split; [exact NRN|]. exists (txt o1 t_stanza), d, s. ands; auto. right. ands; auto.
        -- intros Q. destruct GH as (l & n & I & H & S). rewrite Q in S. apply same_name_nil in S. subst n. exact (NE l I H).
        -- rewrite <- SV, <- SB, NS. discriminate.
      * apply Forall_app; auto.
      * intros n v I. apply in_app_or in I as [I|I]; [exact (stanza_in _ _ _ _ SD _ _ I)|exact (stanza_in _ _ _ _ SS _ _ I)].
      * rewrite <- app_assoc. eapply moved_app; [exact MD|]. eapply moved_app; [exact MS|exact M3].
    + injection E2 as ->. exists d, o1, o2. ands; auto.
      * right. split; [exact NRN|]. exists (txt o1 t_stanza), d, []. ands; auto; [now rewrite app_nil_r|]. left. split; [|reflexivity].
        destruct (is_set oa q_save) eqn:QS; [right; apply SV; congruence|]. left.
        rewrite andb_true_r in GS.
        assert (T2 : txt o2 t_stanza = txt o1 t_stanza). { rewrite (run_moved_t _ _ _ t_stanza M3 eq_refl). rewrite run_none by reflexivity. exact TB. }
        assert (S2 : is_set o2 q_save = false). { unfold is_set. rewrite (run_moved_n _ _ _ q_save M3 eq_refl). rewrite run_none by reflexivity. exact QS. }
        destruct (txt o1 t_stanza) as [|c t] eqn:TT; [reflexivity|]. exfalso.
        assert (GV : given (txt o2 t_stanza) = true) by now rewrite T2.
        destruct (ch_found _ _ CH GV) as [G|G]; [|congruence]. unfold is_set in G, GS. rewrite (args_got _ _ _ _ _ E3) in G. congruence.
      * intros n v I. eapply stanza_in; eauto.
      * eapply moved_app; [exact MD|exact M3].
Qed.

(** ** Settings *)
Lemma switch_bit P x : switch P x -> x = 0 \/ x = 1.
Proof. intros [[_ ->]|[_ ->]]; auto. Qed.
Lemma given_nil s : given s = false <-> s = [].
Proof. destruct s; cbn; split; congruence. Qed.
Lemma mentioned_app b c p : mentioned (b ++ c) p <-> mentioned b p \/ mentioned c p.
Proof.
  unfold mentioned. split.
  - intros (v & I). apply in_app_or in I as [I|I]; eauto.
  - intros [(v & I)|(v & I)]; exists v; apply in_or_app; auto.
Qed.
Lemma ztake_nil_iff n (v : bytes) : 0 < n -> v <> [] -> ztake n v <> [].
Proof. intros N V. destruct v; [contradiction|]. unfold ztake. destruct (Z.to_nat n) eqn:Q; [lia|]. discriminate. Qed.
Lemma looked_up_iff o : looked_up o = true <-> same_name (ztake 7 (txt o t_ip)) ($ "resolve").
Proof. unfold looked_up, same_name. rewrite (map_ext _ _ tolower_lower), bseq_eq. reflexivity. Qed.
Section Settings.
Variables (r : list (bytes * bytes)) (args : list arg) (o1 o2 o : copts).
Let c := command args.
Hypothesis (TR : Forall taken r) (M1 : moved1 c defaults o1) (MV : moved (r ++ c) o1 o2) (CH : checked o2 o) (GC : Forall good c).
Lemma set_good : Forall good (r ++ c).
Proof. apply Forall_app. split; [|exact GC]. eapply Forall_impl; [|exact TR]. intros e T. exact (proj1 (taken_good e T)). Qed.
Lemma set_txt f : unseen_t f = false -> f <> t_stanza -> f <> t_agent -> txt o f = run (touch_t f) (r ++ c) [].
Proof.
  intros U S A. rewrite (ch_txt _ _ CH f S A), (run_moved_t _ _ _ f MV U). f_equal. destruct M1 as (T & _). rewrite (T f U). change (txt defaults f) with (@nil byte).
  apply run_none. intros n v _. destruct f; try reflexivity. contradiction.
Qed.
Lemma set_num1 f : skip1 f = false -> first_n f = (fun _ _ => None) -> num o1 f = num defaults f.
Proof. intros K F. destruct M1 as (_ & N & _). rewrite (N f K), F. apply run_none. reflexivity. Qed.
Lemma set_num f : unseen f = false -> f <> q_resolve -> f <> q_hmac_type -> num o f = run (touch_n f) (r ++ c) (num o1 f).
Proof. intros U R H. rewrite (ch_num _ _ CH f R H). exact (run_moved_n _ _ _ f MV U). Qed.
Lemma rc_names n v : In (n, v) r -> In n variables.
Proof. intros I. rewrite Forall_forall in TR. exact (proj2 (taken_good _ (TR _ I))). Qed.
Lemma set_use_hmac : switch (turned_on (r ++ c) ($ "USE_HMAC") \/ mentioned (r ++ c) ($ "HMAC_KEY") \/ mentioned (r ++ c) ($ "HMAC_KEY_BASE64")) (num o q_use_hmac).
Proof. rewrite (set_num q_use_hmac) by (reflexivity || discriminate). rewrite (set_num1 q_use_hmac eq_refl eq_refl). apply use_hmac_decided. Qed.
Lemma set_switch p f : In (p, f) switches -> switch (turned_on (r ++ c) p) (num o f).
Proof.
  intros I. assert (N : num o f = run (touch_n f) (r ++ c) (num o1 f)).
  { unfold switches in I. cbn [In] in I. repeat (destruct I as [I|I]; [injection I as <- <-; apply set_num; (reflexivity || discriminate)|]). contradiction. }
  rewrite N. clear N. apply switch_decided; [exact I|]. unfold switches in I. cbn [In] in I.
  repeat (destruct I as [I|I]; [injection I; clear I; intros <- <-; try (left; apply set_num1; reflexivity)|]); [|contradiction].
  destruct M1 as (_ & N & _). rewrite (N q_no_save eq_refl). change (num defaults q_no_save) with 0.
  assert (S : switch (exists n v, In (n, v) c /\ n = $ "NO_SAVE_ARGS" /\ is_yes v = true) (run (first_n q_no_save) c 0)).
  { apply run_switch; [|reflexivity]. intros n v. cbn [first_n]. unfold is. destruct (bseq n _) eqn:Q.
    - apply bseq_eq in Q. subst n. destruct (is_yes v); [left|right]; intuition congruence.
    - right. split; [|reflexivity]. intros [-> _]. discriminate Q. }
  destruct S as [[(n & v & I & -> & Y) ->]|[_ ->]]; [right|auto]. split; [reflexivity|]. apply is_yes_iff in Y.
  unfold turned_on. destruct Y as [->| ->]; [left|right]; apply in_or_app; auto.
Qed.
Lemma set_resolve : num o q_resolve = 0 \/ num o q_resolve = 1.
Proof.
  assert (B : num o2 q_resolve = 0 \/ num o2 q_resolve = 1).
  { rewrite (run_moved_n _ _ _ q_resolve MV eq_refl). apply resolve_bool. left. apply set_num1; reflexivity. }
  destruct (given (txt o2 t_ip)) eqn:G; [destruct (looked_up o2) eqn:L|].
  - rewrite (ch_resolve _ _ CH) by auto. destruct (_ && _); auto.
  - left. apply (ch_ip _ _ CH G L).
  - rewrite (ch_resolve _ _ CH) by auto. destruct (_ && _); auto.
Qed.
Lemma special_same : special o2 = is_set o q_test || is_set o q_key_gen || is_set o q_version || is_set o q_show_last || is_set o q_run_last.
Proof. unfold special, is_set. rewrite !(ch_num _ _ CH) by discriminate. reflexivity. Qed.
Lemma set_settings : settings r c o.
Proof.
  pose proof set_good as G.
  assert (IP : txt o t_ip = txt o2 t_ip) by (apply (ch_txt _ _ CH); discriminate).
  split.
  - intros ps f k I. rewrite set_txt; [now apply text_decided| | |];
      unfold text_vars in I; cbn [In] in I; repeat (destruct I as [I|I]; [injection I as <- <- <-; (reflexivity || discriminate)|]); contradiction.
  - rewrite set_txt by (reflexivity || discriminate). apply url_decided.
  - rewrite set_txt by (reflexivity || discriminate). apply wget_decided.
  - intros NM. rewrite set_txt by (reflexivity || discriminate). apply key_file_decided. rewrite mentioned_app. intros [M|M]; [auto|].
    revert M. apply not_mentioned. reflexivity.
  - rewrite set_txt by (reflexivity || discriminate). rewrite run_app, (run_none _ r); [apply hmac_file_decided|].
    intros n v I. apply rc_names in I. cbn [touch_t]. unfold is. destruct (bseq n ($ "--get-hmac-key")) eqn:Q; [|reflexivity].
    apply bseq_eq in Q. subst n. exfalso. apply mem_In in I. discriminate I.
  - rewrite set_txt by (reflexivity || discriminate). apply gpg_home_decided.
  - rewrite set_txt by (reflexivity || discriminate). apply ip_decided.
  - intros ps f R d I. assert (N : num o f = run (touch_n f) (r ++ c) d).
    { unfold number_vars in I; cbn [In] in I; repeat (destruct I as [I|I]; [injection I; clear I; intros <- <- <- <-;
        rewrite set_num by (reflexivity || discriminate); rewrite set_num1 by reflexivity; reflexivity|]); contradiction. }
    rewrite N. now apply number_decided.
  - rewrite set_num by (reflexivity || discriminate). rewrite set_num1 by reflexivity. now apply plus_decided.
  - rewrite set_num by (reflexivity || discriminate). rewrite set_num1 by reflexivity. now apply minus_decided.
  - exact set_switch.
  - intros ps f I. assert (N : num o f = run (touch_n f) (r ++ c) 0).
    { unfold given_vars in I; cbn [In] in I; repeat (destruct I as [I|I]; [injection I; clear I; intros <- <-;
        rewrite set_num by (reflexivity || discriminate); rewrite set_num1 by reflexivity; reflexivity|]); contradiction. }
    rewrite N. now apply given_decided.
  - exact set_use_hmac.
  - assert (H2 : num o2 q_hmac_type = run (touch_n q_hmac_type) (r ++ c) 0).
    { rewrite (run_moved_n _ _ _ q_hmac_type MV eq_refl). rewrite set_num1 by reflexivity. reflexivity. }
    pose proof (hmac_type_decided _ G) as [D1 D2]. rewrite <- H2 in D1, D2. pose proof (ch_hmac_type _ _ CH) as HT.
    assert (U : is_set o2 q_use_hmac = (num o q_use_hmac =? 1)).
    { unfold is_set. rewrite <- (ch_num _ _ CH) by discriminate. destruct (switch_bit _ _ set_use_hmac) as [-> | ->]; reflexivity. }
    assert (K : is_set o2 q_key_gen = (num o q_key_gen =? 1)).
    { unfold is_set. rewrite <- (ch_num _ _ CH) by discriminate. assert (S := set_switch ($ "-k") q_key_gen).
      destruct (switch_bit _ _ (S ltac:(unfold switches; cbn [In]; tauto))) as [-> | ->]; reflexivity. }
    rewrite U, K in HT. split.
    + intros p v L. apply D1 in L. assert (P : 0 < num o2 q_hmac_type).
      { eapply one_of_pos; [|exact L]. intros n z I. unfold digests in I. cbn [In] in I. repeat (destruct I as [I|I]; [injection I as <- <-; lia|]). contradiction. }
      rewrite HT. destruct (num o2 q_hmac_type =? 0) eqn:Q; [lia|]. rewrite andb_false_r. exact L.
    + intros A. rewrite HT, (D2 A). cbn. rewrite andb_true_r. reflexivity.
  - rewrite set_num by (reflexivity || discriminate). rewrite run_app. rewrite (run_none _ c).
    + assert (V : num o1 q_verbose = count ($ "-v") c mod 256).
      { destruct M1 as (_ & _ & V & B). change (num defaults q_verbose) with 0 in V, B. rewrite Z.add_0_l in V.
        rewrite <- V. symmetry. apply Z.mod_small. apply B. lia. }
      rewrite V. apply verbose_decided. apply Forall_app in G. tauto.
    + intros n v I. apply command_named in I. cbn [touch_n]. unfold is. destruct (bseq n ($ "VERBOSE")) eqn:Q; [|reflexivity].
      apply bseq_eq in Q. subst n. exfalso. apply mem_In in I. discriminate I.
  - intros N. rewrite IP in *. destruct (looked_up o2) eqn:L; [left; now apply looked_up_iff|right].
    apply (ch_ip _ _ CH); [|exact L]. destruct (given (txt o2 t_ip)) eqn:Q; [reflexivity|]. apply given_nil in Q. contradiction.
  - intros N T1 T2 T3 T4 T5. assert (S : special o2 = false) by (rewrite special_same; unfold is_set; rewrite T1, T2, T3, T4, T5; reflexivity).
    destruct (ch_some _ _ CH S) as [Q|Q]; [rewrite <- IP, N in Q; discriminate Q|]. unfold is_set in Q. destruct set_resolve as [E|E]; [rewrite E in Q; discriminate Q|exact E].
  - assert (A2 : txt o2 t_agent = run (touch_t t_agent) (r ++ c) []).
    { rewrite (run_moved_t _ _ _ t_agent MV eq_refl). f_equal. destruct M1 as (T & _). rewrite (T t_agent eq_refl). apply run_none. reflexivity. }
    pose proof (agent_decided (r ++ c)) as [D1 D2]. rewrite <- A2 in D1, D2. pose proof (ch_agent _ _ CH) as AG. rewrite <- (ch_num _ _ CH q_proto) in AG by discriminate.
    assert (RS : is_set o q_resolve = (num o q_resolve =? 1)) by (unfold is_set; destruct set_resolve as [-> | ->]; reflexivity). rewrite RS in AG.
    split.
    + intros p v L V. rewrite AG, (D1 p v L). destruct (given (ztake 99 v)) eqn:Q; [rewrite andb_false_r; reflexivity|].
      apply given_nil in Q. exfalso. revert Q. apply ztake_nil_iff; [lia|exact V].
    + intros A. rewrite AG, (D2 A). cbn [given negb]. rewrite andb_true_r. reflexivity.
Qed.
End Settings.
