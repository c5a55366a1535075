(** Properties of the configuration of the client: the rc file and the command line. *)
From Verif Require Import Bytes M_accfile M_base64 M_util M_message M_codec M_cipher M_ctx M_access M_replay M_cycle M_incoming M_conf M_codec M_client M_send
  S_base64 S_text S_codec S_cipher S_ctx S_access S_cycle S_incoming S_conf S_accfile S_client S_send T_codec T_client M_rc S_rc P_bytes P_client2 P_client6 P_rc2 P_rc7 P_rc8.
From Coq Require Import Init.Byte List ZArith Bool Lia.
Import ListNotations.
Open Scope Z_scope.

(** ** Samples *)
Lemma witness rc args (P : copts -> bool) (Q : copts -> Prop) :
  match config_init rc args with Ok (Some (o, _)) => P o | _ => false end = true -> (forall o, P o = true -> Q o) ->
  exists o m, config_init rc args = Ok (Some (o, m)) /\ Q o.
Proof. destruct (config_init rc args) as [[[o m]|]|]; try discriminate. intros E H. eauto. Qed.
Ltac sample P := apply (witness _ _ P); [vm_compute; reflexivity|intros o E; cbv beta in E; rewrite ?andb_true_iff, ?Z.eqb_eq, ?bseq_eq in E; intuition].
Definition no_stanza_without_name (lines : list bytes) : Prop := forall l, In l lines -> ~ heading l [].
Definition plain_lines (lines : list bytes) : Prop := Forall line_ok lines /\ Forall (fun l => ~ In x0b l /\ ~ In x0c l) lines /\ no_stanza_without_name lines.
Definition plainb (lines : list bytes) : bool :=
  forallb (fun l => negb (memb x0a l) && negb (memb x00 l) && (zlen l <=? 1022) && negb (memb x0b l) && negb (memb x0c l) &&
                    match rc_section l with Some [] => false | _ => true end) lines.
Lemma plainb_ok lines : plainb lines = true -> plain_lines lines.
Proof.
  unfold plainb, plain_lines, no_stanza_without_name. rewrite forallb_forall, !Forall_forall. intros H.
  assert (N : forall b l, negb (memb b l) = true -> ~ In b l). { intros b l X I. apply memb_In in I. rewrite I in X. discriminate X. }
  split; [|split]; intros l I; apply H in I; rewrite !andb_true_iff in I; destruct I as (((((A & B) & C) & D) & F) & G).
  - split; [|split]; auto; lia.
  - auto.
  - intros X. apply heading_rc_section in X. rewrite X in G. discriminate G.
Qed.
(** The file, or none *)
Definition rc_file (rc : option bytes) (lines : list bytes) : Prop := rc = Some (file lines) \/ rc = None /\ lines = [].

(** ** C72 Command line, stanza asked for, default stanza *)
(** Missing for the full property: an option of the command line does not always win, and an
    entry of the stanza asked for does not either; see the refutations. *)
Theorem C72_settings_partial : forall rc lines args o m, rc_file rc lines -> plain_lines lines -> config_init rc args = Ok (Some (o, m)) ->
  exists r, rc_says lines (command args) r /\ settings r (command args) o /\ Forall (fun e => allowed (fst e) (snd e)) r.
Proof. intros rc lines args o m RC (A & B & C) E. exact (started rc lines args o m RC A B C E). Qed.
Print Assumptions C72_settings_partial.
(** The entries of a stanza are determined by the file. *)
Theorem C72_one_meaning : forall lines name es es', plain_lines lines -> stanza name false lines es -> stanza name false lines es' -> es = es'.
Proof. intros lines name es es' (A & B & _) S S'. exact (stanza_unique name lines A B false es es' S S'). Qed.
Print Assumptions C72_one_meaning.
Definition rc0 : list bytes :=
  [ $ "# my servers"; []; $ "[default]"; $ "SPA_SERVER_PORT  62000"; $ "USE_HMAC Y ; always"; $ "DIGEST_TYPE  sha512"; $ "  [Home]";
    $ "SPA_SERVER  home.example.org"; $ "SPA_SERVER_PORT: 5000"; $ "ACCESS tcp/22"; $ "ALLOW_IP 10.1.1.3"; $ "KEY secret # not this"; $ "HMAC_KEY hmackey"; $ "TIME_OFFSET  -2m";
    $ "[work]"; $ "SPA_SERVER work.example.org" ].
Definition args0 : list arg := [ (O_n, $ "home"); (O_A, $ "tcp/443"); (O_m, $ "SHA256"); (O_v, []) ].
Example C72_ex : plain_lines rc0 /\ exists o m, config_init (Some (file rc0)) args0 = Ok (Some (o, m)) /\
  txt o t_server = $ "home.example.org" /\ num o q_dport = 5000 /\ txt o t_access = $ "tcp/443" /\ txt o t_key = $ "secret" /\ num o q_digest = 3 /\ num o q_use_hmac = 1 /\
  num o q_hmac_type = 3 /\ num o q_minus = 120 /\ txt o t_ip = $ "10.1.1.3" /\ num o q_verbose = 1.
Proof.
  split; [apply plainb_ok; vm_compute; reflexivity|].
  sample (fun o => bseq (txt o t_server) ($ "home.example.org") && (num o q_dport =? 5000) && bseq (txt o t_access) ($ "tcp/443") && bseq (txt o t_key) ($ "secret") &&
    (num o q_digest =? 3) && (num o q_use_hmac =? 1) && (num o q_hmac_type =? 3) && (num o q_minus =? 120) && bseq (txt o t_ip) ($ "10.1.1.3") && (num o q_verbose =? 1)).
Qed.
(** More -v on the command line than VERBOSE in the rc file: that of the rc file counts. *)
Theorem C72_verbose_refuted : exists o m, config_init (Some (file [$ "[default]"; $ "VERBOSE 1"])) [(O_v, []); (O_v, []); (O_v, []); (O_D, $ "fw"); (O_s, [])] = Ok (Some (o, m)) /\
  num o q_verbose = 1.
Proof. sample (fun o => num o q_verbose =? 1). Qed.
Print Assumptions C72_verbose_refuted.
(** -R on the command line asks to look up the address, but one in the rc file is used. *)
Theorem C72_resolve_refuted : exists o m, config_init (Some (file [$ "[default]"; $ "ALLOW_IP 10.1.1.3"])) [(O_R, []); (O_D, $ "fw")] = Ok (Some (o, m)) /\
  num o q_resolve = 0 /\ txt o t_ip = $ "10.1.1.3".
Proof. sample (fun o => (num o q_resolve =? 0) && bseq (txt o t_ip) ($ "10.1.1.3")). Qed.
Print Assumptions C72_resolve_refuted.
(** A key in base64 on the command line does not replace a KEY of the rc file. *)
Theorem C72_key_refuted : exists o m, config_init (Some (file [$ "[default]"; $ "KEY secret"])) [(O_key_base64_rijndael, $ "bmV3a2V5"); (O_D, $ "fw"); (O_s, [])] = Ok (Some (o, m)) /\
  forall file p, key_source_of file p o = KText ($ "secret").
Proof.
  apply (witness _ _ (fun o => (num o q_have_key =? 1) && bseq (txt o t_key) ($ "secret"))); [vm_compute; reflexivity|].
  intros o E f p. apply andb_true_iff in E as [A B]. apply Z.eqb_eq in A. apply bseq_eq in B. unfold key_source_of, is_set. rewrite A, B. reflexivity.
Qed.
Print Assumptions C72_key_refuted.
(** --time-offset-plus on the command line is added to a negative TIME_OFFSET of the rc file. *)
Theorem C72_offset_refuted : exists o m, config_init (Some (file [$ "[default]"; $ "TIME_OFFSET -5"])) [(O_time_plus, $ "3"); (O_D, $ "fw"); (O_s, [])] = Ok (Some (o, m)) /\
  num o q_plus = 3 /\ num o q_minus = 5.
Proof. sample (fun o => (num o q_plus =? 3) && (num o q_minus =? 5)). Qed.
Print Assumptions C72_offset_refuted.
(** ALLOW_IP resolve in the stanza asked for does not replace an address in the default stanza. *)
Theorem C72_stanza_resolve_refuted : exists o m, config_init (Some (file [$ "[default]"; $ "ALLOW_IP 10.1.1.3"; $ "[a]"; $ "ALLOW_IP resolve"])) [(O_n, $ "a"); (O_D, $ "fw")] = Ok (Some (o, m)) /\
  num o q_resolve = 0 /\ txt o t_ip = $ "10.1.1.3".
Proof. sample (fun o => (num o q_resolve =? 0) && bseq (txt o t_ip) ($ "10.1.1.3")). Qed.
Print Assumptions C72_stanza_resolve_refuted.
(** A stanza cannot turn off what the default stanza turns on. *)
Theorem C72_switch_refuted : exists o m, config_init (Some (file [$ "[default]"; $ "USE_GPG Y"; $ "GPG_RECIPIENT ABCD"; $ "[a]"; $ "USE_GPG N"])) [(O_n, $ "a"); (O_D, $ "fw"); (O_s, [])] = Ok (Some (o, m)) /\
  num o q_use_gpg = 1.
Proof. sample (fun o => num o q_use_gpg =? 1). Qed.
Print Assumptions C72_switch_refuted.
(** HMAC_KEY_FILE sets the file of the encryption key instead. *)
Theorem C72_hmac_key_file_refuted : exists o m, config_init (Some (file [$ "[default]"; $ "KEY_FILE enc.key"; $ "HMAC_KEY_FILE hmac.key"])) [(O_D, $ "fw"); (O_s, [])] = Ok (Some (o, m)) /\
  txt o t_key_file = $ "hmac.key" /\ txt o t_hmac_file = [].
Proof. sample (fun o => bseq (txt o t_key_file) ($ "hmac.key") && bseq (txt o t_hmac_file) []). Qed.
Print Assumptions C72_hmac_key_file_refuted.
(** A stanza with the empty name is read although none is asked for. *)
Theorem C72_empty_name_refuted : exists o m, config_init (Some (file [$ "[]"; $ "ACCESS tcp/1"])) [(O_D, $ "fw"); (O_s, [])] = Ok (Some (o, m)) /\ txt o t_access = $ "tcp/1".
Proof. sample (fun o => bseq (txt o t_access) ($ "tcp/1")). Qed.
Print Assumptions C72_empty_name_refuted.
(** The number of seconds of a TIME_OFFSET can overflow. *)
Theorem C72_offset_overflow_refuted : config_init (Some (file [$ "[default]"; $ "TIME_OFFSET 30000d"])) [(O_D, $ "fw"); (O_s, [])] = Fault.
Proof. vm_compute. reflexivity. Qed.
Print Assumptions C72_offset_overflow_refuted.

(** ** C73 Accepted options can be used *)
(** Missing for the full property: some accepted options never give a packet, see below. *)
Theorem C73_usable_partial : forall rc lines args o m, rc_file rc lines -> plain_lines lines -> config_init rc args = Ok (Some (o, m)) -> usable o.
Proof. intros rc lines args o m RC (A & B & C) E. exact (accepted_usable rc lines args o m RC A B C E). Qed.
Print Assumptions C73_usable_partial.
(** They are then options that the theorems about the packet and its sending (C64 to C71) are
    about: [ip] is the address given, or the one looked up. *)
Theorem C73_options_partial : forall rc lines args o m files p1 p2 ip w, rc_file rc lines -> plain_lines lines -> Forall (fun a => no_nul (snd a)) args ->
  config_init rc args = Ok (Some (o, m)) -> sends o -> letter_or_digit (hd x00 (txt o t_server)) -> an_address ip -> zlen ip <= 15 ->
  (forall h a, w_addr w h = Some a -> 0 <= a < 4294967296) -> options_ok (to_options files p1 p2 ip o) /\ route_ok w (to_route o).
Proof. intros rc lines args o m fs p1 p2 ip w RC (A & B & C). exact (accepted_options rc lines args o m fs p1 p2 ip w RC A B C). Qed.
Print Assumptions C73_options_partial.
Example C73_ex : plain_lines rc0 /\ Forall (fun a => no_nul (snd a)) args0 /\ an_address ($ "10.1.1.3") /\
  exists o m, config_init (Some (file rc0)) args0 = Ok (Some (o, m)) /\ sends o /\ letter_or_digit (hd x00 (txt o t_server)) /\
    exists h, make_packet toy v0 (to_options (fun _ => None) None None (txt o t_ip) o) = Ok (Some h).
Proof.
  split; [apply plainb_ok; vm_compute; reflexivity|]. split.
  { repeat constructor; cbn [snd]; intro Q; vm_compute in Q; intuition discriminate. }
  split; [exists 10, 1, 1, 3, ($ "10"), ($ "1"), ($ "1"), ($ "3"); repeat split; (reflexivity || (vm_compute; discriminate) || (repeat constructor; vm_compute; discriminate))|].
  apply (witness _ _ (fun o => (num o q_test =? 0) && (num o q_key_gen =? 0) && (num o q_version =? 0) && (num o q_show_last =? 0) && (num o q_run_last =? 0) &&
    beq (hd x00 (txt o t_server)) "h"%byte && match make_packet toy v0 (to_options (fun _ => None) None None (txt o t_ip) o) with Ok (Some _) => true | _ => false end)); [vm_compute; reflexivity|].
  intros o E. rewrite !andb_true_iff, !Z.eqb_eq, beq_eq in E. destruct E as ((((((E1 & E2) & E3) & E4) & E5) & E6) & E7).
  split; [repeat split; assumption|]. split; [rewrite E6; right; left; vm_compute; split; discriminate|].
  destruct (make_packet _ _ _) as [[h|]|]; try discriminate E7. eauto.
Qed.
(** -a resolve is accepted, and the text is then taken as the address. *)
Theorem C73_resolve_refuted : exists o m, config_init None [(O_a, $ "resolve"); (O_D, $ "fw"); (O_A, $ "tcp/22"); (O_key_rijndael, $ "pw")] = Ok (Some (o, m)) /\
  sends o /\ num o q_resolve = 0 /\ txt o t_ip = $ "resolve" /\ make_packet toy v0 (to_options (fun _ => None) None None (txt o t_ip) o) = Ok None.
Proof.
  apply (witness _ _ (fun o => (num o q_test =? 0) && (num o q_key_gen =? 0) && (num o q_version =? 0) && (num o q_show_last =? 0) && (num o q_run_last =? 0) &&
    (num o q_resolve =? 0) && bseq (txt o t_ip) ($ "resolve") && match make_packet toy v0 (to_options (fun _ => None) None None (txt o t_ip) o) with Ok None => true | _ => false end)); [vm_compute; reflexivity|].
  intros o E. rewrite !andb_true_iff, !Z.eqb_eq, bseq_eq in E. destruct E as (((((((E1 & E2) & E3) & E4) & E5) & E6) & E7) & E8).
  split; [repeat split; assumption|]. split; [exact E6|]. split; [exact E7|].
  destruct (make_packet _ _ _) as [[h|]|]; try discriminate E8. reflexivity.
Qed.
Print Assumptions C73_resolve_refuted.
(** Neither ports nor a command: accepted, but no packet can be made, with no key and on no
    system. *)
Theorem C73_no_access_refuted : exists o m, config_init None [(O_a, $ "10.1.1.3"); (O_D, $ "fw")] = Ok (Some (o, m)) /\ sends o /\
  forall H v files p1 p2 h, world_ok v -> make_packet H v (to_options files p1 p2 (txt o t_ip) o) <> Ok (Some h).
Proof.
  assert (AD : an_address ($ "10.1.1.3")).
  { exists 10, 1, 1, 3, ($ "10"), ($ "1"), ($ "1"), ($ "3"); repeat split; (reflexivity || (vm_compute; discriminate) || (repeat constructor; vm_compute; discriminate)). }
  destruct (config_init None [(O_a, $ "10.1.1.3"); (O_D, $ "fw")]) as [[[o m]|]|] eqn:E; [|exfalso; vm_compute in E; discriminate E..].
  assert (T : (num o q_test =? 0) && (num o q_key_gen =? 0) && (num o q_version =? 0) && (num o q_show_last =? 0) && (num o q_run_last =? 0) && (num o q_nat_rand =? 0) &&
    bseq (txt o t_server) ($ "fw") && bseq (txt o t_ip) ($ "10.1.1.3") && bseq (txt o t_access) [] && bseq (txt o t_command) [] = true).
  { assert (X : match config_init None [(O_a, $ "10.1.1.3"); (O_D, $ "fw")] with Ok (Some (o, m)) =>
      (num o q_test =? 0) && (num o q_key_gen =? 0) && (num o q_version =? 0) && (num o q_show_last =? 0) && (num o q_run_last =? 0) && (num o q_nat_rand =? 0) &&
      bseq (txt o t_server) ($ "fw") && bseq (txt o t_ip) ($ "10.1.1.3") && bseq (txt o t_access) [] && bseq (txt o t_command) [] | _ => false end = true) by (vm_compute; reflexivity).
    rewrite E in X. exact X. }
  rewrite !andb_true_iff, !Z.eqb_eq, !bseq_eq in T. destruct T as (((((((((E1 & E2) & E3) & E4) & E5) & E6) & E7) & E8) & E9) & E10).
  exists o, m. split; [reflexivity|]. split; [repeat split; assumption|]. intros H v fs p1 p2 h WO.
  assert (PL : plain_lines []) by (split; [constructor|split; [constructor|intros ? []]]).
  apply C64_no_access_refuted; [|exact WO| |exact E9|exact E10].
  - refine (proj1 (C73_options_partial None [] _ o m fs p1 p2 (txt o t_ip) (mkNetwork (fun _ => None) 0 0) _ PL _ E _ _ _ _ _)).
    + right. auto.
    + repeat constructor; cbn [snd]; intro Q; vm_compute in Q; intuition discriminate.
    + repeat split; assumption.
    + rewrite E7. right; left. vm_compute. split; discriminate.
    + rewrite E8. exact AD.
    + rewrite E8. vm_compute. discriminate.
    + intros ? ? Q. discriminate Q.
  - cbn [to_options o_nat_rand]. unfold is_set. rewrite E6. discriminate.
Qed.
Print Assumptions C73_no_access_refuted.

(** ** C70 The two keys differ, for all options that are accepted *)
(** The mode for old servers cuts the key after the comparison, but is refused with an HMAC.
    Missing for the full property: a key in base64 that is written behind its array. *)
Theorem C70_accepted_partial : forall H v h rc lines args o m files p1 p2 ip, hashes_ok H -> world_ok v -> rc_file rc lines -> plain_lines lines ->
  Forall (fun a => no_nul (snd a)) args -> config_init rc args = Ok (Some (o, m)) -> sends o -> letter_or_digit (hd x00 (txt o t_server)) -> an_address ip -> zlen ip <= 15 ->
  (num o q_nat_rand = 1 -> v_seed v 1%nat = true) -> (txt o t_command <> [] -> ~ nat_asked (to_options files p1 p2 ip o)) ->
  make_packet H v (to_options files p1 p2 ip o) = Ok (Some h) ->
  forall s k hk, o_hmac (to_options files p1 p2 ip o) = Some s -> (forall x, key_from (txt o t_server) (key_source_of files p1 o) x -> x = k) ->
    (forall x, key_from (txt o t_server) s x -> x = hk) -> k <> hk.
Proof.
  intros H v h rc lines args o m fs p1 p2 ip HO WO RC PL NA E S LD AD LI NS NN MP s k hk HS K HK.
  destruct (C73_options_partial rc lines args o m fs p1 p2 ip (mkNetwork (fun _ => None) 0 0) RC PL NA E S LD AD LI) as [OK _]; [intros ? ? Q; discriminate Q|].
  refine (C70_keys_partial H v _ h HO OK WO _ NN MP _ s k hk HS K HK).
  - cbn [to_options o_nat_rand]. intros Q. apply NS. destruct (C72_settings_partial rc lines args o m RC PL E) as (r & _ & SE & _).
    unfold is_set in Q. destruct (se_switch _ _ _ SE ($ "NAT_RAND_PORT") q_nat_rand) as [[_ X]|[_ X]]; [unfold switches; cbn [In]; tauto|exact X|rewrite X in Q; discriminate Q].
  - destruct PL as (A & B & C). apply (accepted_modes rc lines args o m fs p1 p2 ip RC A B C E). rewrite HS. discriminate.
Qed.
Print Assumptions C70_accepted_partial.
Example C70_accepted_ex : exists o m, config_init (Some (file rc0)) args0 = Ok (Some (o, m)) /\ num o q_nat_rand = 0 /\ txt o t_command = [] /\
  key_source_of (fun _ => None) None o = KText ($ "secret") /\ o_hmac (to_options (fun _ => None) None None (txt o t_ip) o) = Some (KText ($ "hmackey")) /\
  exists h, make_packet toy v0 (to_options (fun _ => None) None None (txt o t_ip) o) = Ok (Some h).
Proof.
  apply (witness _ _ (fun o => (num o q_nat_rand =? 0) && bseq (txt o t_command) [] && match key_source_of (fun _ => None) None o with KText k => bseq k ($ "secret") | _ => false end &&
    match o_hmac (to_options (fun _ => None) None None (txt o t_ip) o) with Some (KText k) => bseq k ($ "hmackey") | _ => false end &&
    match make_packet toy v0 (to_options (fun _ => None) None None (txt o t_ip) o) with Ok (Some _) => true | _ => false end)); [vm_compute; reflexivity|].
  intros o E. rewrite !andb_true_iff, Z.eqb_eq, bseq_eq in E. destruct E as ((((E1 & E2) & E3) & E4) & E5). split; [exact E1|]. split; [exact E2|]. split; [|split].
  - destruct (key_source_of _ _ o); try discriminate E3. apply bseq_eq in E3. now subst.
  - destruct (o_hmac _) as [[]|]; try discriminate E4. apply bseq_eq in E4. now subst.
  - destruct (make_packet _ _ _) as [[h|]|]; try discriminate E5. eauto.
Qed.
(** Such a key is accepted on the command line. *)
Theorem C70_overflow_accepted_refuted : exists o m,
  config_init None [(O_a, $ "10.1.1.3"); (O_D, $ "fw"); (O_A, $ "tcp/22"); (O_key_base64_rijndael, repeat "A"%byte 180)] = Ok (Some (o, m)) /\
  make_packet toy v0 (to_options (fun _ => None) None None (txt o t_ip) o) = Fault.
Proof.
  apply (witness _ _ (fun o => match make_packet toy v0 (to_options (fun _ => None) None None (txt o t_ip) o) with Fault => true | _ => false end)); [vm_compute; reflexivity|].
  intros o E. destruct (make_packet _ _ _) as [?|]; [discriminate E|reflexivity].
Qed.
Print Assumptions C70_overflow_accepted_refuted.
