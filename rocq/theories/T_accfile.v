(** Properties of the access file: C56 to C62. *)
From Verif Require Import Bytes M_base64 M_util M_message M_codec M_access M_replay M_cycle M_incoming M_conf M_accfile
  S_text S_base64 S_conf S_accfile P_bytes P_base64 P_util P_util2 P_access P_replay P_conf P_accfile P_accfile2 P_accfile3 P_accfile4 P_accfile5 P_accfile6.
From Coq Require Import Init.Byte List ZArith Bool Lia.
Import ListNotations.
Open Scope Z_scope.

Local Ltac ands := repeat match goal with |- _ /\ _ => split end.
Local Ltac line := repeat split; [cbn; intuition discriminate|cbn; intuition discriminate|vm_compute; congruence].

(** The files of an example: a list of names and texts; folder /d holds the files named. *)
Definition text_of (fs : list (bytes * bytes)) (n : bytes) : option bytes :=
  match find (fun f => bseq (fst f) n) fs with Some (_, t) => Some t | None => None end.
Definition sys_of (fs : list (bytes * bytes)) (dir : list bytes) : system :=
  mkSys (text_of fs) (fun d => if bseq d ($ "/d") then Some dir else None)
    (fun u => if bseq u ($ "alice") then Some (1000, 100) else if bseq u ($ "bob") then Some (1001, 200)
              else if bseq u ($ "wheel") then Some (50, 60) else None)
    (fun _ => true) (fun m d yr => (yr * 12 + m) * 31 + d) ($ "Y") ($ "N") ($ "/root/.gnupg").

(** C56.  When the server starts from an access file without include directives, its stanzas
    are those of the file in order, each with the settings its lines give (the last line about a
    parameter counts, values without the blanks around them, defaults for what is not given),
    with the addresses and ports its lists cover, and with the expiry it names; the firewall is
    used if some stanza does not run commands instead.
    Missing for the full claim: the included files (C57, C58), a value of one character followed
    by blanks (C56_blanks_refuted) and lines of more than 1022 characters
    (C56_comment_refuted); numbers beyond an int (C38) and the mask 0.0.0.32 (C25). *)
Theorem C56_stanzas_partial : forall y name lines es pre bs fuel l fw,
  y_file y name = Some (file lines) -> Forall line_ok lines -> entries lines es -> es = pre ++ flatten bs ->
  absent pre ([$ "SOURCE"] ++ include_params) -> Forall (fun b => absent (snd b) ([$ "SOURCE"] ++ include_params)) bs ->
  load_access fuel y name None = Done (l, fw) ->
  Forall2 (fun b a => stanza_says (fst b) (snd b) a /\ lists_say a /\
     decided (snd b) [$ "ACCESS_EXPIRE"; $ "ACCESS_EXPIRE_EPOCH"] (expiry y) 0 (ints a i_expire)) bs l /\
  (fw = true <-> exists a, In a l /\ strs a s_cycle_open = None).
Proof.
  intros y name lines es pre bs fuel l fw YF LO EN ES AP AB LD.
  destruct (single_file y name lines es pre bs fuel l fw YF LO EN ES AP AB LD) as [F FW]. split; [|exact FW].
  clear - F. induction F as [|b a bs l (F1 & F2 & _) _ IH]; constructor; auto. ands; auto.
  - eapply final_says; eauto.
  - eapply final_expire; eauto.
Qed.
Print Assumptions C56_stanzas_partial.

Lemma says_ex l nm v : line_ok l -> is_empty_line (hd x00 l) = false -> scan_line l = Some (nm, v) -> rtrim v = v -> ~ In ":"%byte nm -> says l nm v.
Proof.
  intros (_ & N0 & _) NE S R NC. destruct (scan_written l nm v) as (v' & t & E & W); auto.
  - rewrite <- empty_line_comment by auto. congruence.
  - assert (Q : rtrim v = v').
    { rewrite E. apply rtrim_spec; destruct W as (_ & ? & ? & ? & W); [tauto|]. eapply Forall_impl; [|apply W]. intros c [? _]; auto. }
    rewrite R in Q. subst v'. assert (t = []) by (apply (app_inv_head v); now rewrite app_nil_r). subst t.
    exists nm, []. ands; auto. left. auto.
Qed.

Definition ex_lines : list bytes :=
  [ $ "# access"; $ "SOURCE   10.0.0.0/8, 192.168.1.1"; $ "KEY secret;x"; $ "OPEN_PORTS tcp/22, udp/53"; [];
    $ "KEY newsecret"; $ "FW_ACCESS_TIMEOUT 60"; $ "ACCESS_EXPIRE_EPOCH 1700000000"; $ "SOURCE ANY"; $ "KEY_BASE64 YWJj" ].
Definition ex_blocks : list block :=
  [ ($ "10.0.0.0/8, 192.168.1.1", [ ($ "KEY", $ "secret"); ($ "OPEN_PORTS", $ "tcp/22, udp/53"); ($ "KEY", $ "newsecret");
      ($ "FW_ACCESS_TIMEOUT", $ "60"); ($ "ACCESS_EXPIRE_EPOCH", $ "1700000000") ]);
    ($ "ANY", [ ($ "KEY_BASE64", $ "YWJj") ]) ].
Ltac said := apply entries_says; [apply says_ex; [line|reflexivity|vm_compute; reflexivity|vm_compute; reflexivity|cbn; intuition discriminate]|].
Lemma ex_entries : entries ex_lines (flatten ex_blocks).
Proof.
  apply entries_comment; [right; cbn; auto|]. do 3 said. apply entries_comment; [left; reflexivity|]. do 5 said. apply entries_nil.
Qed.
Example C56_ex : exists a b,
  let y := sys_of [($ "access.conf", file ex_lines)] [] in
  y_file y ($ "access.conf") = Some (file ex_lines) /\ Forall line_ok ex_lines /\ entries ex_lines ([] ++ flatten ex_blocks) /\
  Forall (fun b => absent (snd b) ([$ "SOURCE"] ++ include_params)) ex_blocks /\
  load_access 1 y ($ "access.conf") None = Done ([a; b], true) /\
  strs a s_key = Some ($ "newsecret") /\ ints a i_fw_timeout = 60 /\ l_open a = [(6, 22); (17, 53)] /\ ints a i_expire = 1700000000 /\
  strs b s_key = Some ($ "abc") /\ ints b i_fw_timeout = 30 /\ ints b i_mode = 2.
Proof.
  eexists; eexists. cbv zeta. ands.
  - reflexivity.
  - repeat apply Forall_cons; try apply Forall_nil; line.
  - exact ex_entries.
  - repeat apply Forall_cons; try apply Forall_nil; intros q u I C; unfold ex_blocks, include_params in *; cbn [snd In app] in I, C;
      repeat match goal with H : _ \/ _ |- _ => destruct H as [H|H] end; try contradiction; inversion I; subst; discriminate.
  - vm_compute; reflexivity.
  - vm_compute; reflexivity.
  - vm_compute; reflexivity.
  - vm_compute; reflexivity.
  - vm_compute; reflexivity.
  - vm_compute; reflexivity.
  - vm_compute; reflexivity.
  - vm_compute; reflexivity.
Qed.

(** C56 as stated does not hold: blanks behind a value of one character stay in it. *)
Definition k_line : bytes := $ "KEY k ".
Theorem C56_blanks_refuted : exists a,
  written k_line ($ "KEY") ($ "k") ($ " ") /\
  load_access 1 (sys_of [($ "f", file [$ "SOURCE ANY"; k_line])] []) ($ "f") None = Done ([a], true) /\
  strs a s_key = Some ($ "k ").
Proof.
  eexists. ands.
  - destruct (scan_written k_line ($ "KEY") ($ "k ")) as (v & t & E & W).
    + rewrite <- empty_line_comment; [vm_compute; discriminate|cbn; intuition discriminate].
    + vm_compute; reflexivity.
    + assert (R : rtrim ($ "k ") = v).
      { rewrite E. apply rtrim_spec; destruct W as (_ & ? & ? & ? & W); [tauto|].
        eapply Forall_impl; [|apply W]. intros c [? _]; auto. }
      vm_compute in R. subst v. injection E; intros <-. exact W.
  - vm_compute; reflexivity.
  - vm_compute; reflexivity.
Qed.
Print Assumptions C56_blanks_refuted.

(** C56 as stated does not hold: what stands behind the first 1023 characters of a comment is
    taken as a line of its own. *)
Definition long_comment : bytes := "#"%byte :: repeat " "%byte 1022 ++ $ "ENABLE_CMD_EXEC Y".
Theorem C56_comment_refuted : exists a,
  comment long_comment /\
  load_access 1 (sys_of [($ "f", file [$ "SOURCE ANY"; $ "KEY secret"; long_comment])] []) ($ "f") None = Done ([a], true) /\
  ints a i_cmd = 1.
Proof. eexists. ands; [right; left; reflexivity|vm_compute; reflexivity|vm_compute; reflexivity]. Qed.
Print Assumptions C56_comment_refuted.

(** C57.  Whatever files are included, if none of them contains the text %include_keys, the
    server only starts with stanzas that can be used: with a key, with different keys for
    encryption and HMAC, with complete command cycles and timeouts, and so on (complete).
    Missing for the full claim: files of keys (C57_keys_refuted). *)
Theorem C57_complete_partial : forall y fuel name folder l fw,
  never_written y ($ "%include_keys") -> load_access fuel y name folder = Done (l, fw) -> Forall complete l.
Proof. intros. eapply load_complete; eauto. Qed.
Print Assumptions C57_complete_partial.

Definition inc_files : list (bytes * bytes) :=
  [ ($ "a", $ "SOURCE ANY
KEY one
%include b
HMAC_KEY two
"); ($ "b", $ "SOURCE 10.0.0.1
GPG_ALLOW_NO_PW Y
GPG_REMOTE_ID ABCD
") ].
Fixpoint occurs_b (p s : bytes) : bool := is_prefix p s || match s with [] => false | _ :: r => occurs_b p r end.
Lemma occurs_b_true p s : occurs p s -> occurs_b p s = true.
Proof.
  intros (a & b & ->). induction a as [|c a IH].
  - cbn [app]. assert (X : is_prefix p (p ++ b) = true) by (induction p as [|x p IH]; cbn; [reflexivity|rewrite beq_refl; exact IH]).
    destruct (p ++ b); cbn; rewrite X; reflexivity.
  - cbn [app occurs_b]. rewrite IH. apply orb_true_r.
Qed.
Lemma never_ex fs dir p : forallb (fun f => negb (occurs_b p (snd f))) fs = true -> never_written (sys_of fs dir) p.
Proof.
  intros H name t E O. unfold sys_of, text_of in E. cbn [y_file] in E.
  destruct (find _ fs) as [[n t0]|] eqn:F; [|discriminate]. inversion E; subst t0. apply find_some in F. destruct F as [I _].
  rewrite forallb_forall in H. specialize (H _ I). cbn [snd] in H. rewrite (occurs_b_true _ _ O) in H. discriminate.
Qed.
Example C57_ex : exists a b, never_written (sys_of inc_files []) ($ "%include_keys") /\
  load_access 3 (sys_of inc_files []) ($ "a") None = Done ([a; b], true) /\
  strs a s_hmac_key = Some ($ "two") /\ ints b i_require_sig = 1.
Proof. eexists; eexists. split; [apply never_ex; vm_compute; reflexivity|]. ands; vm_compute; reflexivity. Qed.

(** C57 as stated does not hold: if the keys of a stanza are not usable the server drops the
    last stanza read, which may be another one; it then starts with a stanza without keys, and
    without the other one. *)
Definition key_files : list (bytes * bytes) :=
  [ ($ "a", $ "SOURCE ANY
%include b
%include_keys k
"); ($ "b", $ "SOURCE 10.0.0.1
KEY good
"); ($ "k", $ "HMAC_KEY two
") ].
Theorem C57_keys_refuted : exists a, load_access 3 (sys_of key_files []) ($ "a") None = Done ([a], true) /\
  strs a s_source = Some ($ "ANY") /\ ~ complete a.
Proof.
  eexists. ands; [vm_compute; reflexivity|vm_compute; reflexivity|].
  intros ([(k & K & _)|(p & P & _)] & _); [vm_compute in K; discriminate|vm_compute in P; discriminate].
Qed.
Print Assumptions C57_keys_refuted.

(** C58.  With an access file, whatever it includes, the lists of every stanza are exactly what
    its settings list, each item once.
    Missing for the full claim: ACCESS_FOLDER (C58_folder_refuted) and files of keys. *)
Theorem C58_lists_partial : forall y fuel name l fw,
  never_written y ($ "%include_keys") -> load_access fuel y name None = Done (l, fw) -> Forall lists_say l.
Proof. intros y fuel name l fw N L. pose proof (file_complete _ _ _ _ _ N L) as H. eapply Forall_impl; [|exact H]. intros a [_ ?]; auto. Qed.
Print Assumptions C58_lists_partial.

Definition dir_files : list (bytes * bytes) :=
  [ ($ "/d/a.conf", $ "SOURCE ANY
KEY one
OPEN_PORTS tcp/22
"); ($ "/d/b.conf", $ "SOURCE 10.0.0.1
KEY two
") ].
Example C58_ex : exists a, never_written (sys_of dir_files []) ($ "%include_keys") /\
  load_access 3 (sys_of dir_files []) ($ "/d/a.conf") None = Done ([a], true) /\ l_open a = [(6, 22)].
Proof. eexists. split; [apply never_ex; vm_compute; reflexivity|]. ands; vm_compute; reflexivity. Qed.

(** C58 as stated does not hold: with ACCESS_FOLDER the lists of a stanza grow with every file
    read after it; then a request for the open port is refused and a request for the open port
    and another one is permitted. *)
Theorem C58_folder_refuted : exists a b,
  load_access 3 (sys_of dir_files [$ "a.conf"; $ "b.conf"]) [] (Some ($ "/d")) = Done ([a; b], true) /\
  strs a s_open_ports = Some ($ "tcp/22") /\ l_open a = [(6, 22); (6, 22)] /\
  acc_check_port_access (l_open a) (l_restrict a) ($ "tcp/22") = false /\
  acc_check_port_access (l_open a) (l_restrict a) ($ "tcp/22,tcp/9999") = true.
Proof. eexists; eexists. ands; vm_compute; reflexivity. Qed.
Print Assumptions C58_folder_refuted.

(** C59.  If CMD_EXEC_USER is the last setting of a stanza that names an account and no group is
    set, the stanza runs commands with the identity and the group of that account.
    Missing for the full claim: later settings that name an account
    (C59_shared_refuted), and named groups (C59_group_refuted). *)
Theorem C59_identity_partial : forall y name lines es pre bs fuel l fw,
  y_file y name = Some (file lines) -> Forall line_ok lines -> entries lines es -> es = pre ++ flatten bs ->
  absent pre ([$ "SOURCE"] ++ include_params) -> Forall (fun b => absent (snd b) ([$ "SOURCE"] ++ include_params)) bs ->
  load_access fuel y name None = Done (l, fw) ->
  Forall2 (fun b a => forall v u g, latest (snd b) lookups ($ "CMD_EXEC_USER") v -> absent (snd b) [$ "CMD_EXEC_GROUP"] ->
     y_pw y v = Some (u, g) -> u <> 0 -> ints a i_uid = u /\ ints a i_gid = g) bs l.
Proof.
  intros y name lines es pre bs fuel l fw YF LO EN ES AP AB LD.
  destruct (single_file y name lines es pre bs fuel l fw YF LO EN ES AP AB LD) as [F _].
  clear - F. induction F as [|b a bs l (F1 & _) _ IH]; constructor; auto. intros v u g L A P N. eapply final_ids; eauto.
Qed.
Print Assumptions C59_identity_partial.

Definition cmd_lines (more : list bytes) : list bytes :=
  [$ "SOURCE ANY"; $ "KEY secret"; $ "ENABLE_CMD_EXEC Y"; $ "CMD_EXEC_USER alice"] ++ more.
Example C59_ex : exists a,
  let y := sys_of [($ "f", file (cmd_lines []))] [] in
  latest [($ "KEY", $ "secret"); ($ "ENABLE_CMD_EXEC", $ "Y"); ($ "CMD_EXEC_USER", $ "alice")] lookups ($ "CMD_EXEC_USER") ($ "alice") /\
  load_access 1 y ($ "f") None = Done ([a], true) /\ y_pw y ($ "alice") = Some (1000, 100) /\ ints a i_uid = 1000 /\ ints a i_gid = 100.
Proof.
  eexists. cbv zeta. ands; try (vm_compute; reflexivity).
  exists [($ "KEY", $ "secret"); ($ "ENABLE_CMD_EXEC", $ "Y")], []. ands; [reflexivity|unfold lookups; cbn [In]; tauto|intros q u []].
Qed.

(** C59 as stated does not hold: a later setting that names an account changes the group of the
    earlier one; *)
Theorem C59_shared_refuted : exists a,
  let y := sys_of [($ "f", file (cmd_lines [$ "CMD_SUDO_EXEC_USER bob"]))] [] in
  load_access 1 y ($ "f") None = Done ([a], true) /\ y_pw y ($ "alice") = Some (1000, 100) /\ y_pw y ($ "bob") = Some (1001, 200) /\
  strs a s_user = Some ($ "alice") /\ ints a i_uid = 1000 /\ ints a i_gid = 200.
Proof. eexists. cbv zeta. ands; vm_compute; reflexivity. Qed.
Print Assumptions C59_shared_refuted.

(** and the name of a group is looked up among the users: the server takes the group of the user
    of that name, or does not start if there is none. *)
Theorem C59_group_refuted : 
  (exists a, load_access 1 (sys_of [($ "f", file (cmd_lines [$ "CMD_EXEC_GROUP wheel"]))] []) ($ "f") None = Done ([a], true) /\
     ints a i_gid = 60) /\
  load_access 1 (sys_of [($ "f", file (cmd_lines [$ "CMD_EXEC_GROUP staff"]))] []) ($ "f") None = Exited.
Proof. split; [eexists; ands; vm_compute; reflexivity|vm_compute; reflexivity]. Qed.
Print Assumptions C59_group_refuted.

(** C60.  Reading the access files ends, however they include each other, if none of them
    contains the text %include_folder: files are not nested deeper than three.
    Missing for the full claim: %include_folder (C60_folder_refuted). *)
Theorem C60_ends_partial : forall y fuel name folder,
  never_written y ($ "%include_folder") -> (3 <= fuel)%nat -> load_access fuel y name folder <> Endless.
Proof. intros. apply load_ends; auto. Qed.
Print Assumptions C60_ends_partial.

Definition self_files : list (bytes * bytes) := [ ($ "a", $ "%include a
") ].
Example C60_ex : never_written (sys_of self_files []) ($ "%include_folder") /\
  load_access 3 (sys_of self_files []) ($ "a") None = Failed.
Proof. split; [apply never_ex; vm_compute; reflexivity|vm_compute; reflexivity]. Qed.

(** C60 as stated does not hold: a file that includes the folder it lies in is read again and
    again, whatever the bound on the nesting. *)
Definition loop_files : list (bytes * bytes) := [ ($ "/d/a.conf", $ "%include_folder /d
") ].
Theorem C60_folder_refuted : forall fuel,
  load_access fuel (sys_of loop_files [$ "a.conf"]) ($ "/d/a.conf") None = Endless.
Proof.
  intros fuel. unfold load_access.
  assert (H : forall fuel s, parse_access_file fuel (sys_of loop_files [$ "a.conf"]) ($ "/d/a.conf") s = Endless).
  { clear fuel. induction fuel as [|fuel IH]; intros s; [reflexivity|]. cbn [parse_access_file]. cbv zeta.
    change (y_file (sys_of loop_files [$ "a.conf"]) ($ "/d/a.conf")) with (Some ($ "%include_folder /d
")). cbv iota.
    assert (L : file_lines ($ "%include_folder /d
") = [$ "%include_folder /d
"]) by (vm_compute; reflexivity). rewrite L. cbn [access_lines].
    assert (A : forall rec lo t, access_line (sys_of loop_files [$ "a.conf"]) rec ($ "%include_folder /d
") lo t =
       let* s := parse_folder (sys_of loop_files [$ "a.conf"]) rec ($ "/d") t in Done (lo, s)).
    { intros rec lo t. unfold access_line. change (is_empty_line _) with false. cbv iota.
      assert (S : scan_line ($ "%include_folder /d
") = Some ($ "%include_folder", $ "/d")) by (vm_compute; reflexivity). rewrite S.
      change (cut_colon ($ "%include_folder")) with ($ "%include_folder"). change (chop_whitespace ($ "/d")) with ($ "/d"). reflexivity. }
    rewrite A. unfold parse_folder. change (chop_slash ($ "/d")) with ($ "/d"). cbv zeta.
    change (y_dir (sys_of loop_files [$ "a.conf"]) ($ "/d")) with (Some [$ "a.conf"]). cbv iota. cbn [folder_files].
    change (extension ($ "a.conf")) with (Some ($ ".conf")). cbv iota. change (is_prefix ($ ".conf") ($ ".conf")) with true. cbv iota.
    change (MAX_PATH_LEN - 1 <? zlen ($ "/d") + 1 + zlen ($ "a.conf")) with false. cbv iota.
    change ($ "/d" ++ $ "/" ++ $ "a.conf") with ($ "/d/a.conf"). rewrite IH. reflexivity. }
  rewrite H. reflexivity.
Qed.
Print Assumptions C60_folder_refuted.

(** C61.  A stanza expires at the moment its last expiry setting names: a date MM/DD/YYYY after
    1900, or a number of seconds.
    Missing for the full claim: other texts (C61_text_refuted). *)
Theorem C61_expiry_partial : forall y name lines es pre bs fuel l fw,
  y_file y name = Some (file lines) -> Forall line_ok lines -> entries lines es -> es = pre ++ flatten bs ->
  absent pre ([$ "SOURCE"] ++ include_params) -> Forall (fun b => absent (snd b) ([$ "SOURCE"] ++ include_params)) bs ->
  load_access fuel y name None = Done (l, fw) ->
  Forall2 (fun b a =>
    (forall v m d yr, latest (snd b) [$ "ACCESS_EXPIRE"; $ "ACCESS_EXPIRE_EPOCH"] ($ "ACCESS_EXPIRE") v -> date_text v m d yr -> 1 <= m -> 1900 < yr ->
       M_incoming.a_expire (to_stanza a) = y_mktime y (m - 1) d (yr - 1900)) /\
    (forall v, latest (snd b) [$ "ACCESS_EXPIRE"; $ "ACCESS_EXPIRE_EPOCH"] ($ "ACCESS_EXPIRE_EPOCH") v -> all_digits v ->
       decimal v < 9223372036854775808 -> v <> [] -> M_incoming.a_expire (to_stanza a) = decimal v)) bs l.
Proof.
  intros y name lines es pre bs fuel l fw YF LO EN ES AP AB LD.
  destruct (single_file y name lines es pre bs fuel l fw YF LO EN ES AP AB LD) as [F _].
  clear - F. induction F as [|b a bs l (F1 & _) _ IH]; constructor; auto. destruct (final_expire _ _ _ _ F1) as [D _]. split.
  - intros v m d yr L T M Y. cbn [to_stanza M_incoming.a_expire]. destruct (D _ _ L) as [H _]. apply H; auto.
  - intros v L A B N. cbn [to_stanza M_incoming.a_expire]. destruct (D _ _ L) as [_ H]. apply H; auto.
Qed.
Print Assumptions C61_expiry_partial.

Example C61_ex : exists a, let y := sys_of [($ "f", file [$ "SOURCE ANY"; $ "KEY secret"; $ "ACCESS_EXPIRE 03/15/2030"])] [] in
  date_text ($ "03/15/2030") 3 15 2030 /\
  load_access 1 y ($ "f") None = Done ([a], true) /\
  M_incoming.a_expire (to_stanza a) = (130 * 12 + 2) * 31 + 15.
Proof.
  eexists. cbv zeta. ands; try (vm_compute; reflexivity).
  exists ($ "03"), ($ "15"), ($ "2030"). ands; try reflexivity; repeat constructor; vm_compute; congruence.
Qed.

(** C61 as stated does not hold: a text that is no number, or a negative one, is accepted as
    ACCESS_EXPIRE_EPOCH and the stanza never expires. *)
Theorem C61_text_refuted : forall v, v = $ "tomorrow" \/ v = $ "2030-01-01" \/ v = $ "-5" ->
  exists a, let y := sys_of [($ "f", file [$ "SOURCE ANY"; $ "KEY secret"; $ "ACCESS_EXPIRE_EPOCH " ++ v])] [] in
    load_access 1 y ($ "f") None = Done ([a], true) /\
    (v <> $ "2030-01-01" -> M_incoming.a_expire (to_stanza a) <= 0 /\ forall now, fst (check_stanza_expiration now (to_stanza a)) = true) /\
    (v = $ "2030-01-01" -> M_incoming.a_expire (to_stanza a) = 2030).
Proof.
  intros v [->|[->| ->]]; eexists; cbv zeta; (split; [vm_compute; reflexivity|]); split; try congruence; intros N; try discriminate N; try congruence.
  - split; [vm_compute; congruence|intros now; reflexivity].
  - vm_compute; reflexivity.
  - split; [vm_compute; congruence|intros now; reflexivity].
Qed.
Print Assumptions C61_text_refuted.

(** C62.  FORCE_NAT with an address and a port of up to five digits directs the traffic of the
    stanza to exactly this address and port.
    Missing for the full claim: longer texts (C62_port_refuted, C62_address_refuted). *)
Theorem C62_nat_partial : forall y name lines es pre bs fuel l fw,
  y_file y name = Some (file lines) -> Forall line_ok lines -> entries lines es -> es = pre ++ flatten bs ->
  absent pre ([$ "SOURCE"] ++ include_params) -> Forall (fun b => absent (snd b) ([$ "SOURCE"] ++ include_params)) bs ->
  load_access fuel y name None = Done (l, fw) ->
  Forall2 (fun b a => forall v ip port, latest (snd b) [$ "FORCE_NAT"] ($ "FORCE_NAT") v -> nat_text v ip port ->
     ints a i_nat = 1 /\ strs a s_nat_ip = Some ip /\ ints a i_nat_port = port /\ port <= 65535) bs l.
Proof.
  intros y name lines es pre bs fuel l fw YF LO EN ES AP AB LD.
  destruct (single_file y name lines es pre bs fuel l fw YF LO EN ES AP AB LD) as [F _].
  clear - F. induction F as [|b a bs l (F1 & _) _ IH]; constructor; auto. intros v ip port L T. eapply final_nat; eauto.
Qed.
Print Assumptions C62_nat_partial.

Definition nat_file (v : bytes) : system := sys_of [($ "f", file [$ "SOURCE ANY"; $ "KEY secret"; $ "FORCE_NAT " ++ v])] [].
Example C62_ex : exists a, nat_text ($ "10.0.0.1 8080") ($ "10.0.0.1") 8080 /\
  load_access 1 (nat_file ($ "10.0.0.1 8080")) ($ "f") None = Done ([a], true) /\
  strs a s_nat_ip = Some ($ "10.0.0.1") /\ ints a i_nat_port = 8080.
Proof.
  eexists. ands; try (vm_compute; reflexivity).
  exists ($ " "), ($ "8080"). ands; try reflexivity; try (vm_compute; congruence).
  - exists 10, 0, 0, 1, ($ "10"), ($ "0"), ($ "0"), ($ "1"). split; [reflexivity|].
    assert (G : forall s v, s <> [] -> Forall digit s -> hd x00 s <> "0"%byte \/ Forall (fun c => bv c < 56) s /\ hd x00 s = "0"%byte ->
       (hd x00 s <> "0"%byte -> v = decimal s) -> (hd x00 s = "0"%byte -> v = radix 8 s) -> c_number s v).
    { intros s v N D [H|[H1 H2]] A B; split; auto; split; auto. }
    ands; try lia; apply G; try discriminate; try (repeat constructor; vm_compute; congruence); try (intros; reflexivity);
      try (intros X; vm_compute in X; congruence); try (left; vm_compute; congruence); try (right; split; [repeat constructor; vm_compute; congruence|reflexivity]);
      try (intros X; exfalso; apply X; reflexivity).
  - repeat constructor.
  - repeat constructor; vm_compute; congruence.
Qed.

(** C62 as stated does not hold: of a port of more than five digits the first five are used; *)
Theorem C62_port_refuted : exists a, load_access 1 (nat_file ($ "10.0.0.1 99999")) ($ "f") None = Exited /\
  load_access 1 (nat_file ($ "10.0.0.1 123456")) ($ "f") None = Done ([a], true) /\ ints a i_nat_port = 12345.
Proof. eexists. ands; vm_compute; reflexivity. Qed.
Print Assumptions C62_port_refuted.

(** a text of 16 characters is split: the sixteenth becomes the port. *)
Theorem C62_address_refuted : exists a,
  load_access 1 (nat_file ($ "192.168.100.1001 22")) ($ "f") None = Done ([a], true) /\
  strs a s_nat_ip = Some ($ "192.168.100.100") /\ ints a i_nat_port = 1.
Proof. eexists. ands; vm_compute; reflexivity. Qed.
Print Assumptions C62_address_refuted.
