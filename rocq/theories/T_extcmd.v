(** Property theorems: the programs the daemon runs. *)
From Verif Require Import Bytes M_base64 S_base64 S_text S_codec S_cipher S_ctx S_access S_replay S_cycle M_util M_message M_codec M_cipher M_ctx M_access
  M_replay M_cycle M_incoming S_incoming M_packet M_fw M_extcmd S_extcmd P_bytes P_util P_incoming P_extcmd T_text T_codec T_ctx T_incoming.
From Coq Require Import Init.Byte List ZArith Bool Lia Relations.
Import ListNotations.
Open Scope Z_scope.

(** ** C86 The programs the daemon runs *)
(** A program that is to run as a user and a group, both not 0, runs with these as its real,
    effective and saved identities, whatever fails on the way (then nothing runs), and can never get
    others by system calls.  Missing for the full claim: the supplementary groups, see below. *)
Theorem C86_identity_partial : forall y c u g argv d av, euid c = 0 -> 0 < u -> 0 < g -> extcmd_child y c u g argv = Runs d av ->
  av = argv /\ is_user u g d /\ forall e, ever_becomes d e -> is_user u g e.
Proof.
  intros y c u g argv d av Z0 U G R. apply child_runs in R as (A & _ & GR & A1 & _ & A3 & _). destruct (A1 G) as (B1 & B2). destruct (B2 Z0) as (B3 & B4). destruct (A3 U) as (B5 & B6). destruct (B6 Z0) as (B7 & B8).
  assert (I : is_user u g d) by (unfold is_user; auto 10). split; [exact A|]. split; [exact I|]. intros e E. apply (user_stays u g d e); auto. lia.
Qed.
Print Assumptions C86_identity_partial.

(** Also when the daemon is not the superuser, a program runs only with the effective user and
    group that were asked for; 0 asks for no change. *)
Theorem C86_effective : forall y c u g argv d av, extcmd_child y c u g argv = Runs d av -> 0 <= u -> 0 <= g ->
  av = argv /\ euid d = (if u =? 0 then euid c else u) /\ egid d = (if g =? 0 then egid c else g).
Proof.
  intros y c u g argv d av R U G. apply child_runs in R as (A & _ & GR & A1 & A2 & A3 & A4). split; [exact A|].
  destruct (Z.eqb_spec u 0) as [->|N1], (Z.eqb_spec g 0) as [->|N2].
  - destruct (A2 G) as (_ & E1 & _). destruct (A4 U) as (_ & E2 & _). auto.
  - destruct (A1 ltac:(lia)) as (E1 & _). destruct (A4 U) as (_ & E2 & _). auto.
  - destruct (A2 G) as (_ & E1 & _). destruct (A3 ltac:(lia)) as (E2 & _). auto.
  - destruct (A1 ltac:(lia)) as (E1 & _). destruct (A3 ltac:(lia)) as (E2 & _). auto.
Qed.
Print Assumptions C86_effective.

(** The daemon as root with the groups of root *)
Definition root : creds := mkCreds 0 0 0 0 0 0 [0; 6; 27].
Definition works : box := mkBox (fun _ => true) true true (fun _ _ => true).
Example C86_identity_ex : extcmd_child works root 1000 100 [$ "/bin/id"] = Runs (mkCreds 1000 1000 1000 100 100 100 [0; 6; 27]) [$ "/bin/id"] /\
  extcmd_child (mkBox (fun _ => true) true false (fun _ _ => true)) root 1000 100 [$ "/bin/id"] = Gone (-4) /\
  extcmd_child works (mkCreds 500 500 500 500 500 500 []) 1000 100 [$ "/bin/id"] = Gone (-5) /\
  extcmd_child (mkBox (fun _ => true) true true (fun c _ => euid c =? 0)) root 1000 100 [$ "/bin/id"] = Gone (-1).
Proof. ands; reflexivity. Qed.
(** The supplementary groups are never changed: a command of any user runs with those of the
    daemon, and keeps them. *)
Theorem C86_groups_refuted : forall y c u g argv d av, 0 < u -> extcmd_child y c u g argv = Runs d av -> euid c = 0 ->
  groups d = groups c /\ forall e, ever_becomes d e -> 0 < g -> groups e = groups c.
Proof.
  intros y c u g argv d av U R Z0. pose proof (child_runs _ _ _ _ _ _ _ R) as (_ & _ & GR & _). split; [exact GR|]. intros e E G.
  destruct (C86_identity_partial _ _ _ _ _ _ _ Z0 U G R) as (_ & I & _). destruct (user_stays u g d e ltac:(lia) I E) as (_ & Q). congruence.
Qed.
Print Assumptions C86_groups_refuted.

(** *** Commands of packets *)
(** The program started for a command message of a stanza with CMD_EXEC_USER runs as this user and
    its group; without one it runs as the daemon.
    Missing for the full claim: supplementary groups, names that start with root (C29), and user or
    group 0. *)
Theorem C86_spa_partial : forall H G cf en p st effs st' k cmd who y c d argv, hashes_ok H -> packet_ok p -> config_ok (st_acc st) ->
  incoming_spa H G cf en p st = Ok (effs, st') -> In (Command k cmd who) effs -> euid c = 0 ->
  effect_child y c (Command k cmd who) = Ok (Some (Runs d argv)) ->
  exists i a, k = 1 + Z.of_nat i /\ nth_error (st_acc st) i = Some a /\ a_cmd a = true /\ strtoargv cmd = Ok (Some argv) /\
    (forall u, a_cmd_user a = Some u -> ~ rootish u -> 0 < a_uid a -> 0 < a_gid a -> is_user (a_uid a) (a_gid a) d /\ forall e, ever_becomes d e -> is_user (a_uid a) (a_gid a) e) /\
    ((forall u, a_cmd_user a = Some u -> rootish u) -> d = c).
Proof.
  intros H G cf en p st effs st' k cmd who y c d argv HO PO CO E IN Z0 C.
  destruct (C29_command_partial _ _ _ _ _ _ _ _ _ _ _ HO PO CO E IN) as (data & i & a & m & src & command & _ & K & NE & _ & AC & _ & _ & _ & _ & _ & RA).
  exists i, a. split; [exact K|]. split; [exact NE|]. split; [exact AC|]. cbn [effect_child] in C. destruct (strtoargv cmd) as [[av|]|] eqn:SA; cbn [bind] in C; try discriminate C.
  injection C as C. destruct RA as [(u & CU & NR & ->)|(AR & ->)].
  - pose proof (child_runs _ _ _ _ _ _ _ C) as (-> & _). split; [reflexivity|]. split.
    + intros u' _ _ U G0. destruct (C86_identity_partial _ _ _ _ _ _ _ Z0 U G0 C) as (_ & I). exact I.
    + intro A. exfalso. exact (NR (A u CU)).
  - assert (Q : d = c /\ argv = av).
    { unfold extcmd_child in C. destruct (negb (x_chdir y c)); [discriminate C|]. cbn [Z.ltb Z.compare] in C. destruct (x_exec y c av); [|discriminate C]. injection C as <- <-. auto. }
    destruct Q as (-> & ->). split; [reflexivity|]. split; [|auto]. intros u CU NR. exfalso. exact (NR (AR u CU)).
Qed.
Print Assumptions C86_spa_partial.
Definition child_of (l : list stanza) (data : bytes) : option (outcome (option child)) :=
  match effects (T_incoming.run l cf0 data) with Some [e] => Some (effect_child works root e) | _ => None end.
Example C86_spa_ex : child_of [sample (Some ($ "hmac key")) false (Some ($ "bob")) None None [] 0 30 300] d_cmd = Some (Ok (Some (Runs (mkCreds 1000 1000 1000 1000 1000 1000 [0; 6; 27]) [$ "/bin/id"]))).
Proof. vm_compute. reflexivity. Qed.
(** CMD_EXEC_GROUP without CMD_EXEC_USER has no effect: the command runs as root and in the groups of
    root. *)
Theorem C86_group_alone_refuted : exists a, a_cmd_group a = Some ($ "staff") /\ a_cmd_user a = None /\ a_gid a = 1000 /\
  child_of [a] d_cmd = Some (Ok (Some (Runs root [$ "/bin/id"]))).
Proof. exists (sample (Some ($ "hmac key")) false None (Some ($ "staff")) None [] 0 30 300). ands; vm_compute; reflexivity. Qed.
Print Assumptions C86_group_alone_refuted.

(** *** The child processes *)
(** The process forked for a command never goes on in the code of the daemon. *)
Theorem C86_one_daemon : forall y c u g argv d, extcmd_child y c u g argv <> GoesOn d.
Proof.
  intros y c u g argv d. unfold extcmd_child. destruct (negb _); [discriminate|]. destruct (if 0 <? g then _ else _) as [c1|]; [|discriminate].
  destruct (if 0 <? u then _ else _) as [c2|]; [|discriminate]. destruct (x_exec y c2 argv); discriminate.
Qed.
Print Assumptions C86_one_daemon.
(** The function that feeds a program from a pipe (used for pf) forgets the exit: if the program cannot
    be started, its child process goes on as a second daemon. *)
Theorem C86_write_refuted : forall y c argv, x_chdir y c = true -> x_exec y c argv = false -> write_child y c argv = GoesOn c.
Proof. intros y c argv A B. unfold write_child. rewrite A, B. reflexivity. Qed.
Print Assumptions C86_write_refuted.

(** *** The status *)
(** The status of a command is the one it ended with, if the signal handler has not collected it
    before; and the daemon waits until there is one.
    Missing for the full claim: when the handler has collected it, see below. *)
Theorem C86_status_partial : forall pid st before after l t, NoDup (map fst t) -> In (pid, None) t ->
  (ends_with pid st before after l -> ~ In (Handler pid) after -> wait_status pid t l = Some st) /\
  ((forall s, ~ In (End pid s) l) -> wait_status pid t l = None) /\
  (ends_with pid st before after l -> wait_status pid t l = Some st \/ wait_status pid t l = Some 0).
Proof.
  intros pid st before after l t ND I. split; [|split].
  - intros E N. destruct (status_is _ _ _ _ _ _ ND I E) as [(A & _)|(_ & A)]; [contradiction|exact A].
  - intro N. apply still_waits; assumption.
  - intros E. destruct (status_is _ _ _ _ _ _ ND I E) as [(_ & A)|(_ & A)]; auto.
Qed.
Print Assumptions C86_status_partial.
(** The log and the result of a command message: its exit code, and an error unless it is 0. *)
Theorem C86_report : forall code sig, 0 <= code < 256 -> 0 < sig < 127 ->
  reported (exited code) = (code, negb (code =? 0)) /\ reported (killed sig) = (sig, true) /\
  run_result (exited code) = 0 /\ run_result (killed sig) = 16.
Proof.
  intros code sig C S0. unfold reported, run_result, exited, killed. rewrite (Z.mod_small code 256) by lia.
  assert (A : WIFEXITED (code * 256) = true) by (unfold WIFEXITED; apply Z.eqb_eq; replace (code * 256) with (code * 2 * 128) by ring; apply Z_mod_mult).
  assert (B : WEXITSTATUS (code * 256) = code) by (unfold WEXITSTATUS; rewrite Z_div_mult by lia; apply Z.mod_small; lia).
  assert (D : WIFEXITED sig = false) by (unfold WIFEXITED; apply Z.eqb_neq; rewrite Z.mod_small by lia; lia).
  rewrite A, B, D. auto.
Qed.
Print Assumptions C86_report.
(** If the SIGCHLD handler runs between the end of the command and the wait for it, the status is lost,
    and every command - one that failed or was killed, too - counts as successful. *)
Theorem C86_status_refuted : forall pid st before after l t, NoDup (map fst t) -> In (pid, None) t -> ends_with pid st before after l -> In (Handler pid) after ->
  wait_status pid t l = Some 0 /\ reported 0 = (0, false) /\ run_result 0 = EXTCMD_SUCCESS_ALL_OUTPUT.
Proof.
  intros pid st before after l t ND I E H. split; [|split; reflexivity]. destruct (status_is _ _ _ _ _ _ ND I E) as [(_ & A)|(A & _)]; [exact A|contradiction].
Qed.
Print Assumptions C86_status_refuted.
Example C86_status_ex : let t := [(70, None); (71, None)] in
  wait_status 71 t [End 70 0; Handler 70; End 71 (exited 3)] = Some (exited 3) /\ reported (exited 3) = (3, true) /\
  wait_status 71 t [End 71 (exited 3); Handler 71] = Some 0 /\ wait_status 71 t [End 71 (killed 9); Handler 71] = Some 0 /\ reported (killed 9) = (9, true).
Proof. cbv zeta. ands; vm_compute; reflexivity. Qed.

(** *** The search for a text in the output *)
(** A text is found only if the program wrote it. *)
Theorem C86_search_sound : forall sub size out, 0 < fst (search_output sub size out) -> exists a b, out = a ++ sub ++ b.
Proof.
  intros sub size out. unfold search_output. destruct (search_lines sub size out [] 0 []) as [[k|] buf] eqn:E; cbn [fst]; [|lia]. intros _.
  apply search_sound in E as (E & _). exact E.
Qed.
Print Assumptions C86_search_sound.
(** The number of the first line with the text is returned, and that line; 0 if there is none.
    Missing for the full claim: lines of 255 bytes and more, lines that start like a comment, and zero
    bytes. *)
Theorem C86_search_partial : forall sub size out ls, sub <> [] -> ~ In x0a sub -> text_lines out ls -> Forall plain_line ls ->
  (forall before l after, ls = before ++ l :: after -> (forall x, In x before -> ~ holds sub x) -> holds sub l -> zlen l + 1 < size ->
     search_output sub size out = (zlen before + 1, l ++ [x0a])) /\
  ((forall l, In l ls -> ~ holds sub l) -> fst (search_output sub size out) = 0).
Proof.
  intros sub size out ls NE NL TL PL. split.
  - intros before l after -> NO HO SZ. apply (search_first sub size out before l after); auto. apply Forall_app in PL as (P1 & P2). apply Forall_app. split; [exact P1|].
    constructor; [inversion P2; assumption|constructor].
  - apply search_absent; assumption.
Qed.
Print Assumptions C86_search_partial.
Definition listing : bytes := $ "Chain INPUT (policy ACCEPT)" ++ [x0a] ++ $ "1    FWKNOP_INPUT  all  --  0.0.0.0/0" ++ [x0a] ++ $ "2    FWKNOP_INPUT  udp" ++ [x0a].
Example C86_search_ex : search_output ($ " FWKNOP_INPUT ") 256 listing = (2, $ "1    FWKNOP_INPUT  all  --  0.0.0.0/0" ++ [x0a]) /\
  fst (search_output ($ " FWKNOP_OUTPUT ") 256 listing) = 0.
Proof. ands; vm_compute; reflexivity. Qed.
(** A text across the 255th byte of a line is not found, nor one in a line that starts with a hash
    mark or a semicolon. *)
Theorem C86_search_refuted : let x := "x"%byte in
  fst (search_output ($ "FWKNOP") 256 (repeat x 252 ++ $ "FWKNOP" ++ [x0a])) = 0 /\ fst (search_output ($ "FWKNOP") 256 (repeat x 240 ++ $ "FWKNOP" ++ [x0a])) = 1 /\
  fst (search_output ($ "FWKNOP") 256 ($ "#FWKNOP" ++ [x0a])) = 0 /\ fst (search_output ($ "FWKNOP") 256 ($ ";FWKNOP" ++ [x0a])) = 0.
Proof. cbv zeta. ands; vm_compute; reflexivity. Qed.
Print Assumptions C86_search_refuted.
