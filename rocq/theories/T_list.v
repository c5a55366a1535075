(** Property theorems: fwknopd --fw-list, --fw-list-all and --fw-flush. *)
From Verif Require Import Bytes S_text S_access S_incoming M_util M_message M_codec M_access M_cycle M_incoming M_fw M_fwinit M_list S_fw S_fwinit S_list
  P_bytes P_util2 P_fw P_fw2 P_fw7 P_fwinit P_fwinit2 P_list T_fw T_fwinit.
From Coq Require Import Init.Byte List ZArith Bool Lia.
Import ListNotations.
Open Scope Z_scope.

(** ** C97 Listing shows the rules and changes nothing; flushing removes those of the daemon *)
(** With --fw-list or --fw-list-all exactly these commands are run, whatever they do: for each
    chain in use, in order, the one that lists it, or its table.  Then the program ends. *)
Theorem C97_commands_partial : forall W exec cf o keep cs us w, o_list o || o_list_all o = true ->
  in_use cs us -> Forall (names_fit (f_cmd cf)) us ->
  exists text, list_or_flush W exec cf o keep cs w = Ok (Some (0, text, runs exec w (map (listing_of (f_cmd cf) (o_list_all o)) us))).
Proof.
  intros W exec cf o keep cs us w L U F. unfold list_or_flush, fw_dump_rules. rewrite L, (dump_spec W exec cf _ cs us U F). eexists. reflexivity.
Qed.
Print Assumptions C97_commands_partial.
(** Hence the firewall stays as it is, whatever happens to the runs of iptables. *)
Theorem C97_unchanged_partial : forall K cf o keep cs us fw fs, o_list o || o_list_all o = true ->
  in_use cs us -> Forall (names_fit (f_cmd cf)) us ->
  exists text fs', list_or_flush machine (run_iptables K) cf o keep cs (fw, fs) = Ok (Some (0, text, (fw, fs'))).
Proof.
  intros K cf o keep cs us fw fs L U F. destruct (C97_commands_partial machine (run_iptables K) cf o keep cs us (fw, fs) L U F) as (text & ->).
  destruct (runs_same K cf (o_list_all o) us fw fs) as (fs' & ->). eauto.
Qed.
Print Assumptions C97_unchanged_partial.
(** If iptables does its work, --fw-list writes the listings of the chains in use, each after an
    empty line. *)
Theorem C97_shown_partial : forall K cf o keep cs us fw, o_list o = true -> o_list_all o = false ->
  in_use cs us -> Forall (names_fit (f_cmd cf)) us ->
  list_or_flush machine (run_iptables K) cf o keep cs (fw, []) =
    Ok (Some (0, $ "Listing rules in fwknopd iptables chains..." ++ [x0a] ++ concat (map (fun c => [x0a] ++ shows K fw c) us), (fw, []))).
Proof.
  intros K cf o keep cs us fw L A U F. unfold list_or_flush, fw_dump_rules. rewrite L, A, (dump_spec _ _ cf _ cs us U F). cbn [orb].
  rewrite written_shown. assert (R : forall l, runs (run_iptables K) (fw, []) (map (listing_of (f_cmd cf) false) l) = (fw, [])).
  { induction l as [|c l IH]; cbn [map runs]; [reflexivity|]. unfold run_iptables at 2. rewrite list_ipt. exact IH. }
  rewrite R. reflexivity.
Qed.
Print Assumptions C97_shown_partial.
(** --fw-flush, if iptables does its work and has -C: what was the daemon's is gone, and nothing
    else, also with FLUSH_IPT_AT_EXIT N; with --test nothing is done. *)
Theorem C97_flush_partial : forall K cf keep cs fw, iptables_ok K -> removes K -> fitting (f_cmd cf) cs -> removable cs fw ->
  (exists text fw', list_or_flush machine (run_iptables K) cf (mkModes false false true false) keep cs (fw, []) = Ok (Some (0, text, (fw', []))) /\ stripped cs fw fw') /\
  (exists text, list_or_flush machine (run_iptables K) cf (mkModes false false true true) keep cs (fw, []) = Ok (Some (0, text, (fw, [])))).
Proof.
  intros K cf keep cs fw KO KR F RM. destruct (C77_stop_partial K cf keep cs fw KO KR F RM) as (fw' & R & _ & S). split.
  - unfold list_or_flush. cbn [o_list o_list_all o_flush o_test orb]. rewrite R. eexists _, fw'. split; [reflexivity|exact S].
  - eexists. reflexivity.
Qed.
Print Assumptions C97_flush_partial.

(** ** Examples *)
Lemma nat_in_use : in_use nat_chains (match nat_chains with a :: _ :: r => a :: r | l => l end).
Proof. unfold nat_chains. apply in_use_keep; [discriminate|]. apply in_use_skip; [reflexivity|]. repeat (apply in_use_keep; [discriminate|]). apply in_use_nil. Qed.
Example C97_list_ex : exists fs,
  list_or_flush machine (run_iptables ipt0) conf0 (mkModes true false false false) false [chain0; no_chain] (fwi, []) =
    Ok (Some (0, $ "Listing rules in fwknopd iptables chains..." ++ [x0a; x0a] ++ listing ipt0 ($ "FWKNOP_INPUT") [r22], (fwi, []))) /\
  list_or_flush machine (run_iptables ipt0) conf0 (mkModes true true true false) false nat_chains (fwi, [DiesAfter; NoStart]) = Ok (Some (0, fs, (fwi, []))) /\
  in_use [chain0; no_chain] [chain0] /\ names_fit ($ "/sbin/iptables") chain0.
Proof.
  assert (U : in_use [chain0; no_chain] [chain0]) by (apply in_use_keep; [discriminate|]; apply in_use_skip; [reflexivity|apply in_use_nil]).
  assert (N : Forall (names_fit (f_cmd conf0)) [chain0]) by (apply Forall_cons; [exact chain0_fit|apply Forall_nil]).
  destruct (C97_commands_partial machine (run_iptables ipt0) conf0 (mkModes true true true false) false nat_chains _ (fwi, [DiesAfter; NoStart]) eq_refl nat_in_use) as (text & E).
  { pose proof chains_fit as C. repeat (apply Forall_cons; [first [apply (C 0%nat); auto | apply (C 2%nat); auto | apply (C 3%nat); auto 6 | apply (C 4%nat); auto 6 | apply (C 5%nat); auto 6]|]); apply Forall_nil. }
  exists text. split; [|split; [|split; [exact U|exact chain0_fit]]].
  - rewrite (C97_shown_partial ipt0 conf0 (mkModes true false false false) false _ _ fwi eq_refl eq_refl U N). cbn [map concat]. rewrite app_nil_r. reflexivity.
  - rewrite E. reflexivity.
Qed.

(** Claim: the exit status says whether the rules could be listed.  The failures are counted,
    but the number is not looked at: the status is 0 also if iptables cannot be started. *)
Theorem C97_status_refuted : exists text,
  list_or_flush machine (run_iptables ipt0) conf0 (mkModes true false false false) false [chain0] (fwi, [NoStart]) = Ok (Some (0, text, (fwi, []))) /\
  text = $ "Listing rules in fwknopd iptables chains..." ++ [x0a; x0a].
Proof. eexists. split; reflexivity. Qed.
Print Assumptions C97_status_refuted.
(** Claim: --fw-list-all lists each table once.  It is listed once for each chain in it. *)
Definition recorder (w : list (list bytes)) (a : list bytes) : list (list bytes) * M_fw.ended * bytes := (w ++ [a], Exited, []).
Theorem C97_tables_refuted : exists text w a b,
  list_or_flush _ recorder conf0 (mkModes true true false false) false nat_chains [] = Ok (Some (0, text, w)) /\
  a = listing_of ($ "/sbin/iptables") true (chain_at 0 nat_chains) /\ b = listing_of ($ "/sbin/iptables") true (chain_at 3 nat_chains) /\ w = [a; a; b; b; b].
Proof. do 4 eexists. ands; [vm_compute; reflexivity|reflexivity|reflexivity|vm_compute; reflexivity]. Qed.
Print Assumptions C97_tables_refuted.
(** Claim: after --fw-flush nothing of the daemon is left.  Whether iptables has -C is only found
    out when the daemon starts; with --fw-flush it is taken for granted.  An iptables without -C
    then seems to have no jump rule: it stays, and so does the chain. *)
Definition run_without_C (m : machine) (argv : list bytes) : machine * M_fw.ended * bytes :=
  if existsb (fun a => bseq a ($ "-C")) argv then (m, Exited, $ "Unknown arg `-C'" ++ [x0a]) else run_iptables ipt_ref m argv.
Theorem C97_old_flush_refuted : exists text fw',
  list_or_flush machine run_without_C conf0 (mkModes false false true false) false [chain0] (fwi, []) = Ok (Some (0, text, (fw', []))) /\
  fw' ($ "filter") ($ "INPUT") = fwi ($ "filter") ($ "INPUT") /\ fw' ($ "filter") ($ "FWKNOP_INPUT") = Some [] /\ ~ stripped [chain0] fwi fw'.
Proof.
  set (res := list_or_flush machine run_without_C conf0 (mkModes false false true false) false [chain0] (fwi, [])).
  set (P := fun (x : firewall) => x ($ "filter") ($ "INPUT") = fwi ($ "filter") ($ "INPUT") /\ x ($ "filter") ($ "FWKNOP_INPUT") = Some []).
  assert (X : match res with Ok (Some (0, _, (x, []))) => P x | _ => False end) by (vm_compute; split; reflexivity).
  destruct res as [[[[z text] [x fs]]|]|]; try contradiction. destruct z; try contradiction. destruct fs; try contradiction.
  exists text, x. destruct X as (X1 & X2). split; [reflexivity|]. split; [exact X1|]. split; [exact X2|].
  rewrite stripped_bare. intros E. specialize (E ($ "filter") ($ "FWKNOP_INPUT")). rewrite X2 in E. vm_compute in E. discriminate.
Qed.
Print Assumptions C97_old_flush_refuted.
(** With -C: the example of the daemon's own rules *)
Example C97_flush_ex : exists text fw',
  list_or_flush machine (run_iptables ipt0) conf0 (mkModes false false true false) true [chain0] (fwi, []) = Ok (Some (0, text, (fw', []))) /\
  stripped [chain0] fwi fw'.
Proof. exact (proj1 (C97_flush_partial ipt0 conf0 true [chain0] fwi ipt0_ok ipt0_removes chain0_fits fwi_removable)). Qed.
