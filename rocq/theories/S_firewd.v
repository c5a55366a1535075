(** What firewall-cmd does with iptables commands passed through it, and the vocabulary of the
    properties of the firewalld back end.  Firewalls, rules and what a request asks for are
    those of S_fw and S_fwinit. *)
From Verif Require Import Bytes S_text S_access S_incoming M_util M_packet M_incoming M_cycle M_access M_fw M_fwinit M_firewd S_fw S_fwinit.
From Coq Require Import Init.Byte List ZArith Bool.
Import ListNotations.
Open Scope Z_scope.

(** What depends on the firewalld version: its error message for a command that iptables
    refuses, and what it writes behind the output of iptables, if there is any. *)
Record firewalld := mkFd { fd_error : list bytes -> bytes; fd_tail : bytes }.

Definition failing_with (K : iptables) (m : bytes) : iptables :=
  mkIpt (legal K) (show K) (heading K) (number K) m (referenced K).

(** firewall-cmd --direct --passthrough ipv4 ARGUMENTS: it has iptables do the work, and says
    success if iptables has nothing to say.  The result is the firewall and the output. *)
Definition passes (a b c : bytes) : bool := bseq a ($ "--direct") && bseq b ($ "--passthrough") && bseq c ($ "ipv4").
Definition firewall_cmd (K : iptables) (F : firewalld) (fw : firewall) (argv : list bytes) : firewall * bytes :=
  match argv with
  | exe :: a :: b :: c :: args =>
      if passes a b c then
        let '(fw', out) := ipt (failing_with K (fd_error F args)) fw (exe :: args) in
        (fw', match out with [] => $ "success" ++ [x0a] | _ => out ++ fd_tail F end)
      else (fw, fd_error F argv)
  | _ => (fw, fd_error F argv)
  end.
(** Its exit status tells whether iptables did its work: it had nothing to say, or listed a
    chain that exists. *)
Definition firewall_cmd_status (K : iptables) (F : firewalld) (fw : firewall) (argv : list bytes) : Z :=
  match argv with
  | exe :: a :: b :: c :: args =>
      if passes a b c then
        match snd (ipt (failing_with K (fd_error F args)) fw (exe :: args)), args with
        | [], _ => 0
        | _, _ :: t :: op :: n :: _ => if bseq op ($ "-L") then match fw t n with Some _ => 0 | None => 13 end else 13
        | _, _ => 13
        end
      else 2
  | _ => 2
  end.

(** What may happen when it is run is what may happen to any program. *)
Definition run_firewall_cmd (K : iptables) (F : firewalld) (m : machine) (argv : list bytes) : machine * ended * bytes :=
  let '(fw, fs) := m in
  let '(fw', out) := firewall_cmd K F fw argv in
  match hd Runs fs with
  | Runs => ((fw', tl fs), Exited, out)
  | Refuses => ((fw, tl fs), Exited, fd_error F argv)
  | DiesBefore => ((fw, tl fs), Killed, [])
  | DiesAfter => ((fw', tl fs), Killed, out)
  | NoStart => ((fw, tl fs), NotStarted, [])
  end.
Definition exit_status (K : iptables) (F : firewalld) (m : machine) (argv : list bytes) : Z :=
  match hd Runs (snd m) with
  | Runs => firewall_cmd_status K F (fst m) argv
  | _ => 13
  end.

(** What is assumed of firewall-cmd: its error message is a line that names the failure at its
    start; what it adds to a listing does not look like one of the daemon's marks. *)
Definition firewalld_ok (F : firewalld) : Prop :=
  (forall a, exists m, fd_error F a = $ "Error: COMMAND_FAILED" ++ m ++ [x0a] /\ ~ In x0a m /\ ~ In x00 m) /\
  ~ In x00 (fd_tail F) /\ unmarked (fd_tail F).

(** The names leave room for the options passed to firewall-cmd. *)
Definition names_short (exe : bytes) (c : chain) : Prop :=
  zlen exe + zlen (c_table c) + zlen (c_from c) + zlen (c_to c) + zlen (c_target c) <= 71.
Definition names_pass (exe : bytes) (c : chain) : Prop := names_fit exe c /\ names_short exe c.
Definition exe_short (exe : bytes) : Prop := word exe /\ zlen exe <= 71.
Definition all_pass (exe : bytes) (cs : list chain) : Prop := exe_short exe /\ fitting exe cs /\ forall c, In c cs -> in_use c -> names_short exe c.

(** What the daemon does between start and end, with firewalld *)
Definition fd_happen (K : iptables) (F : firewalld) (cf : fwconf) (ev : event) (s : state machine) : outcome (state machine) :=
  let '(cs, w) := s in
  match ev with
  | Make => bind (fd_create_fw_chains machine (run_firewall_cmd K F) (through cf) cs w) (fun x => Ok (cs, snd x))
  | Drop => bind (fd_delete_all_chains machine (run_firewall_cmd K F) (through cf) cs w) (fun w => Ok (cs, w))
  | Request resolve nc d now => fd_process_spa_request machine (run_firewall_cmd K F) (through cf) resolve nc d now s
  | Pass all now => fd_check_firewall_rules machine (run_firewall_cmd K F) (through cf) all now s
  end.
Fixpoint fd_history (K : iptables) (F : firewalld) (cf : fwconf) (evs : list event) (s : state machine) : outcome (state machine) :=
  match evs with
  | [] => Ok s
  | ev :: r => bind (fd_happen K F cf ev s) (fd_history K F cf r)
  end.
