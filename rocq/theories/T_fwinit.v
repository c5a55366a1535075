(** Property theorems: starting and stopping leaves the rest of the firewall alone. *)
From Verif Require Import Bytes S_text S_access S_incoming M_util M_message M_codec M_access M_cycle M_incoming M_fw M_fwinit S_fw S_fwinit
  P_bytes P_util2 P_fw P_fw2 P_fw7 P_fwinit P_fwinit2 P_fwinit3 T_fw.
From Coq Require Import Init.Byte List ZArith Bool Lia.
Import ListNotations.
Open Scope Z_scope.

(** ** C77 Starting and stopping fwknopd leaves the rest of the firewall as it was *)
(** Whatever becomes of each run of iptables, and in any history of making and removing the
    chains, granting requests and removing expired rules: all rules and chains that are not the
    daemon's are as before, in the same order. *)
Theorem C77_history_partial : forall K cf evs cs fw fs cs' fw' fs', iptables_ok K -> fitting (f_cmd cf) cs -> Forall (decent cf cs) evs ->
  history K cf evs (cs, (fw, fs)) = Ok (cs', (fw', fs')) -> same_rest cs fw fw'.
Proof.
  intros K cf evs cs fw fs cs' fw' fs' KO F D Q. apply same_rest_bare. exact (proj1 (history_rest K KO cf evs cs fw fs cs' fw' fs' F D Q)).
Qed.
Print Assumptions C77_history_partial.
(** Stopping, if iptables does its work: what was the daemon's is gone, and nothing else. *)
Theorem C77_stop_partial : forall K cf keep cs fw, iptables_ok K -> removes K -> fitting (f_cmd cf) cs -> removable cs fw ->
  exists fw', fw_cleanup machine (run_iptables K) cf keep true cs (fw, []) = Ok (fw', []) /\
    fw_cleanup machine (run_iptables K) cf false false cs (fw, []) = Ok (fw', []) /\ stripped cs fw fw'.
Proof.
  intros K cf keep cs fw KO KR F RM. destruct (delete_all_spec K KO KR cf cs F fw RM) as (fw' & R & P). exists fw'. unfold fw_cleanup.
  rewrite andb_false_r. cbn [andb]. split; [exact R|]. split; [exact R|]. now apply stripped_bare.
Qed.
Print Assumptions C77_stop_partial.
(** Hence after a whole run: the firewall is that before the run, less what was the daemon's. *)
Theorem C77_run_partial : forall K cf evs cs fw fs cs' fw1, iptables_ok K -> removes K -> fitting (f_cmd cf) cs -> Forall (decent cf cs) evs ->
  history K cf evs (cs, (fw, fs)) = Ok (cs', (fw1, [])) -> removable cs fw1 ->
  exists fw', fw_cleanup machine (run_iptables K) cf false false cs (fw1, []) = Ok (fw', []) /\ stripped cs fw fw' /\
    ((forall t n, own cs t n -> fw t n = None) -> (forall t n rs r, fw t n = Some rs -> In r rs -> ~ jumps cs t n r) ->
     forall t n, fw' t n = fw t n).
Proof.
  intros K cf evs cs fw fs cs' fw1 KO KR F D Q RM.
  pose proof (C77_history_partial K cf evs cs fw fs cs' fw1 [] KO F D Q) as S. rewrite same_rest_bare in S.
  destruct (C77_stop_partial K cf false cs fw1 KO KR F RM) as (fw' & _ & R & ST). exists fw'. split; [exact R|].
  rewrite stripped_bare in ST. assert (E : forall t n, fw' t n = bare cs fw t n) by (intros t n; rewrite S; apply ST).
  split; [now apply stripped_bare|]. intros N1 N2 t n. rewrite E. unfold bare. destruct (ownb cs t n) eqn:O.
  - symmetry. apply N1. now apply ownb_iff.
  - destruct (fw t n) as [rs|] eqn:FW; [|reflexivity]. f_equal. specialize (N2 t n rs). clear - N2 FW. specialize (fun r => N2 r FW). clear FW.
    induction rs as [|r rs IH]; [reflexivity|]. cbn [filter]. destruct (jumpb cs t n r) eqn:J.
    + exfalso. apply (N2 r (or_introl eq_refl)). now apply jumpb_iff.
    + cbn [negb]. f_equal. apply IH. intros x I. apply N2. now right.
Qed.
Print Assumptions C77_run_partial.
(** Starting, with the flushing of old chains, if iptables does its work: the rest is as before;
    the daemon's chains are there and hold nothing but jump rules, so that no permission of an
    earlier run is left; and the jump rule of each chain whose position is 1 is there. *)
Theorem C77_start_partial : forall K cf check cs fw, iptables_ok K -> removes K -> fitting (f_cmd cf) cs -> removable cs fw ->
  based cs fw (chain_at 0 cs) -> probes_work K cs fw (chain_at 0 cs) ->
  exists fw', fw_initialize machine (run_iptables K) cf true check cs (fw, []) = Ok (Some true, (fw', [])) /\ same_rest cs fw fw' /\
    (forall c, In c cs -> in_use c -> exists rs, fw' (c_table c) (c_to c) = Some rs /\ Forall (jumps cs (c_table c) (c_to c)) rs) /\
    (forall c, In c cs -> legal K [$ "-j"; c_to c] = true -> c_jump c = 1 -> based cs fw c ->
       exists rs, fw' (c_table c) (c_from c) = Some rs /\ In [$ "-j"; c_to c] rs).
Proof.
  intros K cf check cs fw KO KR F RM B PW. destruct (start_spec K KO KR cf check cs fw F RM B PW) as (fw' & R & G & X). exists fw'.
  split; [exact R|]. split; [now apply same_rest_bare|exact X].
Qed.
Print Assumptions C77_start_partial.

(** *** Examples *)
Definition fwi : firewall := fun t c =>
  if bseq t ($ "filter") then
    if bseq c ($ "INPUT") then Some [[$ "-j"; $ "FWKNOP_INPUT"]; plain ($ "25"); [$ "-j"; $ "DROP"]]
    else if bseq c ($ "FWKNOP_INPUT") then Some [r22] else None
  else None.
Definition start (cs : list chain) (m : machine) := fw_initialize machine (run_iptables ipt0) conf0 true true cs m.
Definition shown (o : outcome (option bool * machine)) (t c : bytes) : option bool * option (list rule) :=
  match o with Ok (b, (fw, _)) => (b, fw t c) | Fault => (None, None) end.
(** An old permission is gone after the start, and the rules of others are as before. *)
Example C77_start_ex :
  shown (start [chain0] (fwi, [])) ($ "filter") ($ "FWKNOP_INPUT") = (Some true, Some []) /\
  shown (start [chain0] (fwi, [])) ($ "filter") ($ "INPUT") = (Some true, Some [[$ "-j"; $ "FWKNOP_INPUT"]; plain ($ "25"); [$ "-j"; $ "DROP"]]).
Proof. split; vm_compute; reflexivity. Qed.
Lemma chain0_fits : fitting ($ "/sbin/iptables") [chain0].
Proof. intros c [<-|[]]. right. exact chain0_fit. Qed.
Lemma fwi_removable : removable [chain0] fwi.
Proof.
  intros c [<-|[]] U. split.
  - intros n rs r Q I (a & b & RF). unfold fwi in Q. change (bseq (c_table chain0) ($ "filter")) with true in Q. cbn iota in Q.
    destruct (bseq n ($ "INPUT")) eqn:B.
    + injection Q as <-. apply bseq_eq in B. subst n. split; [reflexivity|]. destruct I as [<-|[<-|[<-|[]]]]; [reflexivity|exfalso|exfalso].
      * assert (X : In ($ "FWKNOP_INPUT") (plain ($ "25"))) by (destruct RF as [E|E]; rewrite E; apply in_app_iff; right; right; left; reflexivity).
        vm_compute in X. intuition discriminate.
      * assert (X : In ($ "FWKNOP_INPUT") [$ "-j"; $ "DROP"]) by (destruct RF as [E|E]; rewrite E; apply in_app_iff; right; right; left; reflexivity).
        vm_compute in X. intuition discriminate.
    + destruct (bseq n ($ "FWKNOP_INPUT")); [|discriminate]. injection Q as <-. exfalso. destruct I as [<-|[]].
      assert (X : In ($ "FWKNOP_INPUT") r22) by (destruct RF as [E|E]; rewrite E; apply in_app_iff; right; right; left; reflexivity).
      vm_compute in X. intuition discriminate.
  - intros rs Q. vm_compute in Q. injection Q as <-. vm_compute. repeat constructor.
Qed.
Lemma ipt0_removes : removes ipt0.
Proof. intros fw t c Q. discriminate. Qed.
Example C77_hyps_ex : iptables_ok ipt0 /\ removes ipt0 /\ fitting (f_cmd conf0) [chain0] /\ removable [chain0] fwi /\ based [chain0] fwi (chain_at 0 [chain0]) /\
  probes_work ipt0 [chain0] fwi (chain_at 0 [chain0]).
Proof.
  split; [exact ipt0_ok|]. split; [exact ipt0_removes|]. split; [exact chain0_fits|]. split; [exact fwi_removable|].
  split. { split; [discriminate|]. split; [discriminate|]. intros (c & [<-|[]] & _ & _ & E). discriminate. }
  split; [reflexivity|]. split; [reflexivity|]. split; [apply marks_none; reflexivity|]. split.
  - intros r [(rs & E & I)|[(c & [<-|[]] & _ & _ & _ & ->)| ->]]; try (apply no_byte; vm_compute; reflexivity).
    vm_compute in E. injection E as <-. destruct I as [<-|[<-|[<-|[]]]]; apply no_byte; vm_compute; reflexivity.
  - exists ($ "-s 127.0.0.2 -m comment /* "), ($ " */ -j ACCEPT"). split; [vm_compute; reflexivity|vm_compute; discriminate].
Qed.
(** A run with two permissions and their expiry *)
Definition story : list event :=
  [Make; Request (fun _ => None) nat0 (req ($ "10.0.0.1") ($ "tcp/22") 30) 1000; Request (fun _ => None) nat0 (req ($ "10.0.0.2") ($ "udp/53") 60) 1000; Pass true 1030].
Lemma requested_one it proto port : hd x00 it <> x00 -> isspace (hd x00 it) = false -> memb ","%byte it = false -> zlen it <= 9 -> parse_proto_and_port it = Some (proto, port) -> requested it [(proto, port)].
Proof.
  intros H B NC L P. exists [it]. split.
  - exists [it]. split; [reflexivity|]. split; [discriminate|]. split; [apply Forall_cons; [apply no_byte; exact NC|apply Forall_nil]|].
    apply Forall2_cons; [|apply Forall2_nil]. exists []. split; [reflexivity|]. split; [constructor|]. intro X. rewrite <- isspace_blank in X. congruence.
  - apply Forall2_cons; [|apply Forall2_nil]. split; [now apply entry_short|]. cbn. lia.
Qed.
Example C77_story_decent : Forall (decent conf0 [chain0]) story.
Proof.
  assert (NW : ~ wants_nat nat0 1) by (intros [[H|H]|[H|[H|H]]]; discriminate).
  apply Forall_cons; [exact I|]. apply Forall_cons; [|apply Forall_cons; [|apply Forall_cons; [exact I|apply Forall_nil]]].
  - repeat (split; [first [discriminate | apply word_lit; [reflexivity|discriminate] | vm_compute; discriminate | split; [vm_compute; discriminate|vm_compute; reflexivity] | intros X; discriminate]|]).
    exists 6, 22, []. split; [|intros X; contradiction]. apply requested_one; first [discriminate|reflexivity].
  - repeat (split; [first [discriminate | apply word_lit; [reflexivity|discriminate] | vm_compute; discriminate | split; [vm_compute; discriminate|vm_compute; reflexivity] | intros X; discriminate]|]).
    exists 17, 53, []. split; [|intros X; contradiction]. apply requested_one; first [discriminate|reflexivity].
Qed.
Example C77_story_ex : match history ipt0 conf0 story ([chain0], (fwi, [Runs; DiesAfter; NoStart])) with
  | Ok (_, (fw, [])) => fw ($ "filter") ($ "INPUT") = Some [[$ "-j"; $ "FWKNOP_INPUT"]; plain ($ "25"); [$ "-j"; $ "DROP"]] /\
      (exists rs, fw ($ "filter") ($ "FWKNOP_INPUT") = Some rs /\ zlen rs = 1) /\
      match fw_cleanup machine (run_iptables ipt0) conf0 false false [chain0] (fw, []) with
      | Ok (fw', _) => fw' ($ "filter") ($ "INPUT") = Some [plain ($ "25"); [$ "-j"; $ "DROP"]] /\ fw' ($ "filter") ($ "FWKNOP_INPUT") = None
      | Fault => False
      end
  | _ => False
  end.
Proof. vm_compute. split; [reflexivity|]. split; [|split; reflexivity]. eexists. split; reflexivity. Qed.

(** *** Refutations *)
Definition end_of {A} (a : A * machine) : firewall := fst (snd a).
Definition of_ok {A} (d : A) (o : outcome A) : A := match o with Ok a => a | Fault => d end.
Lemma ended (o : outcome (option bool * machine)) (b : option bool) :
  match o with Ok (b', (_, [])) => if b' then if b then true else false else match b with None => true | _ => false end | _ => false end = true ->
  match o, b with Ok (Some x, _), Some y => x = y | _, _ => True end ->
  exists fw, o = Ok (b, (fw, [])) /\ fw = end_of (of_ok (None, (fw0, [])) o).
Proof.
  destruct o as [[b' [fw [|f fs]]]|]; try discriminate. intros E X. destruct b', b; try discriminate; exists fw; split; try reflexivity. now subst.
Qed.
(** Inserting the probe rule fails, for instance because another program holds the lock of
    iptables; the daemon deletes the first rule of the chain all the same, which is a rule of
    the administrator. *)
Theorem C77_probe_refuted : exists fs fw' m,
  start [chain0] (fw0, fs) = Ok (m, (fw', [])) /\ fw0 ($ "filter") ($ "INPUT") = Some [[$ "-j"; $ "ACCEPT"]] /\
  fw' ($ "filter") ($ "INPUT") = Some [] /\ ~ same_rest [chain0] fw0 fw'.
Proof.
  destruct (ended (start [chain0] (fw0, [Refuses])) None) as (fw & R & E); [vm_compute; reflexivity|vm_compute; exact I|].
  exists [Refuses], fw, None. subst fw. split; [exact R|]. split; [reflexivity|]. split; [vm_compute; reflexivity|].
  rewrite same_rest_bare. intros E. specialize (E ($ "filter") ($ "INPUT")). vm_compute in E. discriminate.
Qed.
Print Assumptions C77_probe_refuted.
(** The second probe rule is deleted only if it is seen in the listing; if the listing fails it
    stays, and accepts everything from 127.0.0.2. *)
Theorem C77_comment_refuted : exists fs fw' rs,
  start [chain0] (fwi, fs) = Ok (Some false, (fw', [])) /\ fw' ($ "filter") ($ "INPUT") = Some (probe_comment chain0 :: rs) /\ ~ same_rest [chain0] fwi fw'.
Proof.
  destruct (ended (start [chain0] (fwi, repeat Runs 13 ++ [NoStart])) (Some false)) as (fw & R & E); [vm_compute; reflexivity|vm_compute; reflexivity|].
  exists (repeat Runs 13 ++ [NoStart]), fw, [[$ "-j"; $ "FWKNOP_INPUT"]; plain ($ "25"); [$ "-j"; $ "DROP"]]. subst fw. split; [exact R|]. split; [vm_compute; reflexivity|].
  rewrite same_rest_bare. intros E. specialize (E ($ "filter") ($ "INPUT")). vm_compute in E. discriminate.
Qed.
Print Assumptions C77_comment_refuted.
(** At most ten jump rules are removed: with more of them the chain and the jump rules stay. *)
Definition ipt_ref : iptables :=
  mkIpt (legal ipt0) (show ipt0) (heading ipt0) (number ipt0) (trouble ipt0)
    (fun fw t c => match fw t ($ "INPUT") with Some rs => existsb (same_rule [$ "-j"; c]) rs | None => false end).
Lemma ipt_ref_removes : removes ipt_ref.
Proof.
  intros fw t c Q. cbn [referenced ipt_ref] in Q. destruct (fw t ($ "INPUT")) as [rs|] eqn:E; [|discriminate].
  apply existsb_exists in Q as (r & I & S). apply same_rule_eq in S. subst r. exists ($ "INPUT"), rs, [$ "-j"; c]. split; [exact E|]. split; [exact I|]. exists [], []. left. reflexivity.
Qed.
Definition fw_many : firewall := fun t c =>
  if bseq t ($ "filter") then
    if bseq c ($ "INPUT") then Some (repeat [$ "-j"; $ "FWKNOP_INPUT"] 11) else if bseq c ($ "FWKNOP_INPUT") then Some [r22] else None
  else None.
Theorem C77_many_refuted : iptables_ok ipt_ref /\ removes ipt_ref /\ exists fw', fw_cleanup machine (run_iptables ipt_ref) conf0 false false [chain0] (fw_many, []) = Ok (fw', []) /\
  fw' ($ "filter") ($ "INPUT") = Some [[$ "-j"; $ "FWKNOP_INPUT"]] /\ fw' ($ "filter") ($ "FWKNOP_INPUT") = Some [] /\ ~ stripped [chain0] fw_many fw'.
Proof.
  split; [exact ipt0_ok|]. split; [exact ipt_ref_removes|].
  assert (X : exists fw, fw_cleanup machine (run_iptables ipt_ref) conf0 false false [chain0] (fw_many, []) = Ok (fw, []) /\
    fw = fst (of_ok (fw0, []) (fw_cleanup machine (run_iptables ipt_ref) conf0 false false [chain0] (fw_many, [])))).
  { assert (Y : match fw_cleanup machine (run_iptables ipt_ref) conf0 false false [chain0] (fw_many, []) with Ok (_, []) => true | _ => false end = true) by (vm_compute; reflexivity).
    destruct (fw_cleanup _ _ _ _ _ _ _) as [[fw [|f fs]]|]; try discriminate. exists fw. split; reflexivity. }
  destruct X as (fw & R & E). exists fw. subst fw. split; [exact R|]. split; [vm_compute; reflexivity|]. split; [vm_compute; reflexivity|].
  rewrite stripped_bare. intros E. specialize (E ($ "filter") ($ "FWKNOP_INPUT")). vm_compute in E. discriminate.
Qed.
Print Assumptions C77_many_refuted.
(** The start is reported as successful although no jump rule was made, the position given for
    it being beyond the end of the chain: no permission will ever have an effect. *)
Definition chain3 : chain := mkChain ($ "ACCEPT") ($ "filter") ($ "INPUT") 3 ($ "FWKNOP_INPUT") 0 0.
Theorem C77_position_refuted : exists fw', start [chain3] (fw0, []) = Ok (Some true, (fw', [])) /\
  fw' ($ "filter") ($ "INPUT") = Some [[$ "-j"; $ "ACCEPT"]] /\ fw' ($ "filter") ($ "FWKNOP_INPUT") = Some [].
Proof.
  destruct (ended (start [chain3] (fw0, [])) (Some true)) as (fw & R & E); [vm_compute; reflexivity|vm_compute; reflexivity|].
  exists fw. subst fw. split; [exact R|]. split; vm_compute; reflexivity.
Qed.
Print Assumptions C77_position_refuted.
