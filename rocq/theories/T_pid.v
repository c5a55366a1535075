(** C83: one daemon at a time, and the commands that look for it *)
From Verif Require Import Bytes S_text S_fw M_pid S_pid P_pid.
From Coq Require Import Init.Byte List ZArith Bool Lia.
Import ListNotations.
Open Scope Z_scope.

(** However the steps of all the programs follow one another: no two daemons run, and the file
    names the one that does. *)
Theorem C83_one_partial w0 q l w : idle w0 -> pid q -> names (w_file w0) q -> history calm l w0 w ->
  forall p, running p w -> names (w_file w) p /\ forall p', running p' w -> p' = p.
Proof.
  intros I Q N H p R. pose proof (settled_history _ _ _ (settled_init _ _ I Q N) H) as S0.
  destruct (running_named _ _ S0 R) as (L & NA & _). split; [exact NA|]. intros p' R'. destruct (running_named _ _ S0 R') as (L' & _). congruence.
Qed.
Print Assumptions C83_one_partial.
(** fwknopd -K and fwknopd -R: if a daemon runs when they look for it, it is what they signal,
    whatever happens in between. *)
Theorem C83_signal_partial w0 q l w k n w1 l2 w2 n2 w3 d g s : idle w0 -> pid q -> names (w_file w0) q -> history calm l w0 w ->
  (g = Stop /\ s = TERM) \/ (g = Restart /\ s = HUP) -> running d w ->
  w_proc w k = Some (Ours g Begin) -> happens (Steps k n) w = Some w1 ->
  history calm l2 w1 w2 -> w_proc w2 k = w_proc w1 k -> happens (Steps k n2) w2 = Some w3 ->
  w_seen w3 = w_seen w2 ++ [Sent d s (w_proc w2 d)].
Proof.
  intros I Q N H G R K E1 H2 KK E3. pose proof (settled_history _ _ _ (settled_init _ _ I Q N) H) as S0.
  destruct (running_named _ _ S0 R) as (L & NA & RD). destruct R as [fg R].
  assert (P : pid d) by (destruct (proj1 (proj2 (proj1 S0)) _ _ R); [assumption|discriminate]). unfold pid in P.
  cbn [happens next] in E1. unfold next in E1. rewrite K, RD in E1. assert (X : d >? 0 = true) by lia. rewrite X in E1.
  assert (Y : w_proc w1 k = Some (Ours g (Signalling d))).
  { destruct G as [[-> _]|[-> _]]; injection E1 as <-; cbn; unfold put; now rewrite Z.eqb_refl. }
  rewrite Y in KK. cbn [happens] in E3. unfold next in E3. rewrite KK in E3.
  destruct G as [[-> ->]|[-> ->]]; injection E3 as <-; reflexivity.
Qed.
Print Assumptions C83_signal_partial.
(** fwknopd -S: if a daemon runs when it answers, it says so; in particular, if it says that none
    runs, none does. *)
Theorem C83_status_partial w0 q l w k a n w1 x : idle w0 -> pid q -> names (w_file w0) q -> history calm l w0 w ->
  w_proc w k = Some (Ours Status a) -> happens (Steps k n) w = Some w1 -> w_seen w1 = w_seen w ++ [Says x] ->
  forall d, running d w -> x = Some d /\ w_file w1 = w_file w /\ running d w1.
Proof.
  intros I Q N H K E SE d R. pose proof (settled_history _ _ _ (settled_init _ _ I Q N) H) as S0.
  destruct (running_named _ _ S0 R) as (L & NA & RD). destruct R as [fg R].
  assert (P : pid d) by (destruct (proj1 (proj2 (proj1 S0)) _ _ R); [assumption|discriminate]). unfold pid in P.
  assert (KD : k <> d) by congruence.
  assert (NS : forall y, w_seen w <> w_seen w ++ [y]).
  { intros y Z. apply (f_equal (@List.length seen)) in Z. rewrite app_length in Z. cbn in Z. lia. }
  cbn [happens] in E. unfold next in E. rewrite K in E.
  destruct a as [| | | | | | |r|r m]; try (injection E as <-; cbn in SE; now apply NS in SE).
  - destruct (w_proc w n); [discriminate|]. destruct (n =? k); [discriminate|]. injection E as <-. cbn in SE. now apply NS in SE.
  - destruct (w_lock w) as [h|]; [destruct (h =? k)|]; injection E as <-; cbn in SE; now apply NS in SE.
  - rewrite RD in E. assert (Y : d =? 0 = false) by lia. rewrite Y in E. injection E as <-. cbn in SE. apply app_inv_head in SE. injection SE as SE.
    assert (X : d >? 0 = true) by lia. rewrite X in SE. subst x. split; [reflexivity|]. split; [reflexivity|]. exists fg. cbn. unfold put.
    assert (Z : d =? k = false) by lia. now rewrite Z.
  - exfalso. destruct (proj1 (proj2 (proj2 (proj2 (proj1 S0)))) _ _ K) as [L' _]. rewrite L in L'. injection L' as L'. congruence.
  - discriminate.
  - exfalso. exact (proj1 (proj1 S0) _ _ _ K).
  - exfalso. exact (proj1 (proj1 S0) _ _ _ K).
Qed.
Print Assumptions C83_status_partial.
(** Whatever the file held before, a longer number for example, and also with SIGHUP in between:
    the daemon that holds the lock is the one the file names. *)
Theorem C83_file w0 l w p : idle w0 -> history proper l w0 w -> running p w -> w_lock w = Some p -> names (w_file w) p.
Proof.
  intros I H [fg R] L. pose proof (sound_history _ _ _ _ (fun w e h => h) (sound_init _ I) H) as (_ & _ & _ & _ & E).
  destruct (E _ L) as (g & a & X & Y). rewrite R in X. injection X as <- <-. destruct Y as [Y|[_ Y]]; [discriminate|exact Y].
Qed.
Print Assumptions C83_file.

(** ** Cases *)
Fixpoint play (l : list event) (w : world) : option world :=
  match l with [] => Some w | e :: r => match happens e w with Some w => play r w | None => None end end.
(** What is observed of a play: some processes, the file, and what was seen *)
Definition watch (ps : list Z) (o : option world) : option (list (option proc) * option bytes * list seen) :=
  match o with Some w => Some (map (w_proc w) ps, w_file w, w_seen w) | None => None end.
Fixpoint proper_all (l : list event) : bool :=
  match l with
  | [] => true
  | Starts p _ :: r | Steps _ p :: r => (1 <=? p) && (p <=? 4194304) && proper_all r
  | _ :: r => proper_all r
  end.
Lemma played l : proper_all l = true -> forall w w', play l w = Some w' -> history proper l w w'.
Proof.
  induction l as [|e l IH]; intros P w w' H. { injection H as <-. constructor. }
  cbn in H. destruct (happens e w) as [w1|] eqn:E; [|discriminate]. econstructor; [|exact E|]; [|apply IH; auto].
  - destruct e; cbn in *; unfold pid; auto; apply andb_prop in P; destruct P as [P _]; lia.
  - destruct e; cbn in P; auto; apply andb_prop in P; tauto.
Qed.
Lemma watched ps l w y : watch ps (play l w) = Some y -> exists w', play l w = Some w' /\ (map (w_proc w') ps, w_file w', w_seen w') = y.
Proof. destruct (play l w) as [w'|]; [|discriminate]. intros [= <-]. eauto. Qed.
(** A system without any of these processes *)
Definition system (f : option bytes) : world := mkWorld f None (fun _ => None) [].
Lemma system_idle f : idle (system f).
Proof. split; [reflexivity|discriminate]. Qed.
Definition left_over : option bytes := Some ($ "4194304").
(** Two daemons start at the same time, the second one in the background as 202; the second one
    is refused, although the file named an older process with a longer number. *)
Definition two_starts : list event :=
  [ Starts 100 (Ours (Daemon true) Begin); Starts 200 (Ours (Daemon false) Begin); Steps 200 1; Steps 100 1; Steps 100 1; Steps 200 202;
    Steps 202 1; Steps 100 1; Steps 202 1; Steps 202 1; Steps 100 1 ].
(** The steps of a play, checked to be calm *)
Fixpoint calm_all (l : list event) (w : world) : bool :=
  match l with
  | [] => true
  | e :: r =>
      proper_all [e] &&
      match e with
      | Reloads _ => false
      | Steps p _ => (1 <=? p) && (p <=? 4194304) && match w_proc w p with Some (Ours (Daemon _) Begin) => negb (read_pid (w_file w) =? p) | _ => true end
      | _ => true
      end &&
      match happens e w with Some w => calm_all r w | None => true end
  end.
Lemma calm_history l : forall w w', calm_all l w = true -> play l w = Some w' -> history calm l w w'.
Proof.
  induction l as [|e l IH]; intros w w' C H. { injection H as <-. constructor. }
  cbn [play calm_all] in H, C. destruct (happens e w) as [w1|] eqn:E; [|discriminate]. apply andb_prop in C. destruct C as [C C3]. apply andb_prop in C. destruct C as [C1 C2].
  econstructor; [|exact E|apply IH; auto]. split.
  { destruct e; cbn in C1 |- *; unfold pid; auto; lia. }
  destruct e; auto; [|discriminate]. intros fg X N. rewrite X in C2. apply andb_prop in C2. destruct C2 as [C2 C4]. apply (read_named (w_file w) p) in N; [|unfold pid; lia].
  rewrite N, Z.eqb_refl in C4. discriminate.
Qed.
Lemma left_named : names left_over 4194304.
Proof.
  exists ($ "4194304"), []. split; [reflexivity|]. split; [|left; reflexivity]. split; [discriminate|]. split; [|split; [reflexivity|discriminate]]. unfold all_digits, digit. repeat constructor; vm_compute; discriminate.
Qed.
Example C83_ex : exists w, history calm two_starts (system left_over) w /\ running 100 w /\ w_proc w 202 = None /\ w_file w = Some ($ "100" ++ [x0a] ++ $ "304") /\
  idle (system left_over) /\ names left_over 4194304.
Proof.
  assert (X : watch [100; 202] (play two_starts (system left_over)) = Some ([Some (Ours (Daemon true) Running); None], Some ($ "100" ++ [x0a] ++ $ "304"), [])) by (vm_compute; reflexivity).
  destruct (watched _ _ _ _ X) as (w & P & E). injection E as E1 E2 E3 E4. exists w.
  split; [apply calm_history; [vm_compute; reflexivity|exact P]|].
  split; [exists true; exact E1|]. split; [exact E2|]. split; [exact E3|]. split; [apply system_idle|apply left_named].
Qed.

(** fwknopd -K and -R with a daemon that runs: the hypotheses of the theorems about them are met. *)
Example C83_signal_ex : exists w w1 w3, history calm (two_starts ++ [Starts 300 (Ours Stop Begin)]) (system left_over) w /\ running 100 w /\
  w_proc w 300 = Some (Ours Stop Begin) /\ happens (Steps 300 1) w = Some w1 /\ happens (Steps 300 1) w1 = Some w3 /\
  w_seen w3 = [Sent 100 TERM (Some (Ours (Daemon true) Running))].
Proof.
  assert (X : watch [100; 300] (play (two_starts ++ [Starts 300 (Ours Stop Begin)]) (system left_over)) =
    Some ([Some (Ours (Daemon true) Running); Some (Ours Stop Begin)], Some ($ "100" ++ [x0a] ++ $ "304"), [])) by (vm_compute; reflexivity).
  destruct (watched _ _ _ _ X) as (w & P & E). injection E as E1 E2 E3 E4.
  exists w. eexists. eexists. split; [apply calm_history; [vm_compute; reflexivity|exact P]|]. split; [exists true; exact E1|]. split; [exact E2|].
  assert (RD : read_pid (w_file w) = 100) by (rewrite E3; vm_compute; reflexivity).
  split; [cbn [happens]; unfold next; rewrite E2, RD; change (100 >? 0) with true; reflexivity|].
  split; [cbn [happens]; unfold next; cbn [at_place w_proc]; rewrite put_same; reflexivity|]. cbn. rewrite E1, E4. reflexivity.
Qed.
Example C83_status_ex : exists w w1, history calm (two_starts ++ [Starts 300 (Ours Status Opening); Steps 300 1; Steps 300 1]) (system left_over) w /\ running 100 w /\
  w_proc w 300 = Some (Ours Status Looking) /\ happens (Steps 300 1) w = Some w1 /\ w_seen w1 = w_seen w ++ [Says (Some 100)].
Proof.
  assert (X : watch [100; 300] (play (two_starts ++ [Starts 300 (Ours Status Opening); Steps 300 1; Steps 300 1]) (system left_over)) =
    Some ([Some (Ours (Daemon true) Running); Some (Ours Status Looking)], Some ($ "100" ++ [x0a] ++ $ "304"), [])) by (vm_compute; reflexivity).
  destruct (watched _ _ _ _ X) as (w & P & E). injection E as E1 E2 E3 E4.
  exists w. eexists. split; [apply calm_history; [vm_compute; reflexivity|exact P]|]. split; [exists true; exact E1|]. split; [exact E2|].
  assert (RD : read_pid (w_file w) = 100) by (rewrite E3; vm_compute; reflexivity).
  split; [cbn [happens]; unfold next; rewrite E2, RD; change (100 =? 0) with false; cbn [after_write]; change (100 >? 0) with true; reflexivity|]. reflexivity.
Qed.

(** ** What is not so *)
Definition daemon_up (p : Z) : list event := Starts p (Ours (Daemon true) Begin) :: repeat (Steps p 1) 4.
(** Two daemons that are started at about the same time when there is no PID file yet both run:
    the second is refused the lock, finds the file still empty, reports that the lock may not be
    effective, and goes on.  (If the file named an older daemon it would end; see the theorem
    above.) *)
Theorem C83_race_refuted : exists l w, history calm l (system None) w /\ running 100 w /\ running 200 w.
Proof.
  set (l := [ Starts 100 (Ours (Daemon true) Begin); Starts 200 (Ours (Daemon true) Begin); Steps 100 1; Steps 200 1; Steps 100 1; Steps 200 1;
              Steps 100 1; Steps 200 1; Steps 200 1; Steps 100 1 ]).
  assert (X : watch [100; 200] (play l (system None)) = Some ([Some (Ours (Daemon true) Running); Some (Ours (Daemon true) Running)], Some ($ "100" ++ [x0a]), [])) by (vm_compute; reflexivity).
  destruct (watched _ _ _ _ X) as (w & P & E). injection E as E1 E2 E3 E4. exists l, w.
  split; [apply calm_history; [vm_compute; reflexivity|exact P]|]. split; eexists; eassumption.
Qed.
Print Assumptions C83_race_refuted.
(** After SIGHUP (also that of fwknopd -R) the daemon no longer holds its lock: it looks into the
    PID file to see whether it was running before, and closing the file releases the lock.  A
    second daemon then starts beside it, and fwknopd -K stops only that one. *)
Theorem C83_reload_refuted : exists l w, history proper l (system left_over) w /\ running 100 w /\ running 200 w /\ names (w_file w) 200 /\
  w_lock w = Some 200.
Proof.
  set (l := daemon_up 100 ++ [Reloads 100; Steps 100 1] ++ daemon_up 200).
  assert (X : watch [100; 200] (play l (system left_over)) = Some ([Some (Ours (Daemon true) Running); Some (Ours (Daemon true) Running)], Some ($ "200" ++ [x0a] ++ $ "304"), [])) by (vm_compute; reflexivity).
  destruct (watched _ _ _ _ X) as (w & P & E). injection E as E1 E2 E3 E4. exists l, w.
  assert (H : history proper l (system left_over) w) by (apply played; [reflexivity|exact P]). split; [exact H|].
  split; [eexists; eassumption|]. split; [eexists; eassumption|].
  assert (L : w_lock w = Some 200).
  { assert (Y : match play l (system left_over) with Some w => w_lock w | None => None end = Some 200) by (vm_compute; reflexivity). rewrite P in Y. exact Y. }
  split; [|exact L]. apply (C83_file _ _ _ _ (system_idle _) H); [eexists; eassumption|exact L].
Qed.
Print Assumptions C83_reload_refuted.
(** Nothing removes the PID file when a daemon ends.  If its number has since been given to another
    program, fwknopd -K sends that program SIGTERM and, when it does not end, SIGKILL. *)
Theorem C83_stale_refuted : exists l w, history calm l (system None) w /\ w_seen w = [Sent 100 TERM (Some Other); Sent 100 KILL (Some Other)] /\ w_proc w 100 = None.
Proof.
  set (l := daemon_up 100 ++ [Dies 100; Starts 100 Other; Starts 300 (Ours Stop Begin)] ++ repeat (Steps 300 1) 8).
  assert (X : watch [100] (play l (system None)) = Some ([None], Some ($ "100" ++ [x0a]), [Sent 100 TERM (Some Other); Sent 100 KILL (Some Other)])) by (vm_compute; reflexivity).
  destruct (watched _ _ _ _ X) as (w & P & E). injection E as E1 E2 E3. exists l, w.
  split; [apply calm_history; [vm_compute; reflexivity|exact P]|]. split; assumption.
Qed.
Print Assumptions C83_stale_refuted.
(** A daemon that is started under the very number an earlier one has left in the file (after a
    reboot, say, or in a container, where the numbers are few) takes itself for a daemon that
    restarts: it does not go into the background and does not take the lock; a second one runs
    beside it. *)
Theorem C83_own_number_refuted : exists l w, history proper l (system (Some ($ "7" ++ [x0a]))) w /\ w_proc w 7 = Some (Ours (Daemon false) Running) /\ running 200 w.
Proof.
  set (l := [Starts 7 (Ours (Daemon false) Begin); Steps 7 1] ++ daemon_up 200).
  assert (X : watch [7; 200] (play l (system (Some ($ "7" ++ [x0a])))) = Some ([Some (Ours (Daemon false) Running); Some (Ours (Daemon true) Running)], Some ($ "200" ++ [x0a]), [])) by (vm_compute; reflexivity).
  destruct (watched _ _ _ _ X) as (w & P & E). injection E as E1 E2 E3 E4. exists l, w.
  split; [apply played; [reflexivity|exact P]|]. split; [exact E1|eexists; exact E2].
Qed.
Print Assumptions C83_own_number_refuted.
(** fwknopd -S asks by trying to become the daemon.  After a SIGHUP it says that none runs, and
    leaves its own number in the file: fwknopd -K then signals that number, a process that no
    longer exists, and the daemon runs on. *)
Theorem C83_status_refuted : exists l w, history proper l (system left_over) w /\ running 100 w /\ w_seen w = [Says None; Sent 300 TERM None] /\ w_proc w 400 = None.
Proof.
  set (l := daemon_up 100 ++ [Reloads 100; Steps 100 1; Starts 300 (Ours Status Opening); Steps 300 1; Steps 300 1; Steps 300 1;
                              Starts 400 (Ours Stop Begin); Steps 400 1; Steps 400 1; Steps 400 1]).
  assert (X : watch [100; 400] (play l (system left_over)) = Some ([Some (Ours (Daemon true) Running); None], Some ($ "300" ++ [x0a] ++ $ "304"), [Says None; Sent 300 TERM None])) by (vm_compute; reflexivity).
  destruct (watched _ _ _ _ X) as (w & P & E). injection E as E1 E2 E3 E4. exists l, w.
  split; [apply played; [reflexivity|exact P]|]. split; [eexists; exact E1|]. split; assumption.
Qed.
Print Assumptions C83_status_refuted.
