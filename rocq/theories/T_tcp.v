(** Property theorems: the TCP server of the daemon. *)
From Verif Require Import Bytes M_extcmd M_tcp S_tcp P_tcp.
From Coq Require Import List ZArith Bool Lia.
Import ListNotations.
Open Scope Z_scope.

(** ** C87 The TCP server *)
(** *** The server by itself *)
Lemma serve_good l : forall n, Forall good_round l -> serve l n = (None, n + Z.of_nat (length (filter connection l))).
Proof.
  induction l as [|r l IH]; intros n F; cbn [serve filter length]; [f_equal; lia|]. inversion F as [|? ? G F']. subst.
  destruct r as [|[|]| |[|]]; cbn [good_round] in G; try contradiction; cbn [connection filter length]; rewrite IH by exact F'; f_equal; lia.
Qed.
Lemma serve_bad l r rest : Forall good_round l -> ~ good_round r -> forall n, fst (serve (l ++ r :: rest) n) = Some (-1).
Proof.
  intros F B. induction l as [|x l IH]; intro n; cbn [app serve].
  - destruct r as [|[|]| |[|]]; cbn [good_round] in B; try (exfalso; apply B; exact I); reflexivity.
  - inversion F as [|? ? G F']. subst. destruct x as [|[|]| |[|]]; cbn [good_round] in G; try contradiction; apply IH; exact F'.
Qed.
(** It serves one connection after the other as long as no call fails and the daemon exists, and
    ends at the first round in which this is not so; in main its process then never goes on to
    capture packets. *)
Theorem C87_serves : forall s l,
  let ok := u_socket s && u_reuse s && u_getfl s && u_setfl s && u_bind s && u_listen s in
  (ok = true -> Forall good_round l -> tcp_child s l = (None, Z.of_nat (length (filter connection l)))) /\
  (ok = true -> forall before r after, l = before ++ r :: after -> Forall good_round before -> ~ good_round r -> fst (tcp_child s l) = Some (-1)) /\
  (ok = false -> fst (tcp_child s l) = Some (-1)) /\
  (forall rv, fst (tcp_child s l) = Some rv -> returned FromMain rv = CleansUp).
Proof.
  intros s l ok. unfold tcp_child. fold ok. split; [|split; [|split]].
  - intros -> F. apply serve_good. exact F.
  - intros -> before r after -> F B. apply serve_bad; assumption.
  - intros ->. reflexivity.
  - assert (X : forall n rv, fst (serve l n) = Some rv -> rv = -1).
    { induction l as [|r l IH]; intros n rv; cbn [serve]; [discriminate|]. destruct r as [|[|]| |[|]]; cbn [fst]; eauto; congruence. }
    intros rv E. destruct ok; [apply X in E|injection E as E]; subst rv; reflexivity.
Qed.
Print Assumptions C87_serves.
Example C87_serves_ex : tcp_child (mkSetup true true true true true true) [Quiet true; Connection true; Unset; Connection true] = (None, 2) /\
  tcp_child (mkSetup true true true true true true) [Connection true; Quiet false; Connection true] = (Some (-1), 1) /\
  tcp_child (mkSetup true true true true false true) [Connection true] = (Some (-1), 0).
Proof. repeat split. Qed.
(** The daemon is looked for only after 200 ms without a connection: while clients keep connecting,
    the server outlives the daemon. *)
Theorem C87_outlives_refuted : forall n, tcp_child (mkSetup true true true true true true) (repeat (Connection true) n) = (None, Z.of_nat n).
Proof.
  intro n. unfold tcp_child. cbn [u_socket u_reuse u_getfl u_setfl u_bind u_listen andb].
  rewrite serve_good by (apply Forall_forall; intros x I; apply repeat_spec in I; subst x; exact I).
  f_equal. rewrite Z.add_0_l. f_equal. induction n as [|n IH]; [reflexivity|]. cbn [repeat filter connection length]. f_equal. exact IH.
Qed.
Print Assumptions C87_outlives_refuted.

(** *** The daemon with its servers *)
(** The rules of the daemon are those it would have without a TCP server, and exactly one process
    serves the port, the one the daemon knows of.
    Missing for the full claim: histories in which a SIGHUP meets the server outside select, in which
    it is slow to end, or in which a call of the system fails in it; see below. *)
Theorem C87_rules_partial : forall rule flush l, calm_run flush (fresh rule) l ->
  let d := run rule flush (fresh rule) l in let alone := run rule flush (fresh rule) (filter own l) in
  d_stage rule d = d_stage rule alone /\ (d_stage rule d <> Pausing -> d_rules rule d = d_rules rule alone) /\
  (d_stage rule d = Up -> exists p ph, d_server rule d = Some p /\ d_children rule d = [(p, ph)] /\ ph <> Leaving) /\
  (d_stage rule d = Down -> d_children rule d = []).
Proof.
  intros rule flush l C. cbn zeta.
  destruct (calm_rules rule flush l (fresh rule) (fresh rule) C) as (N & S1 & R1); [reflexivity|reflexivity|reflexivity|].
  split; [exact S1|]. split; [exact R1|]. unfold neat in N. split; intro E; rewrite E in N; exact N.
Qed.
Print Assumptions C87_rules_partial.
(** With FLUSH_IPT_AT_EXIT N the TCP server never has an effect on the rules, whatever happens. *)
Theorem C87_keep_partial : forall rule l, d_rules rule (run rule false (fresh rule) l) = d_rules rule (run rule false (fresh rule) (filter own l)).
Proof. intros rule l. apply keep_rules; reflexivity. Qed.
Print Assumptions C87_keep_partial.

(** Rules by name *)
Definition ev := event Z.
Definition hup : ev := Hup Z. Definition init : ev := Init Z. Definition fork : ev := Fork Z. Definition grant : Z -> ev := Grant Z. Definition stop : ev := Stop Z.
Definition bind : nat -> bool -> ev := Bind Z. Definition client : nat -> ev := Client Z. Definition served : nat -> ev := Served Z. Definition clean : nat -> ev := Clean Z.
Definition after (l : list ev) : daemon Z := run Z true (fresh Z) l.
Definition rules_after (l : list ev) : stage * option (list Z) := (d_stage Z (after l), d_rules Z (after l)).
Definition life : list ev := [fork; bind 1 true; grant 10; client 1; served 1; grant 11; hup; clean 1; init; fork; bind 2 true; grant 12].
Example C87_rules_ex : calm_run true (fresh Z) life /\ rules_after life = (Up, Some [12]) /\ d_children Z (after life) = [(2%nat, Waiting)] /\
  rules_after (filter own life) = (Up, Some [12]) /\ d_children Z (after (life ++ [stop])) = [].
Proof.
  split; [|repeat split]. unfold life.
  repeat (apply calm_more; [vm_compute; try exact I; try reflexivity; intros; try discriminate; try (exists 1%nat; split; reflexivity); try reflexivity|vm_compute (step _ _ _ _)]). apply calm_none.
Qed.

(** A SIGHUP while a connection is served is lost to the TCP server.  It keeps the port; the new one
    cannot bind it, and removes all rules of the running daemon.  The old one is out of reach of the
    daemon, and still there when it has ended. *)
Theorem C87_busy_refuted :
  let l := [fork; bind 1 true; client 1; hup; init; fork; grant 12; bind 2 true; clean 2] in
  rules_after l = (Up, None) /\ rules_after (filter own l) = (Up, Some [12]) /\
  d_server Z (after l) = Some 2%nat /\ d_children Z (after l) = [(1%nat, Waiting)] /\ d_children Z (after (l ++ [stop])) = [(1%nat, Waiting)].
Proof. repeat split. Qed.
Print Assumptions C87_busy_refuted.
(** A TCP server that is slow to end after a SIGHUP removes the rules of the daemon that has started
    again. *)
Theorem C87_slow_refuted :
  let l := [fork; bind 1 true; hup; init; fork; grant 12; clean 1] in
  rules_after l = (Up, None) /\ rules_after (filter own l) = (Up, Some [12]).
Proof. repeat split. Qed.
Print Assumptions C87_slow_refuted.
(** If another program has the port, the TCP server removes the rules of the daemon, which runs on. *)
Theorem C87_port_refuted :
  let l := [fork; grant 12; bind 1 false; clean 1] in
  rules_after l = (Up, None) /\ rules_after (filter own l) = (Up, Some [12]) /\ d_children Z (after l) = [].
Proof. repeat split. Qed.
Print Assumptions C87_port_refuted.
(** So does a single failure of select or accept. *)
Theorem C87_failure_refuted : forall rule l p r, let d := run rule true (fresh rule) l in
  d_stage rule d = Up -> phase_of p (d_children rule d) = Some Waiting ->
  d_rules rule (run rule true (fresh rule) (l ++ [Grant rule r; Fails rule p; Clean rule p])) = None /\
  d_rules rule (run rule true (fresh rule) (l ++ [Grant rule r])) <> None.
Proof.
  intros rule l p r d U W. unfold run in *. rewrite !fold_left_app. fold d. destruct d as [rs st sv ch nx]. cbn [d_stage d_children] in *. subst st.
  cbn [fold_left step d_stage put_rules d_children]. rewrite W. cbn [put_children d_children]. split; [|cbn; discriminate].
  assert (X : phase_of p (set_phase p Leaving ch) = Some Leaving).
  { clear - W. unfold phase_of in *. induction ch as [|[q ph] ch IH]; [discriminate|]. cbn [set_phase map find fst] in *. destruct (Nat.eqb q p) eqn:Q.
    - cbn [find fst]. rewrite Nat.eqb_refl. reflexivity.
    - cbn [find fst]. rewrite Q. apply IH. exact W. }
  cbn [step d_children d_stage]. rewrite X. reflexivity.
Qed.
Print Assumptions C87_failure_refuted.
Example C87_failure_ex : let d := after [fork; bind 1 true] in d_stage Z d = Up /\ phase_of 1 (d_children Z d) = Some Waiting.
Proof. split; reflexivity. Qed.

(** *** Restarts *)
(** A TCP server that has ended is started again only if its status is still there: once the signal
    handler has collected it, which it does at once if no other child has ended, never. *)
Theorem C87_restart_refuted : forall t server st which, restarts (happen (happen t (End server st)) (Handler server)) server which = false.
Proof.
  intros t server st which. unfold restarts. destruct (0 <? server); [|reflexivity]. destruct (Z.eqb_spec which server) as [->|]; [|reflexivity]. cbn [andb].
  set (t1 := happen t (End server st)). clearbody t1. induction t1 as [|[p o] t1 IH]; [reflexivity|]. cbn [happen filter fst snd] in *.
  destruct (p =? server) eqn:Q; cbn [andb].
  - destruct o; cbn [negb]; [exact IH|]. cbn [existsb fst snd]. rewrite Q. exact IH.
  - cbn [negb existsb fst snd]. rewrite Q. exact IH.
Qed.
Print Assumptions C87_restart_refuted.
(** If it is started again, its process does not end with it: it goes on as a second daemon. *)
Theorem C87_second_daemon_refuted : forall rv, returned FromCapture rv = Captures.
Proof. reflexivity. Qed.
Print Assumptions C87_second_daemon_refuted.
Example C87_restart_ex : let t := [(70, None); (71, None)] in let t := happen (happen (happen t (End 70 (exited 255))) (End 71 0)) (Handler 71) in restarts t 70 70 = true.
Proof. reflexivity. Qed.
