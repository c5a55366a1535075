(** C84: how the daemon answers to signals *)
From Verif Require Import Bytes M_life S_life P_life.
From Coq Require Import List ZArith Bool Lia.
Import ListNotations.
Open Scope Z_scope.

(** The daemon ends, or reads its settings again, only for a reason: one of the three signals, a
    fatal error, the end of the input, the limit of packets, or more than a hundred errors.
    SIGUSR1, SIGUSR2 and SIGCHLD, at any time and however many, are none. *)
Theorem C84_reasons m n l s : history l (started m n) s -> ended s \/ s_reads s <> 0%nat ->
  (exists e, In e l /\ reason e) \/ (n <> 0 /\ n <= packets l) \/ 101 < errors l.
Proof.
  intros H E. destruct (List.Exists_dec reason l) as [X|X].
  - intros e. destruct e as [[]|[]]; cbn; auto.
  - left. apply Exists_exists in X. exact X.
  - right. assert (F : Forall (fun e => ~ reason e) l) by (apply Forall_Exists_neg; exact X).
    destruct (Z.eq_dec n 0) as [N|N]; [|destruct (Z_le_dec n (packets l)); [now left|]]; right; (destruct (Z_lt_dec 101 (errors l)) as [Y|Y]; [exact Y|exfalso]);
    (destruct (undisturbed_history n _ _ _ H) as ((_ & _ & _ & _ & A) & B); [repeat split|reflexivity|cbn; lia|cbn; lia|exact F|]);
    cbn in B; (destruct E as [[c E]|E]; [rewrite E in A; contradiction|now rewrite B in E]).
Qed.
Print Assumptions C84_reasons.
(** The settings are read again at most as often as there was SIGHUP. *)
Theorem C84_reread m n l s : history l (started m n) s -> (s_reads s <= hups l)%nat.
Proof. intros H. pose proof (owed_history _ _ _ H I) as X. cbn in X. lia. Qed.
Print Assumptions C84_reread.
(** A limit of packets: when as many have come, the daemon goes on for sixteen steps at most, and
    the only place where it stops is its end, with the firewall cleaned up. *)
Theorem C84_limit m n l0 s0 l s : 0 < n -> history l0 (started m n) s0 -> ~ In (Signal SIGHUP) l0 -> n <= packets l0 ->
  history l s0 s -> ~ In (Signal SIGHUP) l -> Forall easy l ->
  (steps l <= 16)%nat /\ (s_at s = Ended true \/ exists s', happens (Step Plain) s = Some s').
Proof.
  intros N H0 I0 P H I1 F.
  destruct (counted_history _ 0 _ _ H0 N) as [C L]; [split; [reflexivity|repeat split]|exact I0|]. cbn in L.
  assert (FU : full s0) by (apply (counted_full _ _ C); lia).
  destruct (full_history _ _ _ H FU I1 F) as [FU2 R]. pose proof (full_rank s0). split; [lia|]. apply full_goes. exact FU2.
Qed.
Print Assumptions C84_limit.
(** SIGTERM and SIGINT, when they are in time and no SIGHUP is there or follows: the daemon goes on
    for twenty steps at most, and the only place where it stops is its end, with the firewall
    cleaned up, whatever other signals come.  (Packets that arrive, and errors of the network, make
    the loop go round once more; these are left out.) *)
Theorem C84_stop_partial m n l0 s0 g s1 l s : history l0 (started m n) s0 -> g = SIGTERM \/ g = SIGINT ->
  ~ late g (s_at s0) -> f_hup (s_flags s0) = false -> happens (Signal g) s0 = Some s1 ->
  history l s1 s -> ~ In (Signal SIGHUP) l -> Forall easy l ->
  (steps l <= 20)%nat /\ (s_at s = Ended true \/ exists s', happens (Step Plain) s = Some s').
Proof.
  intros H0 G L U E H N F. pose proof (in_range_history _ _ _ H0 I) as R. pose proof (asked_by _ _ _ G R U L E) as A.
  destruct (asked_history _ _ _ H A N F) as [A2 R2]. pose proof (asked_rank _ A). split; [lia|]. apply asked_goes. exact A2.
Qed.
Print Assumptions C84_stop_partial.
(** SIGHUP, when it is in time and packets come from libpcap: the settings are read again within
    twenty-one steps, whatever other signals come. *)
Theorem C84_hup_partial m n l0 s0 s1 l s : history l0 (started m n) s0 -> s_mode s0 = Pcap -> ~ late SIGHUP (s_at s0) ->
  happens (Signal SIGHUP) s0 = Some s1 -> history l s1 s -> Forall easy l -> (21 <= steps l)%nat -> (s_reads s0 < s_reads s)%nat.
Proof.
  intros H0 M L E H F S. pose proof (in_range_history _ _ _ H0 I) as R.
  assert (NE : forall c, s_at s0 <> Ended c) by (intros c X; cbn in E; rewrite X in E; discriminate).
  pose proof (called_by _ _ M R NE L E) as A. assert (Q : s_reads s1 = s_reads s0) by (cbn in E; destruct (s_at s0); try discriminate E; injection E as <-; reflexivity).
  destruct (called_history _ _ _ H A F) as [[A2 R2]|R2]; [|lia]. pose proof (called_rank _ A). pose proof (called_rank _ A2). lia.
Qed.
Print Assumptions C84_hup_partial.

(** ** Cases *)
Fixpoint play (l : list event) (s : state) : option state :=
  match l with [] => Some s | e :: r => match happens e s with Some s => play r s | None => None end end.
Lemma played l : forall s s', play l s = Some s' -> history l s s'.
Proof. induction l as [|e l IH]; intros s s' H. { injection H as <-. constructor. } cbn in H. destruct (happens e s) eqn:E; [|discriminate]. econstructor; eauto. Qed.
Definition plain (n : nat) : list event := repeat (Step Plain) n.
Lemma easy_plain n : Forall easy (plain n).
Proof. unfold plain. induction n; constructor; cbn; auto. Qed.
(** SIGTERM while the daemon waits for packets *)
Example C84_stop_ex : exists s0 s1 s, history (plain 3 ++ [Signal SIGUSR1]) (started Pcap 0) s0 /\ ~ late SIGTERM (s_at s0) /\ happens (Signal SIGTERM) s0 = Some s1 /\
  history (plain 5 ++ [Signal SIGCHLD] ++ plain 5) s1 s /\ s_at s = Ended true.
Proof.
  eexists. eexists. eexists. split; [apply played; vm_compute; reflexivity|]. split; [exact (fun H => H)|]. split; [reflexivity|].
  split; [apply played; vm_compute; reflexivity|]. reflexivity.
Qed.
(** Three packets with a limit of three *)
Example C84_limit_ex : exists s0 s, history (plain 3 ++ [Step (Packets 2)] ++ plain 3 ++ [Signal SIGCHLD; Step (Packets 1)]) (started Pcap 3) s0 /\
  history (plain 12) s0 s /\ s_at s = Ended true.
Proof. eexists. eexists. split; [apply played; vm_compute; reflexivity|]. split; [apply played; vm_compute; reflexivity|reflexivity]. Qed.
(** Many errors, and signals without meaning: the daemon is still there *)
Example C84_reasons_ex : exists s, history (plain 1 ++ concat (repeat (plain 2 ++ [Signal SIGUSR1; Step Error] ++ plain 12 ++ [Signal SIGCHLD] ++ plain 11) 60)) (started Pcap 5) s /\
  s_at s <> Ended true /\ s_reads s = 0%nat.
Proof. eexists. split; [apply played; vm_compute; reflexivity|]. split; [discriminate|reflexivity]. Qed.
(** SIGHUP there; the daemon then has the new settings *)
Example C84_hup_ex : exists s1 s, history (plain 3 ++ [Signal SIGHUP]) (started Pcap 0) s1 /\
  history (plain 12 ++ [Step (NewSettings Udp 7)] ++ plain 10) s1 s /\ s_reads s = 1%nat /\ s_mode s = Udp /\ s_limit s = 7.
Proof.
  eexists. eexists. split; [apply played; vm_compute; reflexivity|]. split; [apply played; vm_compute; reflexivity|]. repeat split.
Qed.

(** ** What is not so *)
(** SIGTERM is lost when it comes after the daemon has looked for it and before it forgets that
    there was a signal at all: it does so after each SIGCHLD, that is whenever an iptables command
    has ended, and after SIGUSR1 and SIGUSR2.  The daemon then runs on for ever, as long as no
    other signal comes. *)
Theorem C84_lost_refuted : exists l s, history l (started Pcap 0) s /\ In (Signal SIGTERM) l /\ ~ In (Signal SIGHUP) l /\ Forall easy l /\
  forall l' s', Forall still l' -> history l' s s' -> ~ ended s' /\ f_term (s_flags s') = true.
Proof.
  set (l := plain 1 ++ [Signal SIGCHLD] ++ plain 8 ++ [Signal SIGTERM] ++ plain 1).
  exists l. eexists. split; [apply played; vm_compute; reflexivity|]. split; [cbn; tauto|]. split; [cbn; intuition discriminate|].
  split; [unfold l, plain; cbn; repeat constructor|].
  intros l' s' F H. destruct (deaf_history _ _ _ H) as [(_ & _ & _ & _ & D) T]; [repeat split|exact F|]. split; [|exact T].
  intros [c E]. rewrite E in D. contradiction.
Qed.
Print Assumptions C84_lost_refuted.
(** SIGTERM together with SIGHUP, in either order, or while the settings are read again: SIGHUP
    wins, and SIGTERM is forgotten. *)
Theorem C84_hup_wins_refuted l : In l
    [ plain 3 ++ [Signal SIGTERM; Signal SIGHUP] ++ plain 11 ++ [Step (NewSettings Pcap 0)] ++ plain 7;
      plain 3 ++ [Signal SIGHUP; Signal SIGTERM] ++ plain 11 ++ [Step (NewSettings Pcap 0)] ++ plain 7;
      plain 3 ++ [Signal SIGHUP] ++ plain 12 ++ [Signal SIGTERM; Step (NewSettings Pcap 0)] ++ plain 7;
      plain 3 ++ [Signal SIGHUP] ++ plain 12 ++ [Step (NewSettings Pcap 0)] ++ plain 3 ++ [Signal SIGTERM] ++ plain 12 ] ->
  exists s, history l (started Pcap 0) s /\ s_reads s = 1%nat /\ f_term (s_flags s) = false /\ forall l' s', Forall still l' -> history l' s s' -> ~ ended s'.
Proof.
  intros H. cbn [In] in H. destruct H as [<-|[<-|[<-|[<-|[]]]]];
  (eexists; split; [apply played; vm_compute; reflexivity|]; split; [reflexivity|]; split; [reflexivity|];
   intros l' s' F H; destruct (deaf_history _ _ _ H) as [(_ & _ & _ & _ & D) T]; [repeat split|exact F|]; intros [c E]; rewrite E in D; contradiction).
Qed.
Print Assumptions C84_hup_wins_refuted.
(** With the UDP server SIGHUP (also that of fwknopd -R) never makes the daemon read its settings
    again: it ends. *)
Theorem C84_udp_refuted : (forall n l s, history l (started Udp n) s -> s_reads s = 0%nat) /\
  exists s, history (plain 3 ++ [Signal SIGHUP] ++ plain 4) (started Udp 0) s /\ s_at s = Ended true.
Proof.
  split. { intros n l s H. destruct (udp_history _ _ _ H) as [_ R]; [split; [reflexivity|exact I]|exact R]. }
  eexists. split; [apply played; vm_compute; reflexivity|reflexivity].
Qed.
Print Assumptions C84_udp_refuted.
(** SIGHUP with a mistake in the settings: the daemon ends without cleaning up the firewall.  The
    rules it has made stay, with nobody to remove them when they expire. *)
Theorem C84_mistake_refuted : exists s, history (plain 3 ++ [Signal SIGHUP] ++ plain 12 ++ [Step (Fails false)]) (started Pcap 0) s /\ s_at s = Ended false.
Proof. eexists. split; [apply played; vm_compute; reflexivity|reflexivity]. Qed.
Print Assumptions C84_mistake_refuted.
(** The daemon gives up after a hundred consecutive errors of the network, it says.  But receiving
    packets does not start the count again: here no two errors follow one another. *)
Theorem C84_consecutive_refuted : exists l s,
  l = plain 3 ++ [Step (Packets 7)] ++ concat (repeat (plain 3 ++ [Step Error] ++ plain 3 ++ [Step (Packets 7)]) 101) ++ plain 3 ++ [Step Error] /\
  history l (started Pcap 0) s /\ s_at s = Ended true.
Proof. eexists. eexists. split; [reflexivity|]. split; [apply played; vm_compute; reflexivity|reflexivity]. Qed.
Print Assumptions C84_consecutive_refuted.
