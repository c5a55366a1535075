(** Proofs for C84 *)
From Verif Require Import Bytes M_life S_life.
From Coq Require Import List ZArith Bool Lia.
Import ListNotations.
Open Scope Z_scope.

Lemma history_app l1 l2 s s1 s2 : history l1 s s1 -> history l2 s1 s2 -> history (l1 ++ l2) s s2.
Proof. induction 1; cbn; auto. intros. econstructor; eauto. Qed.
Lemma history_inv e l s s2 : history (e :: l) s s2 -> exists s1, happens e s = Some s1 /\ history l s1 s2.
Proof. inversion 1; eauto. Qed.
Lemma steps_signal g l : steps (Signal g :: l) = steps l.
Proof. reflexivity. Qed.
Lemma steps_step o l : steps (Step o :: l) = S (steps l).
Proof. reflexivity. Qed.

Ltac crush := repeat match goal with
  | H : Some _ = Some _ |- _ => injection H as H
  | H : None = Some _ |- _ => discriminate H
  | H : match ?x with _ => _ end = Some _ |- _ => destruct x eqn:?
  | H : (if ?x then _ else _) = Some _ |- _ => destruct x eqn:?
  end; subst.

(** ** The signals that mean nothing *)
Definition undisturbed (s : state) : Prop :=
  f_hup (s_flags s) = false /\ f_int (s_flags s) = false /\ f_term (s_flags s) = false /\ s_break s = false /\
  match s_at s with Config | Clear _ | Hand1 | Hand2 | Hand3 | Hand4 | Ended _ => False | _ => True end.
Lemma undisturbed_step e s s' n : undisturbed s -> s_limit s = n -> ~ reason e -> (n = 0 \/ s_packets s + packets [e] < n) -> s_errors s + errors [e] <= 101 ->
  happens e s = Some s' ->
  undisturbed s' /\ s_limit s' = n /\ s_reads s' = s_reads s /\ s_packets s' = s_packets s + packets [e] /\ s_errors s' <= Z.max 0 (s_errors s) + errors [e].
Proof.
  intros (A & B & C & D & E) L R P ER H. destruct s as [at_ [g h i t u1 u2 c] m b er pk li rd]. cbn in A, B, C, D, E, L, P, ER. subst.
  destruct e as [sg|o].
  - destruct sg; try (cbn in R; tauto); destruct at_; cbn in *; try contradiction; injection H as <-; cbn; repeat split; auto; lia.
  - destruct at_; cbn in E; try contradiction; cbn in H;
      try (destruct o; try (now exfalso; apply R); try contradiction; try discriminate H; injection H as <-; unfold undisturbed, loop; cbn; try destruct m; try destruct g; try destruct u1; try destruct u2; try destruct c; cbn; repeat split; auto; lia).
    destruct m, o as [| | |k| |]; try (now exfalso; apply R); try discriminate H; cbn in H, P, ER; unfold MAX_PCAP_ERRORS_BEFORE_BAIL, over in H; cbn in H.
    + injection H as <-; unfold undisturbed; cbn; repeat split; auto; lia.
    + destruct (k >? 0); [|discriminate]. assert (O : negb (n =? 0) && (n <=? pk + k) = false) by (destruct P as [-> |P]; [reflexivity|]; apply andb_false_intro2; lia).
      rewrite O in H. injection H as <-. unfold undisturbed; cbn; repeat split; auto; lia.
    + destruct (er >? 100) eqn:X; [lia|]. injection H as <-; unfold undisturbed; cbn; repeat split; auto; lia.
    + injection H as <-; unfold undisturbed; cbn; repeat split; auto; lia.
    + destruct (k =? 1) eqn:K1; [|discriminate]. assert (k = 1) by lia. subst k. assert (O : negb (n =? 0) && (n <=? pk + 1) = false) by (destruct P as [-> |P]; [reflexivity|]; apply andb_false_intro2; lia).
      rewrite O in H. injection H as <-. unfold undisturbed; cbn; repeat split; auto; lia.
Qed.
Lemma happens_packets e s s' : happens e s = Some s' -> 0 <= packets [e] /\ 0 <= errors [e].
Proof.
  destruct e as [g|o]; cbn; [lia|]. destruct o; try lia. intros H. split; [|lia]. enough (0 < n) by lia. unfold step in H.
  destruct (s_at s); try discriminate H. unfold receive in H. destruct (s_mode s); [destruct (n >? 0) eqn:X|destruct (n =? 1) eqn:X]; try discriminate H; lia.
Qed.
Lemma packets_cons e l : packets (e :: l) = packets [e] + packets l.
Proof. destruct e as [[]|[]]; cbn [packets]; lia. Qed.
Lemma errors_cons e l : errors (e :: l) = errors [e] + errors l.
Proof. destruct e as [[]|[]]; cbn [errors]; lia. Qed.
Lemma history_packets l s s' : history l s s' -> 0 <= packets l /\ 0 <= errors l.
Proof.
  intros H. induction H as [s|e l s s1 s2 H1 H2 IH]; [cbn; lia|]. apply happens_packets in H1. rewrite packets_cons, errors_cons. lia.
Qed.
Lemma undisturbed_history n l s s' : history l s s' -> undisturbed s -> s_limit s = n -> (n = 0 \/ s_packets s + packets l < n) -> Z.max 0 (s_errors s) + errors l <= 101 ->
  Forall (fun e => ~ reason e) l -> undisturbed s' /\ s_reads s' = s_reads s.
Proof.
  intros H. induction H as [s|e l s s1 s2 H1 H2 IH]; intros U L P ER F; [auto|]. inversion_clear F. rewrite packets_cons in P. rewrite errors_cons in ER.
  pose proof (happens_packets _ _ _ H1). pose proof (history_packets _ _ _ H2).
  destruct (undisturbed_step _ _ _ n U L H ltac:(lia) ltac:(lia) H1) as (U1 & L1 & R1 & P1 & E1). destruct (IH U1 L1 ltac:(lia) ltac:(lia) H0) as (U2 & R2). split; [auto|]. congruence.
Qed.

(** ** Read again only after SIGHUP *)
Definition no_hup (s : state) : Prop :=
  f_hup (s_flags s) = false /\ match s_at s with Config | Clear _ | Hand4 => False | _ => True end.
Lemma no_hup_step e s s' : no_hup s -> e <> Signal SIGHUP -> happens e s = Some s' -> no_hup s' /\ s_reads s' = s_reads s.
Proof.
  intros (A & E) R H. destruct s as [at_ [g h i t u1 u2 c] m b er pk li rd]. cbn in *. subst.
  destruct e as [sg|o].
  - destruct sg; try (now destruct R); destruct at_; cbn in *; try contradiction; try discriminate H; injection H as <-; cbn; repeat split; auto.
  - destruct at_; cbn in *; try contradiction; cbn in H; try discriminate H;
      try (destruct o; try contradiction; try discriminate H; injection H as <-; unfold no_hup, loop, do_stop; cbn; try destruct m; try destruct g; try destruct i; try destruct t; try destruct u1; try destruct u2; try destruct c; cbn; repeat split; auto; fail).
    unfold receive in H. crush; unfold no_hup; cbn; repeat split; auto; try (destruct (over _); cbn; auto).
Qed.
Lemma no_hup_history l s s' : history l s s' -> no_hup s -> ~ In (Signal SIGHUP) l -> no_hup s' /\ s_reads s' = s_reads s.
Proof.
  intros H. induction H as [s|e l s s1 s2 H1 H2 IH]; intros U F; [auto|].
  destruct (no_hup_step e s s1 U ltac:(intros ->; apply F; now left) H1) as [U1 R1]. destruct (IH U1 ltac:(intros X; apply F; now right)) as [U2 R2]. split; [auto|]. congruence.
Qed.
(** The UDP server never reads them again *)
Definition udp_only (s : state) : Prop :=
  s_mode s = Udp /\ match s_at s with Config | Clear _ | Hand1 | Hand2 | Hand3 | Hand4 => False | _ => True end.
Lemma udp_step e s s' : udp_only s -> happens e s = Some s' -> udp_only s' /\ s_reads s' = s_reads s.
Proof.
  intros (A & E) H. destruct s as [at_ [g h i t u1 u2 c] m b er pk li rd]. cbn in *. subst.
  destruct e as [sg|o].
  - destruct at_; cbn in *; try contradiction; try discriminate H; injection H as <-; cbn; repeat split; auto.
  - destruct at_; cbn in *; try contradiction; cbn in H; try discriminate H;
      try (destruct o; try contradiction; try discriminate H; injection H as <-; unfold udp_only, loop, do_stop; cbn; try destruct g; try destruct i; try destruct t; try destruct h; try destruct u1; try destruct u2; try destruct c; cbn; repeat split; auto; fail).
    unfold receive in H. cbn in H. crush; unfold udp_only; cbn; repeat split; auto; try (destruct (over _); cbn; auto).
Qed.
Lemma udp_history l s s' : history l s s' -> udp_only s -> udp_only s' /\ s_reads s' = s_reads s.
Proof. intros H. induction H as [s|e l s s1 s2 H1 H2 IH]; intros U; [auto|]. destruct (udp_step _ _ _ U H1) as [U1 R1]. destruct (IH U1) as [U2 R2]. split; [auto|]. congruence. Qed.

(** ** SIGTERM and SIGINT *)
(** How many steps at most until the end *)
Definition rank (s : state) : nat :=
  match s_at s with
  | Ended _ => 0
  | Hand3 => 1 | Hand2 => 2 | Hand1 => 3
  | Receive => match s_mode s, s_break s with Pcap, true => 4 | _, _ => 12 end
  | Stop4 => 5 | Stop3 => 6 | Stop2 => 7 | Stop1 => 8 | Chld2 => 9 | Chld1 => 10 | Rest => 11 | Prepare => 13
  | Clear n => 20 - n
  | _ => 30
  end.
(** The request has arrived *)
Definition asked (s : state) : Prop :=
  let f := s_flags s in
  f_hup f = false /\
  match s_at s with
  | Stop3 => f_got f = true /\ (f_term f = true)
  | Stop2 | Stop1 | Chld1 | Chld2 | Rest | Prepare => f_got f = true /\ (f_int f = true \/ f_term f = true)
  | Receive => (s_mode s = Pcap /\ s_break s = true) \/ (f_got f = true /\ (f_int f = true \/ f_term f = true))
  | Clear n => (n <= 5)%nat /\ f_got f = true /\ ((3 <= n)%nat /\ f_int f = true \/ (4 <= n)%nat /\ f_term f = true)
  | Hand1 | Hand2 | Hand3 | Ended true => True
  | _ => False
  end.
Lemma asked_signal g s : asked s -> g <> SIGHUP -> asked (flag (sig_handler g) s) /\ rank (flag (sig_handler g) s) = rank s.
Proof.
  intros A G. destruct s as [at_ [got h i t u1 u2 c] m b er pk li rd]. unfold asked, rank in *. cbn in *.
  destruct g; try (now destruct G); destruct at_ as [| | | | | | | | | | | | | | | | | | | | cl]; try destruct cl; cbn in *; intuition.
Qed.
Lemma asked_step o s s' : asked s -> easy (Step o) -> step o s = Some s' -> asked s' /\ (rank s' < rank s)%nat.
Proof.
  intros A G H. destruct s as [at_ [got h i t u1 u2 c] m b er pk li rd]. unfold asked in A. cbn in A. destruct A as [-> A].
  destruct at_ as [|k| | | | | | | | | | | | | | | | | | | cl]; try destruct cl; cbn in A; try contradiction; cbn in H; try discriminate H.
  - destruct A as [K [-> A]]. destruct o; try contradiction; try discriminate H.
    destruct k as [|[|[|[|[|[|k]]]]]]; [lia|lia|lia| | | |lia]; injection H as <-; unfold asked, rank; cbn; (split; [intuition lia|lia]).
  - destruct A as [-> A]. destruct o; try contradiction; try discriminate H. injection H as <-. unfold asked, rank, loop. cbn. destruct m; cbn; (split; [intuition|lia]).
  - destruct A as [-> A]. destruct o; try contradiction; try discriminate H. injection H as <-. unfold asked, rank. destruct c; cbn; (split; [intuition|lia]).
  - destruct A as [-> A]. destruct o; try contradiction; try discriminate H. injection H as <-. unfold asked, rank. cbn; (split; [intuition|lia]).
  - destruct A as [-> A]. destruct o; try contradiction; try discriminate H. injection H as <-. unfold asked, rank. cbn; (split; [intuition|lia]).
  - destruct A as [-> A]. destruct o; try contradiction; try discriminate H. injection H as <-. unfold asked, rank, do_stop. destruct i; [destruct m|]; cbn; (split; [intuition discriminate|lia]).
  - destruct A as [-> ->]. destruct o; try contradiction; try discriminate H. injection H as <-. unfold asked, rank, do_stop. destruct m; cbn; (split; [intuition discriminate|lia]).
  - unfold receive in H. cbn in H. destruct m, o; try contradiction; try discriminate H.
    + destruct b; injection H as <-; unfold asked, rank; cbn; (split; [intuition discriminate|lia]).
    + injection H as <-; unfold asked, rank; cbn; (split; [intuition discriminate|destruct b; lia]).
    + injection H as <-; unfold asked, rank; cbn; (split; [intuition discriminate|lia]).
  - destruct A as [-> A]. destruct o; try contradiction; try discriminate H. injection H as <-. unfold asked, rank, loop. cbn. destruct m; cbn; (split; [intuition|lia]).
  - destruct o; try contradiction; try discriminate H. injection H as <-. unfold asked, rank. destruct got; cbn; (split; [intuition|lia]).
  - destruct o; try contradiction; try discriminate H. injection H as <-. unfold asked, rank. cbn; (split; [intuition|lia]).
  - destruct o; try contradiction; try discriminate H. injection H as <-. unfold asked, rank. cbn; (split; [intuition|lia]).
Qed.

Lemma asked_history l s s' : history l s s' -> asked s -> ~ In (Signal SIGHUP) l -> Forall easy l -> asked s' /\ (rank s' + steps l <= rank s)%nat.
Proof.
  intros H. induction H as [s|e l s s1 s2 H1 H2 IH]; intros A N F. { split; [auto|cbn; lia]. }
  inversion_clear F. destruct e as [g|o].
  - assert (X : s1 = flag (sig_handler g) s) by (cbn in H1; destruct (s_at s); congruence). subst s1.
    destruct (asked_signal g s A ltac:(intros ->; apply N; now left)) as [A1 R1]. destruct (IH A1 ltac:(intros X; apply N; now right) H0) as [A2 R2]. split; [auto|]. rewrite steps_signal. lia.
  - destruct (asked_step _ _ _ A H H1) as [A1 R1]. destruct (IH A1 ltac:(intros X; apply N; now right) H0) as [A2 R2]. split; [auto|]. rewrite steps_step. lia.
Qed.
(** Clear never goes beyond its end *)
Definition in_range (s : state) : Prop := match s_at s with Clear n => (n <= 5)%nat | _ => True end.
Lemma in_range_step e s s' : in_range s -> happens e s = Some s' -> in_range s'.
Proof.
  intros A H. destruct s as [at_ [g h i t u1 u2 c] m b er pk li rd]. unfold in_range in *. cbn in *.
  destruct e as [sg|o].
  - destruct at_; cbn in *; try contradiction; try discriminate H; injection H as <-; cbn; auto.
  - destruct at_; cbn in *; try discriminate H;
      try (destruct o; try discriminate H; injection H as <-; unfold loop, do_stop; cbn; try destruct m; try destruct g; try destruct i; try destruct t; try destruct h; try destruct u1; try destruct u2; try destruct c; cbn; auto; fail).
    + destruct o as [| |[|]| | |]; try discriminate H; injection H as <-; cbn; lia.
    + destruct o; try discriminate H. destruct n as [|[|[|[|[|n]]]]]; injection H as <-; cbn; auto; lia.
    + unfold receive in H. cbn in H. crush; cbn; auto; try (destruct (over _); cbn; auto).
Qed.
Lemma in_range_history l s s' : history l s s' -> in_range s -> in_range s'.
Proof. intros H. induction H as [s|e l s s1 s2 H1 H2 IH]; intros U; [auto|]. apply IH. eapply in_range_step; eauto. Qed.
(** The flags of the other signals *)
Lemma asked_by g s s' : g = SIGTERM \/ g = SIGINT -> in_range s -> f_hup (s_flags s) = false -> ~ late g (s_at s) -> happens (Signal g) s = Some s' -> asked s'.
Proof.
  intros G R U L H. destruct s as [at_ [got h i t u1 u2 c] m b er pk li rd]. unfold asked, in_range in *. cbn in *. subst h.
  destruct G as [-> | ->]; destruct at_; cbn in *; try tauto; try discriminate H; injection H as <-; cbn in *; intuition (try discriminate); try lia.
Qed.

(** ** SIGHUP *)
Definition rank_hup (s : state) : nat :=
  match s_at s with
  | Config => 1 | Hand4 => 2 | Hand3 => 3 | Hand2 => 4 | Hand1 => 5
  | Receive => if s_break s then 6 else 14
  | Stop4 => 7 | Stop3 => 8 | Stop2 => 9 | Stop1 => 10 | Chld2 => 11 | Chld1 => 12 | Rest => 13 | Prepare => 15
  | Clear n => 21 - n
  | _ => 30
  end.
Definition called (s : state) : Prop :=
  let f := s_flags s in
  s_mode s = Pcap /\
  match s_at s with
  | Stop4 | Stop3 | Stop2 | Stop1 | Chld1 | Chld2 | Rest | Prepare | Receive | Hand1 => f_got f = true /\ f_hup f = true
  | Hand2 | Hand3 => f_hup f = true
  | Clear n => (n <= 5)%nat /\ f_got f = true /\ (2 <= n)%nat /\ f_hup f = true
  | Hand4 | Config => True
  | _ => False
  end.
Lemma called_signal g s : called s -> called (flag (sig_handler g) s) /\ rank_hup (flag (sig_handler g) s) = rank_hup s.
Proof.
  intros A. destruct s as [at_ [got h i t u1 u2 c] m b er pk li rd]. unfold called, rank_hup in *. cbn in *.
  destruct g, at_; cbn in *; intuition.
Qed.
Lemma called_step o s s' : called s -> easy (Step o) -> step o s = Some s' ->
  (called s' /\ s_reads s' = s_reads s /\ (rank_hup s' < rank_hup s)%nat) \/ s_reads s' = S (s_reads s).
Proof.
  intros A G H. destruct s as [at_ [got h i t u1 u2 c] m b er pk li rd]. unfold called in A. cbn in A. destruct A as [-> A].
  destruct at_ as [|k| | | | | | | | | | | | | | | | | | | cl]; cbn in A; try contradiction; cbn in H; try discriminate H;
    try match type of A with _ = true /\ _ => destruct A as [-> A] end; subst;
    try (destruct o; try contradiction; try discriminate H; try (injection H as <-); unfold called, rank_hup, loop, do_stop; try destruct i; try destruct t; try destruct c; cbn; first [right; reflexivity|left; split; [now auto|]; split; [reflexivity|lia]]; fail).
  - destruct A as (K & -> & L & ->). destruct o; try contradiction; try discriminate H. left.
    destruct k as [|[|[|[|[|[|k]]]]]]; [lia|lia| | | | |lia]; injection H as <-; unfold called, rank_hup; cbn; (split; [intuition lia|split; [reflexivity|lia]]).
  - unfold receive in H. cbn in H. destruct o; try contradiction; try discriminate H; try (destruct b); injection H as <-; left; unfold called, rank_hup; cbn; (split; [intuition|split; [reflexivity|lia]]).
Qed.
Lemma reads_mono l s s' : history l s s' -> (s_reads s <= s_reads s')%nat.
Proof.
  intros H. induction H as [s|e l s s1 s2 H1 H2 IH]; [auto|]. enough (s_reads s <= s_reads s1)%nat by lia. clear - H1.
  destruct s as [at_ [g h i t u1 u2 c] m b er pk li rd]. cbn in *.
  destruct e as [sg|o].
  - destruct at_; cbn in *; try discriminate H1; injection H1 as <-; cbn; auto.
  - destruct at_; cbn in *; try discriminate H1;
      try (destruct o; try discriminate H1; injection H1 as <-; unfold loop, do_stop; cbn; try destruct m; try destruct g; try destruct i; try destruct t; try destruct h; try destruct u1; try destruct u2; try destruct c; cbn; auto; fail).
    + destruct o as [| |[|]| | |]; try discriminate H1; injection H1 as <-; cbn; lia.
    + destruct o; try discriminate H1. destruct n as [|[|[|[|[|n]]]]]; injection H1 as <-; cbn; auto; lia.
    + unfold receive in H1. cbn in H1. crush; cbn; auto; try (destruct (over _); cbn; auto).
Qed.
Lemma called_history l s s' : history l s s' -> called s -> Forall easy l ->
  (called s' /\ (rank_hup s' + steps l <= rank_hup s)%nat) \/ (s_reads s < s_reads s')%nat.
Proof.
  intros H. induction H as [s|e l s s1 s2 H1 H2 IH]; intros A F. { left. split; [auto|cbn; lia]. }
  inversion_clear F. destruct e as [g|o].
  - assert (X : s1 = flag (sig_handler g) s) by (cbn in H1; destruct (s_at s); congruence). subst s1.
    destruct (called_signal g s A) as [A1 R1]. destruct (IH A1 H0) as [[A2 R2]|R2]; [left|right; exact R2]. split; [auto|]. rewrite steps_signal. lia.
  - destruct (called_step _ _ _ A H H1) as [(A1 & R0 & R1)|R1].
    + destruct (IH A1 H0) as [[A2 R2]|R2]; [left|right; lia]. split; [auto|]. rewrite steps_step. lia.
    + right. apply reads_mono in H2. lia.
Qed.
Lemma called_by s s' : s_mode s = Pcap -> in_range s -> (forall c, s_at s <> Ended c) -> ~ late SIGHUP (s_at s) -> happens (Signal SIGHUP) s = Some s' -> called s'.
Proof.
  intros M R E L H. destruct s as [at_ [got h i t u1 u2 c] m b er pk li rd]. unfold called, in_range in *. cbn in *. subst m.
  destruct at_; cbn in *; try (exfalso; now apply (E cleanup)); try (exfalso; now apply L); try discriminate H; injection H as <-; cbn; auto.
  split; [auto|]. split; [auto|]. split; [auto|]. split; [lia|auto].
Qed.
Lemma called_rank s : called s -> (1 <= rank_hup s <= 21)%nat.
Proof. intros (_ & A). unfold rank_hup. destruct (s_at s); try contradiction; try destruct (s_break s); lia. Qed.
Lemma asked_rank s : asked s -> (rank s <= 20)%nat.
Proof. intros (_ & A). unfold rank. destruct (s_at s); try contradiction; try destruct (s_mode s), (s_break s); lia. Qed.

(** ** A daemon that has forgotten a signal *)
Definition deaf (s : state) : Prop :=
  s_mode s = Pcap /\ s_limit s = 0 /\ s_break s = false /\ f_got (s_flags s) = false /\
  match s_at s with Chld1 | Chld2 | Stop1 | Receive | Rest => True | _ => False end.
Lemma deaf_step e s s' : deaf s -> still e -> happens e s = Some s' -> deaf s' /\ f_term (s_flags s') = f_term (s_flags s).
Proof.
  intros (A & B & C & D & E) S0 H. destruct s as [at_ [g h i t u1 u2 c] m b er pk li rd]. cbn in *. subst.
  destruct S0 as [-> | [n ->]]; destruct at_; try contradiction; cbn in H; unfold over in H; cbn in H; try discriminate H;
    try (destruct (_ >? _); [|discriminate H]); injection H as <-; unfold deaf, loop; cbn; try destruct c; cbn; repeat split; auto.
Qed.
Lemma deaf_history l s s' : history l s s' -> deaf s -> Forall still l -> deaf s' /\ f_term (s_flags s') = f_term (s_flags s).
Proof.
  intros H. induction H as [s|e l s s1 s2 H1 H2 IH]; intros A F; [auto|]. inversion_clear F.
  destruct (deaf_step _ _ _ A H H1) as [A1 B1]. destruct (IH A1 H0) as [A2 B2]. split; [auto|congruence].
Qed.

Lemma asked_goes s : asked s -> s_at s = Ended true \/ exists s', step Plain s = Some s'.
Proof.
  intros (_ & A). destruct s as [at_ [got h i t u1 u2 c] m b er pk li rd]. unfold step, receive. cbn in *.
  destruct at_; try contradiction; try (right; eexists; reflexivity).
  - right. destruct m; [destruct b|]; eexists; reflexivity.
  - destruct cleanup; [left; reflexivity|contradiction].
Qed.

(** ** As often as SIGHUP *)
Definition token (b : bool) : nat := if b then 1%nat else 0%nat.
Definition owed (s : state) : nat := (token (f_hup (s_flags s)) + match s_at s with Config => 1 | _ => 0 end)%nat.
Definition hup_there (s : state) : Prop := match s_at s with Hand4 => f_hup (s_flags s) = true | _ => True end.
Lemma owed_step e s s' : hup_there s -> happens e s = Some s' -> hup_there s' /\ (s_reads s' + owed s' <= s_reads s + owed s + hups [e])%nat.
Proof.
  intros A H. destruct s as [at_ [g h i t u1 u2 c] m b er pk li rd]. unfold hup_there, owed in *. cbn in A.
  destruct e as [sg|o].
  - destruct sg, at_; cbn in *; try discriminate H; injection H as <-; cbn; split; auto; destruct h; cbn; lia.
  - cbn [hups]. destruct at_; cbn in H; try discriminate H.
    all: try (destruct o as [| |[|]| | |]; try discriminate H; injection H as <-; unfold loop, do_stop; cbn; try destruct m; try destruct g; try destruct i; try destruct t; try destruct h; try destruct u1; try destruct u2; try destruct c; cbn in *; split; auto; try lia; try discriminate; fail).
    + destruct o; try discriminate H. destruct n as [|[|[|[|[|n]]]]]; injection H as <-; cbn; split; auto; destruct h; cbn; lia.
    + unfold receive in H. cbn in H. crush; try (destruct (over _)); cbn; split; auto; lia.
Qed.
Lemma hups_cons e l : hups (e :: l) = (hups [e] + hups l)%nat.
Proof. destruct e as [[]|[]]; reflexivity. Qed.
Lemma owed_history l s s' : history l s s' -> hup_there s -> (s_reads s' + owed s' <= s_reads s + owed s + hups l)%nat.
Proof.
  intros H. induction H as [s|e l s s1 s2 H1 H2 IH]; intros A; [cbn; lia|]. destruct (owed_step _ _ _ A H1) as [A1 B1]. specialize (IH A1). rewrite hups_cons. lia.
Qed.

(** ** The limit of packets *)
Definition full (s : state) : Prop :=
  f_hup (s_flags s) = false /\
  match s_at s with
  | Config | Clear _ | Prepare | Hand4 | Ended false => False
  | Ended true | Hand1 | Hand2 | Hand3 => True
  | _ => s_mode s = Pcap /\ s_break s = true
  end.
Definition rank_full (s : state) : nat :=
  match s_at s with
  | Rest => 16 | Chld1 => 15 | Chld2 => 14 | Stop1 => 13 | Stop2 => 12 | Stop3 => 11 | Stop4 => 10 | Stop5 => 9 | Stop6 => 8 | Stop7 => 7 | Stop8 => 6 | Stop9 => 5
  | Receive => 4 | Hand1 => 3 | Hand2 => 2 | Hand3 => 1 | _ => 0
  end.
Lemma full_step e s s' : full s -> e <> Signal SIGHUP -> easy e -> happens e s = Some s' -> full s' /\ (rank_full s' + steps [e] <= rank_full s)%nat.
Proof.
  intros (A & E) R Z H. destruct s as [at_ [g h i t u1 u2 c] m b er pk li rd]. cbn in A, E. subst h.
  destruct e as [sg|o].
  - destruct sg; try (now destruct R); destruct at_; cbn in *; try contradiction; try discriminate H; injection H as <-; unfold full; cbn; split; auto.
  - unfold steps. cbn. destruct at_; cbn in H, E; try contradiction; try discriminate H; try match type of E with _ /\ _ => destruct E as [-> ->] end;
      try (destruct o; try contradiction; try discriminate H; injection H as <-; unfold full, rank_full, loop, do_stop; cbn; try destruct g; try destruct i; try destruct t; try destruct u1; try destruct u2; try destruct c; cbn; split; auto; try lia; fail).
Qed.
Lemma full_history l s s' : history l s s' -> full s -> ~ In (Signal SIGHUP) l -> Forall easy l -> full s' /\ (rank_full s' + steps l <= rank_full s)%nat.
Proof.
  intros H. induction H as [s|e l s s1 s2 H1 H2 IH]; intros A N F. { split; [auto|cbn; lia]. }
  inversion_clear F. destruct (full_step e s s1 A ltac:(intros ->; apply N; now left) H H1) as [A1 R1].
  destruct (IH A1 ltac:(intros X; apply N; now right) H0) as [A2 R2]. split; [auto|]. change (steps (e :: l)) with (List.length (filter (fun e => match e with Step _ => true | _ => false end) ([e] ++ l))).
  rewrite filter_app, app_length. unfold steps in *. lia.
Qed.
Lemma full_goes s : full s -> s_at s = Ended true \/ exists s', step Plain s = Some s'.
Proof.
  intros (_ & A). destruct s as [at_ [got h i t u1 u2 c] m b er pk li rd]. unfold step, receive. cbn in *.
  destruct at_; try contradiction; try (right; eexists; reflexivity).
  - right. destruct A as [-> ->]. eexists; reflexivity.
  - destruct cleanup; [left; reflexivity|contradiction].
Qed.
(** Packets are counted, and at the limit the loop is to end *)
Definition counted (k : Z) (s : state) : Prop :=
  f_hup (s_flags s) = false /\
  match s_at s with
  | Config | Clear _ | Hand4 => False
  | Hand1 | Hand2 | Hand3 | Ended true => True
  | Ended false => k = 0
  | Prepare => k = 0 /\ s_packets s = 0 /\ s_break s = false
  | _ => s_packets s = k /\ (s_mode s = Udp -> over s = false) /\ (s_mode s = Pcap -> over s = true -> s_break s = true)
  end.
Lemma counted_step e k s s' : 0 < s_limit s -> counted k s -> e <> Signal SIGHUP -> happens e s = Some s' -> counted (k + packets [e]) s' /\ s_limit s' = s_limit s.
Proof.
  intros LI (A & E) R H. destruct s as [at_ [g h i t u1 u2 c] m b er pk li rd]. cbn in A, E, LI. subst h.
  destruct e as [sg|o].
  - unfold over in E. cbn in E. cbn [packets]. rewrite Z.add_0_r. destruct sg; try (now destruct R); destruct at_; try destruct cleanup; cbn in H, E; try contradiction; try discriminate H; injection H as <-; unfold counted, over; cbn; tauto.
  - destruct at_; cbn in H, E; try contradiction; try discriminate H.
    all: try (destruct o; try discriminate H; injection H as <-; cbn [packets]; rewrite Z.add_0_r; unfold counted, loop, do_stop, over in *; cbn in *; try destruct m; try destruct g; try destruct i; try destruct t; try destruct u1; try destruct u2; try destruct c; try destruct cleanup; cbn in *; intuition (try discriminate); fail).
    + destruct E as (-> & -> & ->). assert (O : negb (li =? 0) && (li <=? 0) = false) by (apply andb_false_intro2; lia).
      destruct o as [| |[|]| | |]; try discriminate H; injection H as <-; cbn [packets]; unfold counted, loop, over; cbn; try destruct m; cbn; rewrite ?O; intuition (try discriminate).
    + destruct E as (-> & E2 & E3). unfold receive, over in *; cbn in H, E2, E3.
      destruct m, o as [| |[|]|n| |]; try discriminate H; cbn [packets]; rewrite ?Z.add_0_r.
      * destruct b; injection H as <-; unfold counted, over; cbn; intuition (try discriminate).
      * injection H as <-; unfold counted, over; cbn; intuition (try discriminate).
      * destruct (n >? 0); [|discriminate H]. destruct (negb (li =? 0) && (li <=? k + n)) eqn:O; injection H as <-; unfold counted, over; cbn; rewrite ?O; intuition (try discriminate).
      * destruct (er >? _); injection H as <-; unfold counted, over; cbn; intuition (try discriminate).
      * injection H as <-; unfold counted, over; cbn; intuition (try discriminate).
      * injection H as <-; unfold counted, over; cbn; intuition (try discriminate).
      * injection H as <-; unfold counted, over; cbn; intuition (try discriminate).
      * destruct (n =? 1) eqn:N1; [|discriminate H]. assert (n = 1) by lia. subst n. destruct (negb (li =? 0) && (li <=? k + 1)) eqn:O; injection H as <-; unfold counted, over; cbn; rewrite ?O; intuition (try discriminate).
Qed.
Lemma counted_history l : forall k s s', history l s s' -> 0 < s_limit s -> counted k s -> ~ In (Signal SIGHUP) l -> counted (k + packets l) s' /\ s_limit s' = s_limit s.
Proof.
  induction l as [|e l IH]; intros k s s' H L C N; inversion H; subst. { cbn. rewrite Z.add_0_r. auto. }
  destruct (counted_step e k s s1 L C ltac:(intros ->; apply N; now left) ltac:(assumption)) as [C1 L1].
  destruct (IH _ _ _ ltac:(eassumption) ltac:(lia) C1 ltac:(intros X; apply N; now right)) as [C2 L2]. rewrite packets_cons, Z.add_assoc. split; [exact C2|congruence].
Qed.
Lemma counted_full k s : counted k s -> 0 < s_limit s <= k -> full s.
Proof.
  intros (A & E) L. split; [exact A|].
  assert (O : s_packets s = k -> over s = true) by (intros <-; unfold over; apply andb_true_intro; split; [apply Bool.negb_true_iff; lia|lia]).
  destruct (s_at s); try exact E; try (destruct cleanup; [exact I|lia]); try (destruct E as (E1 & E2 & E3); specialize (O E1); destruct (s_mode s); [auto|specialize (E2 eq_refl); congruence]); lia.
Qed.
Lemma full_rank s : (rank_full s <= 16)%nat.
Proof. unfold rank_full. destruct (s_at s); lia. Qed.
