(** Proofs about the daemon with its TCP servers. *)
From Verif Require Import Bytes M_extcmd M_tcp S_tcp.
From Coq Require Import List ZArith Bool Lia.
Import ListNotations.

Section Rules.
Variable rule : Type.
Implicit Types (d : daemon rule) (l : list (event rule)).
Notation stage_of := (d_stage rule). Notation rules_of := (d_rules rule). Notation kids := (d_children rule). Notation server := (d_server rule).

Lemma stage_other flush d e : own e = false -> stage_of (step rule flush d e) = stage_of d.
Proof.
  destruct d as [rs st sv ch nx]. destruct e; cbn [own]; try discriminate; intros _; cbn [step d_children d_stage]; destruct (phase_of _ _) as [[]|]; try reflexivity; destruct st; reflexivity.
Qed.
Lemma stage_same flush d c e : stage_of d = stage_of c -> own e = true -> stage_of (step rule flush d e) = stage_of (step rule flush c e).
Proof.
  destruct d as [rs st sv ch nx], c as [rs2 st2 sv2 ch2 nx2]. cbn [d_stage]. intros <-. destruct e; cbn [own]; try discriminate; intros _; cbn [step d_stage]; destruct st; reflexivity.
Qed.
Lemma rules_same flush d c e : stage_of d = stage_of c -> rules_of d = rules_of c -> own e = true -> rules_of (step rule flush d e) = rules_of (step rule flush c e).
Proof.
  destruct d as [rs st sv ch nx], c as [rs2 st2 sv2 ch2 nx2]. cbn [d_stage d_rules]. intros <- <-. destruct e; cbn [own]; try discriminate; intros _; cbn [step d_stage]; destruct st; reflexivity.
Qed.
Lemma rules_other flush d e : own e = false -> (flush = false \/ forall p, e <> Clean rule p) -> rules_of (step rule flush d e) = rules_of d.
Proof.
  destruct d as [rs st sv ch nx]. destruct e; cbn [own]; try discriminate; intros _ H; cbn [step d_children d_stage];
    try (destruct (phase_of _ _) as [[]|]; try reflexivity; destruct st; reflexivity).
  destruct (phase_of p ch) as [[]|]; try reflexivity. destruct H as [->|H]; [reflexivity|]. exfalso. exact (H p eq_refl).
Qed.

(** The children there are while nothing goes wrong *)
Definition neat d : Prop :=
  match stage_of d with
  | Up => exists p ph, server d = Some p /\ kids d = [(p, ph)] /\ ph <> Leaving
  | Pausing => kids d = [] \/ exists p, kids d = [(p, Leaving)]
  | Ready | Down => kids d = []
  end.
Lemma neat_step flush d e : neat d -> calm d e -> neat (step rule flush d e).
Proof.
  unfold neat. destruct d as [rs st sv ch nx]. cbn [d_stage d_server d_children]. intros N C.
  destruct st.
  - destruct N as (p & ph & -> & -> & NL).
    destruct e as [ | | |r| | |q f|q|q|q|q|q]; cbn [step calm d_stage d_server d_children d_rules d_next put_stage put_children put_rules of_server] in *; try contradiction;
      try (exists p, ph; auto; fail);
      try (unfold phase_of; cbn [find fst]; destruct (Nat.eqb p q) eqn:Q; [|exists p, ph; auto; fail]; apply Nat.eqb_eq in Q; subst q; cbn [snd]).
    + destruct (C eq_refl) as (p' & [= <-] & PH). unfold term. rewrite PH. cbn [set_phase map fst]. rewrite Nat.eqb_refl. right. exists p. reflexivity.
    + cbn [without filter fst]. rewrite Nat.eqb_refl. reflexivity.
    + subst f. destruct ph; cbn [put_children d_stage d_server d_children]; try (exists p; eauto; fail). cbn [existsb listens snd orb negb andb set_phase map fst]. rewrite Nat.eqb_refl.
      exists p, Waiting. repeat split. discriminate.
    + destruct ph; cbn [put_children d_stage d_server d_children]; try (exists p; eauto; fail). cbn [set_phase map fst]. rewrite Nat.eqb_refl. exists p, Serving. repeat split. discriminate.
    + destruct ph; cbn [put_children d_stage d_server d_children]; try (exists p; eauto; fail). cbn [set_phase map fst]. rewrite Nat.eqb_refl. exists p, Waiting. repeat split. discriminate.
    + destruct ph; cbn [d_stage d_server d_children]; eexists p, _; auto.
    + destruct ph; cbn [d_stage d_server d_children]; try contradiction; eexists p, _; auto.
  - destruct e as [ | | |r| | |q f|q|q|q|q|q]; cbn [step calm d_stage d_server d_children d_rules d_next put_stage put_children put_rules of_server] in *; try contradiction; try exact N.
    + apply C. reflexivity.
    + destruct N as [->|(p & ->)]; unfold phase_of; cbn [find fst]; [left; reflexivity|]. destruct (Nat.eqb p q) eqn:Q; cbn [snd d_stage d_children]; right; exists p; reflexivity.
    + destruct N as [->|(p & ->)]; unfold phase_of; cbn [find fst]; [left; reflexivity|]. destruct (Nat.eqb p q) eqn:Q; cbn [snd d_stage d_children]; right; exists p; reflexivity.
    + destruct N as [->|(p & ->)]; unfold phase_of; cbn [find fst]; [left; reflexivity|]. destruct (Nat.eqb p q) eqn:Q; cbn [snd d_stage d_children]; right; exists p; reflexivity.
    + destruct N as [->|(p & ->)]; unfold phase_of; cbn [find fst]; [left; reflexivity|]. destruct (Nat.eqb p q) eqn:Q; cbn [snd d_stage d_children]; right; exists p; reflexivity.
    + destruct N as [->|(p & ->)]; unfold phase_of; cbn [find fst]; [left; reflexivity|]. destruct (Nat.eqb p q) eqn:Q; cbn [snd d_stage d_children put_rules put_children]; [|right; exists p; reflexivity].
      left. cbn [without filter fst]. rewrite Q. reflexivity.
  - cbn in N. subst ch. destruct e as [ | | |r| | |q f|q|q|q|q|q]; cbn [step calm d_stage d_server d_children d_rules d_next put_stage put_children put_rules of_server] in *; try contradiction; try reflexivity.
    cbn [app]. exists nx, Forked. repeat split. discriminate.
  - cbn in N. subst ch. destruct e as [ | | |r| | |q f|q|q|q|q|q]; cbn [step calm d_stage d_server d_children d_rules d_next put_stage put_children put_rules of_server] in *; try contradiction; reflexivity.
Qed.

(** A child of the daemon does not clean up while nothing goes wrong, but in the pause *)
Lemma neat_clean flush d p : neat d -> stage_of d <> Pausing -> step rule flush d (Clean rule p) = d.
Proof.
  unfold neat. destruct d as [rs st sv ch nx]. cbn [d_stage d_server d_children step]. intros N NP. destruct st.
  - destruct N as (q & ph & _ & -> & NL). unfold phase_of. cbn [find fst]. destruct (Nat.eqb q p); [|reflexivity]. cbn [snd]. destruct ph; try reflexivity. contradiction.
  - contradiction.
  - subst ch. reflexivity.
  - subst ch. reflexivity.
Qed.

Lemma calm_rules flush l : forall d c, calm_run flush d l -> neat d -> stage_of d = stage_of c -> (stage_of d <> Pausing -> rules_of d = rules_of c) ->
  let d' := run rule flush d l in let c' := run rule flush c (filter own l) in
  neat d' /\ stage_of d' = stage_of c' /\ (stage_of d' <> Pausing -> rules_of d' = rules_of c').
Proof.
  induction l as [|e l IH]; intros d c CR N ST RU; cbn zeta; [cbn; auto|]. inversion CR as [|? ? ? C CR']. subst. unfold run. cbn [fold_left filter].
  destruct (own e) eqn:O.
  - cbn [fold_left]. apply (IH (step rule flush d e) (step rule flush c e)); [exact CR'|apply neat_step; assumption|apply stage_same; assumption|].
    intro NP. destruct (stage_of d) eqn:SD.
    + apply rules_same; [congruence|apply RU; discriminate|exact O].
    + (* in the pause only the start of a new round leaves it *)
      destruct d as [rs st sv ch nx], c as [rs2 st2 sv2 ch2 nx2]. cbn [d_stage] in *. subst st st2. destruct e; cbn [own] in O; try discriminate O; cbn [step d_stage] in NP |- *; try (exfalso; apply NP; reflexivity); try contradiction. reflexivity.
    + apply rules_same; [congruence|apply RU; discriminate|exact O].
    + apply rules_same; [congruence|apply RU; discriminate|exact O].
  - apply (IH (step rule flush d e) c); [exact CR'|apply neat_step; assumption|rewrite stage_other by exact O; exact ST|].
    rewrite (stage_other flush d e O). intro NP. rewrite <- (RU NP). destruct e; cbn [own] in O; try discriminate O; try (apply rules_other; [reflexivity|right; intros; discriminate]).
    rewrite (neat_clean flush d p N NP). reflexivity.
Qed.
Lemma keep_rules l : forall d c, stage_of d = stage_of c -> rules_of d = rules_of c ->
  rules_of (run rule false d l) = rules_of (run rule false c (filter own l)) /\ stage_of (run rule false d l) = stage_of (run rule false c (filter own l)).
Proof.
  induction l as [|e l IH]; intros d c ST RU; [cbn; auto|]. unfold run. cbn [fold_left filter]. destruct (own e) eqn:O.
  - cbn [fold_left]. apply IH; [apply stage_same; assumption|apply rules_same; assumption].
  - apply IH; [rewrite stage_other by exact O; exact ST|rewrite rules_other by auto; exact RU].
Qed.
End Rules.
