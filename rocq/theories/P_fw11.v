(** Proofs about check_firewall_rules: passes during which iptables may die, and the rounds of
    the main loop. *)
From Verif Require Import Bytes M_util M_message M_codec M_access M_cycle M_incoming M_packet M_fw
  S_text S_fw P_bytes P_util P_util2 P_fw P_fw2 P_fw3 P_fw4 P_fw5 P_fw6 P_fw7.
From Coq Require Import Init.Byte List ZArith Bool Lia.
Import ListNotations.
Open Scope Z_scope.

Section Honest.
Variable K : iptables.
Variable KO : iptables_ok K.
Variable cf : fwconf.
Variable now : Z.

Definition shrunk (fw fw' : firewall) : Prop := forall t c,
  match fw t c with
  | Some rs => exists rs', fw' t c = Some rs' /\ only_drops (expired K now) rs rs'
  | None => fw' t c = None
  end.
Lemma shrunk_refl fw : shrunk fw fw.
Proof. intros t c. destruct (fw t c) as [rs|]; auto. exists rs. auto using drops_refl. Qed.
Lemma shrunk_trans a b d : shrunk a b -> shrunk b d -> shrunk a d.
Proof.
  intros H G t c. specialize (H t c). specialize (G t c). destruct (a t c) as [rs|].
  - destruct H as (r1 & E1 & D1). rewrite E1 in G. destruct G as (r2 & E2 & D2). exists r2. split; auto. eapply drops_trans; eauto.
  - rewrite H in G. exact G.
Qed.
Lemma shrunk_checkable fw0 fw i c : shrunk fw0 fw -> checkable K (f_cmd cf) fw0 i c -> checkable K (f_cmd cf) fw i c.
Proof.
  intros M [T|(NF & I & rs & E & R & L)]; [now left|]. right. split; auto. split; auto.
  specialize (M (c_table c) (c_to c)). rewrite E in M. destruct M as (rs' & E' & D). exists rs'. split; auto. split; [eapply drops_forall; eauto|].
  unfold listing in *. rewrite zlen_app in *. pose proof (drops_lines K KO now _ _ D 1 1 ltac:(lia)). lia.
Qed.

Lemma check_chains_honest all cs : forall i fw fs, Forall honest fs ->
  (forall j c, nth_error cs j = Some c -> checkable K (f_cmd cf) fw (i + j) c) ->
  exists cs' fw' fs',
    check_chains machine (run_iptables K) cf all now i cs (fw, fs) = Ok (cs', (fw', fs')) /\
    Forall2 same_names cs cs' /\ shrunk fw fw' /\ Forall honest fs' /\
    (forall t n, ~ (exists c, In c cs /\ c_table c = t /\ c_to c = n) -> fw' t n = fw t n).
Proof.
  induction cs as [|c cs IH]; intros i fw fs HF H.
  - exists [], fw, fs. split; [reflexivity|]. split; [constructor|]. split; [apply shrunk_refl|]. auto.
  - cbn [check_chains]. pose proof (H O c eq_refl) as CK. rewrite Nat.add_0_r in CK.
    assert (STEP : exists c' fw1 fs1, check_chain machine (run_iptables K) cf all now i c (fw, fs) = Ok (c', (fw1, fs1)) /\
      same_names c c' /\ elsewhere (c_table c) (c_to c) fw fw1 /\ shrunk fw fw1 /\ Forall honest fs1).
    { destruct CK as [T|(NF & I & rs & E & R & L)].
      - exists c, fw, fs. unfold check_chain. rewrite T. change (zlen (@nil Bytes.byte) =? 0) with true. cbn [orb].
        destruct (negb all && _); repeat split; auto using else_refl, shrunk_refl.
      - destruct (check_pass K KO cf all now i c fw fs rs) as (c' & fw' & fs' & rs' & S1 & S2 & S3 & S4 & S5 & S6 & S7); auto.
        exists c', fw', fs'. split; auto. split; auto. split; auto. split; auto.
        intros t n. destruct (in_names_dec [c] t n) as [(d & [<-|[]] & <- & <-)|N].
        + rewrite E. exists rs'. auto.
        + assert (EQ : fw' t n = fw t n) by (apply S3; intros [-> ->]; apply N; exists c; cbn; auto).
          rewrite EQ. apply shrunk_refl. }
    destruct STEP as (c' & fw1 & fs1 & S1 & S2 & S3 & S4 & S5). rewrite S1. cbn [bind].
    destruct (IH (S i) fw1 fs1 S5) as (cs' & fw' & fs' & R1 & R2 & R3 & R4 & R5).
    { intros j d E. replace (S i + j)%nat with (i + S j)%nat by lia. eapply shrunk_checkable; [exact S4|]. apply H. exact E. }
    rewrite R1. cbn [bind]. exists (c' :: cs'), fw', fs'. split; [reflexivity|]. split; [constructor; auto|]. split; [eapply shrunk_trans; eauto|]. split; auto.
    intros t n N. rewrite R5.
    + apply S3. intros [-> ->]. apply N. exists c. cbn. auto.
    + intros (d & I & D). apply N. exists d. cbn. auto.
Qed.
End Honest.

(** ** Rounds *)
Lemma rounds_ctr K cf th h : forall x x', 0 < th -> 0 <= fst x < th -> rounds K cf th h x = Ok x' ->
  fst x' = (fst x + zlen h) mod th.
Proof.
  induction h as [|[g now] h IH]; intros [ctr s] x' TP B E; cbn [rounds fst snd] in *.
  - injection E as <-. cbn [fst]. rewrite zlen_nil, Z.add_0_r, Z.mod_small; auto.
  - unfold check_round in E. cbn [fst snd] in E. destruct (tick_spec th TP ctr B) as [T1 T2].
    destruct (rules_tick th ctr) as [all ctr']. cbn [fst snd] in T1, T2. cbv beta iota zeta in E.
    destruct (check_firewall_rules machine (run_iptables K) cf all now (g s)) as [s1|]; cbn [bind] in E; [|discriminate].
    apply IH in E; auto.
    + cbn [fst] in E. rewrite E, T1, zlen_cons. rewrite Zplus_mod_idemp_l. f_equal. lia.
    + cbn [fst]. rewrite T1. apply Z.mod_pos_bound. lia.
Qed.
Theorem periodic K cf th h s0 ctr cs fw change now : iptables_ok K -> 0 < th ->
  rounds K cf th h (0, s0) = Ok (ctr, change) -> (zlen h + 1) mod th = 0 ->
  (forall j c, nth_error cs j = Some c -> checkable K (f_cmd cf) fw j c) ->
  exists cs' fw',
    check_round (run_iptables K) cf th now (ctr, (cs, (fw, []))) = Ok (0, (cs', (fw', []))) /\
    Forall2 same_names cs cs' /\
    (forall c, In c cs -> c_table c <> [] -> cleaned K now fw fw' (c_table c) (c_to c)) /\
    (forall t n, ~ (exists c, In c cs /\ c_table c = t /\ c_to c = n) -> fw' t n = fw t n).
Proof.
  intros KO TP R M CK. apply rounds_ctr in R; auto; [|cbn; lia]. cbn [fst] in R. rewrite Z.add_0_l in R.
  assert (B : 0 <= ctr < th) by (rewrite R; apply Z.mod_pos_bound; lia).
  destruct (tick_spec th TP ctr B) as [T1 T2].
  assert (Q : (ctr + 1) mod th = 0) by (rewrite R, Zplus_mod_idemp_l; exact M).
  rewrite Q in T1, T2. unfold check_round. cbn [fst snd]. destruct (rules_tick th ctr) as [all c']. cbn [fst snd] in T1, T2. subst all c'.
  destruct (check_all K KO cf now cs fw CK) as (cs' & fw' & E & S1 & S2 & S3). change (0 =? 0) with true. cbv beta iota zeta.
  rewrite E. cbn [bind]. exists cs', fw'. auto.
Qed.
