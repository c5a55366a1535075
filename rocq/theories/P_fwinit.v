(** Proofs about starting and stopping the firewall. *)
From Verif Require Import Bytes M_util M_message M_codec M_access M_cycle M_incoming M_packet M_fw M_fwinit
  S_text S_fw S_fwinit P_bytes P_util P_util2 P_fw P_fw2 P_fw3 P_fw4 P_fw5 P_fw6 P_fw7.
From Coq Require Import Init.Byte List ZArith Bool Lia.
Import ListNotations.
Open Scope Z_scope.

Lemma same_rule_eq a b : same_rule a b = true <-> a = b.
Proof. unfold same_rule. destruct (list_eq_dec _ a b); split; congruence. Qed.
Lemma same_rule_sym a b : same_rule a b = same_rule b a.
Proof. apply eq_true_iff_eq. rewrite !same_rule_eq. split; congruence. Qed.

(** ** The firewall without what is the daemon's, as a function *)
Definition inuse (c : chain) : bool := negb (zlen (c_target c) =? 0).
Lemma inuse_iff c : inuse c = true <-> in_use c.
Proof. unfold inuse, in_use. rewrite negb_true_iff, Z.eqb_neq. destruct (c_target c) as [|x l]; [rewrite zlen_nil; split; congruence|]. rewrite zlen_cons. pose proof (zlen_nonneg l). split; [discriminate|lia]. Qed.
Definition ownb (cs : list chain) (t n : bytes) : bool := existsb (fun c => inuse c && bseq t (c_table c) && bseq n (c_to c)) cs.
Definition jumpb (cs : list chain) (t n : bytes) (r : rule) : bool :=
  existsb (fun c => inuse c && bseq t (c_table c) && bseq n (c_from c) && same_rule r [$ "-j"; c_to c]) cs.
Lemma ownb_iff cs t n : ownb cs t n = true <-> own cs t n.
Proof.
  unfold ownb, own. rewrite existsb_exists. split; intros (c & I & H); exists c; (split; [exact I|]);
    rewrite !andb_true_iff, !bseq_eq, inuse_iff in *; tauto.
Qed.
Lemma jumpb_iff cs t n r : jumpb cs t n r = true <-> jumps cs t n r.
Proof.
  unfold jumpb, jumps. rewrite existsb_exists. split; intros (c & I & H); exists c; (split; [exact I|]);
    rewrite !andb_true_iff, !bseq_eq, inuse_iff, same_rule_eq in *; tauto.
Qed.
Definition bare (cs : list chain) (fw : firewall) : firewall := fun t n =>
  if ownb cs t n then None else match fw t n with Some rs => Some (filter (fun r => negb (jumpb cs t n r)) rs) | None => None end.
Lemma without_filter {A} (P : A -> Prop) f (H : forall x, f x = true <-> P x) l : without P l (filter (fun x => negb (f x)) l).
Proof.
  induction l as [|x l IH]; cbn [filter]; [constructor|]. destruct (f x) eqn:E; cbn [negb].
  - apply without_drop; auto. now apply H.
  - apply without_keep; auto. intros Q. apply H in Q. congruence.
Qed.
Lemma without_fun {A} (P : A -> Prop) l a : without P l a -> forall b, without P l b -> a = b.
Proof. induction 1; intros b Q; inversion Q; subst; auto; try contradiction. f_equal. auto. Qed.
Lemma bare_stripped cs fw : stripped cs fw (bare cs fw).
Proof.
  intros t n. unfold bare. split; intros O.
  - apply ownb_iff in O. now rewrite O.
  - destruct (ownb cs t n) eqn:E; [apply ownb_iff in E; contradiction|]. destruct (fw t n) as [rs|]; auto.
    eexists. split; [reflexivity|]. apply without_filter. intros x. apply jumpb_iff.
Qed.
Lemma stripped_bare cs fw g : stripped cs fw g <-> forall t n, g t n = bare cs fw t n.
Proof.
  split.
  - intros S t n. destruct (S t n) as [S1 S2]. destruct (bare_stripped cs fw t n) as [B1 B2]. destruct (ownb cs t n) eqn:E.
    + apply ownb_iff in E. rewrite S1, B1 by exact E. reflexivity.
    + assert (N : ~ own cs t n) by (rewrite <- ownb_iff; congruence). specialize (S2 N). specialize (B2 N). destruct (fw t n) as [rs|].
      * destruct S2 as (a & -> & A). destruct B2 as (b & -> & B). f_equal. eapply without_fun; eauto.
      * congruence.
  - intros E t n. destruct (bare_stripped cs fw t n) as [B1 B2]. rewrite E. split; assumption.
Qed.
Lemma same_rest_bare cs fw fw' : same_rest cs fw fw' <-> forall t n, bare cs fw t n = bare cs fw' t n.
Proof.
  split.
  - intros (g & A & B) t n. rewrite stripped_bare in A, B. rewrite <- A, <- B. reflexivity.
  - intros E. exists (bare cs fw). split; [apply bare_stripped|]. apply stripped_bare. exact E.
Qed.
Lemma filter_filter {A} (f g : A -> bool) l : filter f (filter g l) = filter (fun x => g x && f x) l.
Proof. induction l as [|x l IH]; [reflexivity|]. cbn [filter]. destruct (g x); cbn [andb filter]; [destruct (f x)|]; congruence. Qed.
Lemma filter_fext {A} (f g : A -> bool) l : (forall x, f x = g x) -> filter f l = filter g l.
Proof. intros E. induction l as [|x l IH]; [reflexivity|]. cbn [filter]. now rewrite E, IH. Qed.
Lemma bare_cons c cs fw t n : bare cs (bare [c] fw) t n = bare (c :: cs) fw t n.
Proof.
  unfold bare. change (c :: cs) with ([c] ++ cs). unfold ownb. rewrite existsb_app. fold (ownb [c] t n) (ownb cs t n).
  destruct (ownb [c] t n); cbn [orb]; destruct (ownb cs t n); auto. destruct (fw t n) as [rs|]; auto. f_equal. rewrite filter_filter. apply filter_fext.
  intros r. unfold jumpb. rewrite existsb_app. now rewrite negb_orb.
Qed.
Lemma bare_ext cs fw fw' : (forall t n, fw t n = fw' t n) -> forall t n, bare cs fw t n = bare cs fw' t n.
Proof. intros E t n. unfold bare. now rewrite E. Qed.

Lemma filter_all {A} (f : A -> bool) l : (forall x, f x = true) -> filter f l = l.
Proof. intros E. induction l as [|x l IH]; [reflexivity|]. cbn [filter]. now rewrite E, IH. Qed.

(** ** Removing *)
Lemma remove_first_spec x rs : existsb (same_rule x) rs = true -> exists rs', remove_first x rs = Some rs' /\
  filter (fun r => negb (same_rule r x)) rs' = filter (fun r => negb (same_rule r x)) rs /\ count_occ own_rule_dec rs x = S (count_occ own_rule_dec rs' x).
Proof.
  induction rs as [|y r IH]; [discriminate|]. cbn [existsb remove_first]. destruct (same_rule x y) eqn:E.
  - intros _. exists r. split; [reflexivity|]. apply same_rule_eq in E. subst y. cbn [filter]. rewrite (proj2 (same_rule_eq x x) eq_refl). cbn [negb]. split; [reflexivity|].
    cbn [count_occ]. destruct (own_rule_dec x x); [reflexivity|contradiction].
  - cbn [orb]. intros Q. destruct (IH Q) as (r' & R & F & C). rewrite R. exists (y :: r'). split; [reflexivity|]. cbn [filter count_occ]. rewrite F. split; [reflexivity|].
    destruct (own_rule_dec y x) as [D|D]; [|exact C]. exfalso. subst y. rewrite (proj2 (same_rule_eq x x) eq_refl) in E. discriminate.
Qed.
Lemma no_jumps x rs : existsb (same_rule x) rs = false -> filter (fun r => negb (same_rule r x)) rs = rs.
Proof.
  induction rs as [|y r IH]; [reflexivity|]. cbn [existsb filter]. intros Q. apply orb_false_iff in Q as [E Q]. rewrite same_rule_sym, E. cbn [negb]. now rewrite IH.
Qed.
Lemma count_none x rs : count_occ own_rule_dec rs x = 0%nat -> existsb (same_rule x) rs = false.
Proof.
  intros C. destruct (existsb (same_rule x) rs) eqn:E; [|reflexivity]. apply remove_first_spec in E as (r & _ & _ & D). congruence.
Qed.

Lemma fitting_in exe cs c : fitting exe cs -> In c cs -> in_use c -> names_fit exe c.
Proof. intros F I U. destruct (F c I) as [(E & _)|N]; [contradiction|exact N]. Qed.
Lemma fitting_table exe cs c : fitting exe cs -> In c cs -> c_table c <> [] -> names_fit exe c.
Proof. intros F I U. destruct (F c I) as [(_ & E & _)|N]; [contradiction|exact N]. Qed.
Lemma fitting_to exe cs c : fitting exe cs -> In c cs -> c_to c <> [] -> names_fit exe c.
Proof. intros F I U. destruct (F c I) as [(_ & _ & _ & E)|N]; [contradiction|exact N]. Qed.
Lemma names_in_use exe c : names_fit exe c -> in_use c.
Proof. intros (_ & _ & _ & _ & (W & _) & _). exact W. Qed.

Section Stop.
Variable K : iptables.
Hypothesis KO : iptables_ok K.
Hypothesis KR : removes K.
Variable cf : fwconf.
Notation run := (run_iptables K).
Ltac fits := rewrite ?zlen_app; cbn [join]; rewrite ?zlen_app; 
  repeat match goal with |- context [zlen (str ?s)] => let v := eval vm_compute in (zlen (str s)) in change (zlen (str s)) with v end;
  change (zlen [" "%byte]) with 1; lia.

Section One.
Variable c : chain.
Hypothesis NF : names_fit (f_cmd cf) c.
Let J : rule := [$ "-j"; c_to c].
Definition no_jump (fw : firewall) : firewall := fun t n =>
  if bseq t (c_table c) && bseq n (c_from c) then match fw t n with Some rs => Some (filter (fun r => negb (same_rule r J)) rs) | None => None end else fw t n.

Lemma jump_exists_spec (fw : firewall) : jump_rule_exists machine run cf c (fw, []) = Ok (match fw (c_table c) (c_from c) with Some rs => existsb (same_rule J) rs | None => false end, (fw, [])).
Proof.
  destruct NF as (W1 & W2 & W3 & W4 & W5 & JR & UM & L).
  pose proof (zlen_nonneg (c_from c)). pose proof (zlen_nonneg (c_target c)).
  pose proof (zlen_nonneg (c_to c)). pose proof (zlen_nonneg (c_table c)). pose proof (zlen_nonneg (f_cmd cf)).
  unfold jump_rule_exists.
  assert (RT : fmt ($ "-t " ++ c_table c ++ $ " -j " ++ c_to c) = rule_text (c_table c) J ++ []).
  { rewrite fmt_id; [rewrite app_nil_r; reflexivity|fits]. }
  rewrite RT. destruct (exists_spec K KO cf (c_from c) (c_table c) J [] fw []) as (there & R3 & A3); auto; try discriminate; try reflexivity.
  { unfold J. words_ok. } { unfold rule_text, J. rewrite zlen_nil. fits. }
  rewrite R3, (A3 eq_refl). reflexivity.
Qed.
Lemma delete_jumps_spec k : forall fw : firewall, (forall rs, fw (c_table c) (c_from c) = Some rs -> (count_occ own_rule_dec rs J <= k)%nat) ->
  exists fw', delete_jumps machine run cf k c (fw, []) = Ok (fw', []) /\ forall t n, fw' t n = no_jump fw t n.
Proof.
  pose proof NF as (W1 & W2 & W3 & W4 & W5 & JR & UM & L).
  pose proof (zlen_nonneg (c_from c)). pose proof (zlen_nonneg (c_target c)).
  pose proof (zlen_nonneg (c_to c)). pose proof (zlen_nonneg (c_table c)). pose proof (zlen_nonneg (f_cmd cf)).
  assert (DONE : forall fw, match fw (c_table c) (c_from c) with Some rs => existsb (same_rule J) rs | None => false end = false -> forall t n, fw t n = no_jump fw t n).
  { intros fw E t n. unfold no_jump. destruct (bseq t (c_table c) && bseq n (c_from c)) eqn:B; [|reflexivity].
    apply andb_true_iff in B as [B1 B2]. apply bseq_eq in B1, B2. subst. destruct (fw (c_table c) (c_from c)) as [rs|]; [|reflexivity]. now rewrite no_jumps. }
  induction k as [|k IH]; intros fw C; cbn [delete_jumps].
  - exists fw. split; [reflexivity|]. apply DONE. destruct (fw (c_table c) (c_from c)) as [rs|]; [|reflexivity]. apply count_none. specialize (C rs eq_refl). lia.
  - rewrite jump_exists_spec. cbn [bind].
    destruct (fw (c_table c) (c_from c)) as [rs|] eqn:F; [|exists fw; split; [reflexivity|]; apply DONE; now rewrite F].
    destruct (existsb (same_rule J) rs) eqn:E; [|exists fw; split; [reflexivity|]; apply DONE; now rewrite F]. destruct (remove_first_spec J rs E) as (rs' & R & FL & CO).
    destruct (run_cmd K cf ($ "-t " ++ c_table c ++ $ " -D " ++ c_from c ++ $ " -j " ++ c_to c) [f_cmd cf; $ "-t"; c_table c; $ "-D"; c_from c; $ "-j"; c_to c] fw [])
      as (ok & fw1 & R1 & C1 & A1); [cbn; rewrite <- ?app_assoc; reflexivity|words_ok|reflexivity|fits|].
    rewrite R1. cbn [bind tl]. destruct (A1 eq_refl) as [_ ->].
    assert (I : fst (ipt K fw [f_cmd cf; $ "-t"; c_table c; $ "-D"; c_from c; $ "-j"; c_to c]) = put_chain fw (c_table c) (c_from c) (Some rs')).
    { cbn [ipt]. change (bseq ($ "-t") ($ "-t")) with true. cbn iota. unfold ipt_table. rewrite F.
      change (bseq ($ "-D") ($ "-L")) with false. change (bseq ($ "-D") ($ "-F")) with false. change (bseq ($ "-D") ($ "-X")) with false. change (bseq ($ "-D") ($ "-D")) with true. cbn iota.
      fold J. rewrite R. reflexivity. }
    rewrite I. destruct (IH (put_chain fw (c_table c) (c_from c) (Some rs'))) as (fw' & R2 & P).
    { intros x. rewrite put_same. intros Q. injection Q as <-. specialize (C rs eq_refl). lia. }
    exists fw'. split; [exact R2|]. intros t n. rewrite P. unfold no_jump. unfold put_chain. destruct (bseq t (c_table c) && bseq n (c_from c)) eqn:B; [|reflexivity].
    apply andb_true_iff in B as [B1 B2]. apply bseq_eq in B1, B2. subst. rewrite F, FL. reflexivity.
Qed.

Lemma refers_jump : refers J (c_to c).
Proof. exists [], []. left. reflexivity. Qed.

Lemma delete_chain_spec (fw : firewall) : in_use c -> removable [c] fw ->
  exists fw', delete_chain machine run cf c (fw, []) = Ok (fw', []) /\ forall t n, fw' t n = bare [c] fw t n.
Proof.
  intros U RM. destruct (RM c (or_introl eq_refl) U) as [RE CN].
  pose proof NF as (W1 & W2 & W3 & W4 & W5 & JR & UM & L).
  pose proof (zlen_nonneg (c_from c)). pose proof (zlen_nonneg (c_target c)).
  pose proof (zlen_nonneg (c_to c)). pose proof (zlen_nonneg (c_table c)). pose proof (zlen_nonneg (f_cmd cf)).
  unfold delete_chain. pose proof (proj2 (inuse_iff c) U) as IU. unfold inuse in IU. apply negb_true_iff in IU. rewrite IU.
  destruct (delete_jumps_spec 10 fw CN) as (fw1 & R1 & P1). rewrite R1. cbn [bind].
  destruct (run_cmd K cf ($ "-t " ++ c_table c ++ $ " -F " ++ c_to c) [f_cmd cf; $ "-t"; c_table c; $ "-F"; c_to c] fw1 [])
    as (ok2 & fw2 & R2 & _ & A2); [cbn; rewrite <- ?app_assoc; reflexivity|words_ok|reflexivity|fits|].
  rewrite R2. cbn [bind tl]. destruct (A2 eq_refl) as [_ E2].
  assert (I2 : fw2 = match fw1 (c_table c) (c_to c) with None => fw1 | Some _ => put_chain fw1 (c_table c) (c_to c) (Some []) end).
  { rewrite E2. cbn [ipt]. change (bseq ($ "-t") ($ "-t")) with true. cbn iota. unfold ipt_table. destruct (fw1 (c_table c) (c_to c)); reflexivity. }
  clear E2 R2 A2.
  destruct (run_cmd K cf ($ "-t " ++ c_table c ++ $ " -X " ++ c_to c) [f_cmd cf; $ "-t"; c_table c; $ "-X"; c_to c] fw2 [])
    as (ok3 & fw3 & R3 & _ & A3); [cbn; rewrite <- ?app_assoc; reflexivity|words_ok|reflexivity|fits|].
  rewrite R3. cbn [bind tl]. destruct (A3 eq_refl) as [_ E3].
  assert (NR : fw2 (c_table c) (c_to c) = Some [] -> referenced K fw2 (c_table c) (c_to c) = false).
  { intros EM. apply not_true_is_false. intros Q. destruct (KR _ _ _ Q) as (n & rs & r & F & I & RF). 
    destruct (bseq n (c_to c)) eqn:B.
    - apply bseq_eq in B. subst n. rewrite EM in F. injection F as <-. contradiction.
    - assert (F1 : fw1 (c_table c) n = Some rs).
      { rewrite I2 in F. destruct (fw1 (c_table c) (c_to c)); [|exact F]. unfold put_chain in F. rewrite B, andb_false_r in F. exact F. }
      rewrite P1 in F1. unfold no_jump in F1. destruct (bseq n (c_from c)) eqn:B1.
      + rewrite (proj2 (bseq_eq _ _) eq_refl) in F1. cbn [andb] in F1. apply bseq_eq in B1. subst n.
        destruct (fw (c_table c) (c_from c)) as [rs0|] eqn:G; [|discriminate]. injection F1 as <-. apply filter_In in I as [I D].
        destruct (RE _ _ _ G I RF) as [_ ->]. fold J in D. rewrite (proj2 (same_rule_eq J J) eq_refl) in D. discriminate.
      + rewrite andb_false_r in F1. destruct (RE _ _ _ F1 I RF) as [-> _]. rewrite (proj2 (bseq_eq _ _) eq_refl) in B1. discriminate. }
  assert (I3 : fw3 = match fw2 (c_table c) (c_to c) with Some [] => put_chain fw2 (c_table c) (c_to c) None | _ => fw2 end).
  { rewrite E3. cbn [ipt]. change (bseq ($ "-t") ($ "-t")) with true. cbn iota. unfold ipt_table. destruct (fw2 (c_table c) (c_to c)) as [[|x l]|] eqn:G; try reflexivity.
    change (bseq ($ "-X") ($ "-L")) with false. change (bseq ($ "-X") ($ "-F")) with false. change (bseq ($ "-X") ($ "-X")) with true. cbn iota. rewrite NR by reflexivity. reflexivity. }
  exists fw3. split; [reflexivity|]. intros t n. unfold bare, ownb, jumpb. cbn [existsb]. rewrite (proj2 (inuse_iff c) U). cbn [andb]. rewrite !orb_false_r.
  assert (X2 : fw2 (c_table c) (c_to c) = match fw1 (c_table c) (c_to c) with None => None | Some _ => Some [] end).
  { rewrite I2. destruct (fw1 (c_table c) (c_to c)) eqn:G; [apply put_same|exact G]. }
  destruct (bseq t (c_table c) && bseq n (c_to c)) eqn:B.
  - apply andb_true_iff in B as [B1 B2]. apply bseq_eq in B1, B2. subst t n. rewrite I3, X2. destruct (fw1 (c_table c) (c_to c)) eqn:G; [apply put_same|]. rewrite X2. reflexivity.
  - assert (Y3 : fw3 t n = fw2 t n). { rewrite I3. destruct (fw2 (c_table c) (c_to c)) as [[|x l]|]; auto. unfold put_chain. now rewrite B. }
    assert (Y2 : fw2 t n = fw1 t n). { rewrite I2. destruct (fw1 (c_table c) (c_to c)); auto. unfold put_chain. now rewrite B. }
    rewrite Y3, Y2, P1. unfold no_jump. destruct (bseq t (c_table c) && bseq n (c_from c)) eqn:B1.
    + destruct (fw t n) as [rs|]; auto. f_equal. apply filter_fext. intros r. cbn [andb]. rewrite orb_false_r. reflexivity.
    + destruct (fw t n) as [rs|]; auto. f_equal. symmetry. apply filter_all. reflexivity.
Qed.
End One.

Lemma removable_tail c cs fw : removable (c :: cs) fw -> removable [c] fw.
Proof. intros R x [<-|[]] U. apply R; [now left|exact U]. Qed.
Lemma count_filter f x l : (count_occ own_rule_dec (filter f l) x <= count_occ own_rule_dec l x)%nat.
Proof. induction l as [|y l IH]; [auto|]. cbn [filter count_occ]. destruct (f y); cbn [count_occ]; destruct (own_rule_dec y x); lia. Qed.
Lemma removable_bare cs d fw fw' : removable cs fw -> (forall t n, fw' t n = bare d fw t n) -> removable cs fw'.
Proof.
  intros R E c I U. destruct (R c I U) as [R1 R2]. split.
  - intros n rs r F IR RF. rewrite E in F. unfold bare in F. destruct (ownb d (c_table c) n); [discriminate|]. destruct (fw (c_table c) n) as [l|] eqn:G; [|discriminate].
    injection F as <-. apply filter_In in IR as [IR _]. eapply R1; eauto.
  - intros rs F. rewrite E in F. unfold bare in F. destruct (ownb d (c_table c) (c_from c)); [discriminate|]. destruct (fw (c_table c) (c_from c)) as [l|] eqn:G; [|discriminate].
    injection F as <-. eapply Nat.le_trans; [apply count_filter|]. now apply R2.
Qed.
Lemma delete_all_spec cs : fitting (f_cmd cf) cs -> forall fw : firewall, removable cs fw ->
  exists fw', delete_all_chains machine run cf cs (fw, []) = Ok (fw', []) /\ forall t n, fw' t n = bare cs fw t n.
Proof.
  induction cs as [|c cs IH]; intros FT fw RM; cbn [delete_all_chains].
  - exists fw. split; [reflexivity|]. intros t n. unfold bare. cbn [ownb existsb]. destruct (fw t n) as [rs|]; auto. f_equal. symmetry. apply filter_all. reflexivity.
  - assert (FT' : fitting (f_cmd cf) cs) by (intros x I; apply FT; now right).
    assert (RM' : removable cs fw) by (intros x I; apply RM; now right).
    destruct (inuse c) eqn:U.
    + pose proof (proj1 (inuse_iff c) U) as UU.
      destruct (delete_chain_spec c (fitting_in _ _ _ FT (or_introl eq_refl) UU) fw UU (removable_tail _ _ _ RM)) as (fw1 & R1 & P1). rewrite R1. cbn [bind].
      destruct (IH FT' fw1 (removable_bare cs [c] fw fw1 RM' P1)) as (fw2 & R2 & P2).
      exists fw2. split; [exact R2|]. intros t n. rewrite P2, (bare_ext cs fw1 (bare [c] fw) P1). apply bare_cons.
    + unfold delete_chain. unfold inuse in U. apply negb_false_iff in U. rewrite U. cbn [bind]. destruct (IH FT' fw RM') as (fw2 & R2 & P2).
      exists fw2. split; [exact R2|]. intros t n. rewrite P2. unfold bare, ownb, jumpb. cbn [existsb]. assert (inuse c = false) as -> by (unfold inuse; now rewrite U). reflexivity.
Qed.
End Stop.
