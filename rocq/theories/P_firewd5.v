(** The history of the daemon with firewalld: passes, what else changes the firewall, stop and
    start.  All of it is that of the daemon with iptables, run as [quietly] and [beside]. *)
From Verif Require Import Bytes M_util M_message M_codec M_access M_cycle M_incoming M_packet M_fw M_fwinit
  S_text S_access S_incoming S_fw S_fwinit P_bytes P_util P_util2 P_fw P_fw2 P_fw3 P_fw4 P_fw5 P_fw6 P_fw7 P_fw8 P_fw10 P_fw11 P_fwinit P_fwinit2 P_fwinit3
  M_firewd S_firewd P_firewd P_firewd2 P_firewd3 P_firewd4.
From Coq Require Import Init.Byte List ZArith Bool Lia.
Import ListNotations.
Open Scope Z_scope.

(** ** iptables run quietly *)
Lemma quietly_ok K : iptables_ok K -> iptables_ok (quietly K).
Proof.
  intros (A & B & C). split; [exact A|]. split; [exact B|]. exists ($ "failed"). split; [reflexivity|]. split; [discriminate|]. intros H; vm_compute in H; intuition discriminate.
Qed.
Lemma pass_fit exe c : names_pass exe c -> names_fit (exe_of exe) c.
Proof.
  intros ((W0 & W1 & W2 & W3 & W4 & J & U & _) & S). unfold names_short in S. split; [|repeat split; auto; try apply W1; try apply W2; try apply W3; try apply W4; try apply J].
  - unfold exe_of. destruct W0 as (NE & FW). split; [destruct exe; discriminate|]. apply Forall_app. split; [exact FW|]. assert (X : word ($ "_--direct_--passthrough_ipv4_")) by lit. exact (proj2 X).
  - unfold exe_of. rewrite zlen_app. change (zlen ($ "_--direct_--passthrough_ipv4_")) with 29. lia.
Qed.
Lemma pass_exe exe c : names_pass exe c -> word exe /\ zlen exe <= 71.
Proof.
  intros ((W0 & _) & S). split; [exact W0|]. unfold names_short in S. pose proof (zlen_nonneg (c_table c)). pose proof (zlen_nonneg (c_from c)).
  pose proof (zlen_nonneg (c_to c)). pose proof (zlen_nonneg (c_target c)). lia.
Qed.
Lemma all_pass_in exe cs c : all_pass exe cs -> In c cs -> in_use c -> names_pass exe c.
Proof. intros (_ & A & B) I U. split; [|auto]. eapply fitting_in; eauto. Qed.
Lemma all_pass_fitting exe cs : all_pass exe cs -> fitting (exe_of exe) cs.
Proof.
  intros (E & A & B) c I. destruct (A c I) as [X|X]; [now left|]. right. apply pass_fit. split; [exact X|]. apply B; [exact I|]. eapply names_in_use; eauto.
Qed.
Lemma sim_nil {A} (P : A -> Prop) p q (fw : firewall) : sim P p q -> p (fw, []) = q (fw, []).
Proof. intros S. destruct (S fw []) as (a & fw' & fs' & E & _ & _ & N). destruct (N eq_refl) as [-> Q]. congruence. Qed.
Lemma sim_some {A} (P : A -> Prop) p q (fw : firewall) fs : sim P p q -> exists a fw' fs' gs, p (fw, fs) = Ok (a, (fw', fs')) /\ q (fw, gs) = Ok (a, (fw', [])) /\ P a.
Proof. intros S. destruct (S fw fs) as (a & fw' & fs' & E & PA & (gs & Q) & _). exists a, fw', fs', gs. specialize (Q []). rewrite app_nil_r in Q. auto. Qed.

Section Side.
Variable K : iptables.
Variable KO : iptables_ok K.
Variable F : firewalld.
Hypothesis FO : firewalld_ok F.
Variable cf : fwconf.
Notation fd := (run_firewall_cmd K F).
Notation ip := (run_iptables (quietly K)).
Notation cd := (through cf).
Notation ci := (beside cf).
Let KQ := quietly_ok K KO.

(** ** Passes *)
Lemma checkable_beside (fw : firewall) i c : (c_table c <> [] -> names_short (f_cmd cf) c) -> checkable K (f_cmd cf) fw i c -> checkable (quietly K) (f_cmd ci) fw i c.
Proof.
  intros S [T|(NF & I & rs & E & R & L)]; [now left|]. right. split; [|split; [exact I|]].
  - apply pass_fit. split; [exact NF|]. apply S. destruct NF as (_ & (N & _) & _). exact N.
  - exists rs. split; [exact E|]. split; [exact R|]. unfold quietly. rewrite listing_fail. exact L.
Qed.
Lemma check_chains_eq all now cs : (forall c, In c cs -> c_table c <> [] -> names_short (f_cmd cf) c) ->
  forall i (fw : firewall) fs, Forall honest fs -> (forall j c, nth_error cs j = Some c -> checkable K (f_cmd cf) fw (i + j) c) ->
  check_chains machine fd cd all now i cs (fw, fs) = check_chains machine ip ci all now i cs (fw, fs).
Proof.
  induction cs as [|c cs IH]; intros NS i fw fs HF CK; [reflexivity|]. cbn [check_chains].
  pose proof (CK O c eq_refl) as C0. rewrite Nat.add_0_r in C0.
  destruct (check_chains_honest (quietly K) KQ ci now all [c] i fw fs HF) as (cs' & fw1 & fs1 & R & _ & SH & H1 & _).
  { intros j d E. destruct j as [|[|j]]; [|discriminate E|discriminate E]. injection E as <-. rewrite Nat.add_0_r. apply checkable_beside; [apply NS; now left|exact C0]. }
  cbn [check_chains] in R.
  assert (E : check_chain machine fd cd all now i c (fw, fs) = check_chain machine ip ci all now i c (fw, fs)).
  { destruct C0 as [T|(NF & I & rs & E & RR & L)].
    - unfold check_chain. rewrite T. change (zlen (@nil Bytes.byte) =? 0) with true. cbn [orb]. reflexivity.
    - assert (NP : names_pass (f_cmd cf) c). { split; [exact NF|]. apply NS; [now left|]. destruct NF as (_ & (N & _) & _). exact N. }
      destruct (pass_exe _ _ NP) as [WE SE]. eapply (check_eq K KO F FO cf WE SE c (pass_named _ _ NP)); eauto. destruct NF as (_ & _ & _ & _ & _ & _ & U & _). exact U. }
  rewrite E. destruct (check_chain machine ip ci all now i c (fw, fs)) as [[c' [fw2 fs2]]|] eqn:Q; cbn [bind] in R |- *; [|discriminate]. injection R as <- <- <-.
  rewrite IH; auto.
  - intros d I. apply NS. now right.
  - intros j d X. replace (Datatypes.S i + j)%nat with (i + Datatypes.S j)%nat by lia. eapply (shrunk_checkable K KO cf now); [|apply CK; exact X]. exact SH.
Qed.

Variable cs0 : list chain.
Hypothesis AP : all_pass (f_cmd cf) cs0.
Let WE : word (f_cmd cf) := proj1 (proj1 AP).
Let SE : zlen (f_cmd cf) <= 71 := proj2 (proj1 AP).
Let FI : fitting (f_cmd ci) cs0 := all_pass_fitting _ _ AP.

Lemma pass_chain_rest_fd all now i c (fw : firewall) fs c' fw' fs' : In c cs0 ->
  check_chain machine fd cd all now i c (fw, fs) = Ok (c', (fw', fs')) -> rest cs0 fw fw' /\ same_names c c'.
Proof.
  intros I Q. unfold check_chain in Q. destruct (negb all && _); [injection Q as <- <- <-; split; [apply rest_refl|apply same_names_refl]|].
  destruct (zlen (c_table c) =? 0) eqn:Z0; [injection Q as <- <- <-; split; [apply rest_refl|apply same_names_refl]|].
  destruct (beq _ _); [injection Q as <- <- <-; split; [apply rest_refl|apply same_names_refl]|]. cbn [orb] in Q.
  assert (NF : names_fit (f_cmd ci) c). { apply (fitting_table _ cs0); auto. intros E. rewrite E in Z0. discriminate. }
  pose proof (names_in_use _ _ NF) as UU. pose proof (pass_named _ _ (all_pass_in _ _ _ AP I UU)) as NM.
  destruct (fd_list K F FO cf WE SE c NM fw fs) as (ok & out & R). rewrite R in Q. cbn [bind] in Q.
  destruct ok; cbn [negb] in Q; [|injection Q as <- <- <-; split; [apply rest_refl|apply same_names_refl]].
  destruct (strstr _ _ _); [|injection Q as <- <- <-; split; [apply rest_refl|repeat split]].
  rewrite (rm_eq K F FO cf WE SE c NM) in Q.
  unfold rm_expired_rules in Q. destruct (expire_loop _ _ _ _ _ _ _ _ _) as [st|] eqn:E; [|discriminate]. cbn [bind] in Q. injection Q as <- QW.
  apply (loop_rest (quietly K) ci cs0 c I UU NF) in E; [|cbn [r_off]; lia]. cbn [r_w fst] in E. rewrite QW in E. split; [exact E|repeat split].
Qed.
Lemma pass_rest_fd all now cs : (forall c, In c cs -> In c cs0) -> forall i (fw : firewall) fs cs' fw' fs',
  check_chains machine fd cd all now i cs (fw, fs) = Ok (cs', (fw', fs')) -> rest cs0 fw fw' /\ Forall2 same_names cs cs'.
Proof.
  intros S. induction cs as [|c cs IH]; intros i fw fs cs' fw' fs' Q; cbn [check_chains] in Q.
  - injection Q as <- <- <-. split; [apply rest_refl|constructor].
  - destruct (check_chain machine fd cd all now i c (fw, fs)) as [[c1 [fw1 fs1]]|] eqn:E; [|discriminate]. cbn [bind] in Q.
    destruct (check_chains machine fd cd all now (Datatypes.S i) cs (fw1, fs1)) as [[cs1 [fw2 fs2]]|] eqn:E2; [|discriminate]. cbn [bind] in Q. injection Q as <- <- <-.
    destruct (pass_chain_rest_fd _ _ _ _ _ _ _ _ _ (S c (or_introl eq_refl)) E) as [G N].
    destruct (IH (fun x X => S x (or_intror X)) _ _ _ _ _ _ E2) as [G2 N2]. split; [eapply rest_trans; eauto|constructor; auto].
Qed.

(** ** Anything the daemon does *)
Let NU : forall c, In c cs0 -> in_use c -> named c := fun c I U => pass_named _ _ (all_pass_in _ _ _ AP I U).
Lemma at_named j : c_to (chain_at j cs0) = [] \/ named (chain_at j cs0).
Proof.
  destruct (fit_at ci cs0 j FI) as [E|NF]; [now left|right]. apply NU; [|eapply names_in_use; eauto]. apply chain_at_in. left. destruct NF as (_ & _ & _ & (N & _) & _). exact N.
Qed.
Lemma used_named j : in_use (chain_at j cs0) -> named (chain_at j cs0).
Proof. intros U. apply NU; [|exact U]. apply chain_at_in. now right. Qed.

Lemma request_rest_fd resolve nc d now (fw : firewall) fs : decent cf cs0 (Request resolve nc d now) ->
  exists cs' fw' fs', fd_process_spa_request machine fd cd resolve nc d now (cs0, (fw, fs)) = Ok (cs', (fw', fs')) /\ rest cs0 fw fw' /\ Forall2 same_names cs0 cs'.
Proof.
  intros D. pose proof D as (W1 & L1 & W2 & L2 & HE & S1 & S2 & U0 & U45 & proto & port & pl & RQ & NG).
  assert (S : sim (Forall2 same_names cs0) (fun w => fd_process_spa_request machine fd cd resolve nc d now (cs0, w)) (fun w => process_spa_request machine ip ci resolve nc d now (cs0, w))).
  { assert (WN : wants_nat nc (d_type d) \/ ~ wants_nat nc (d_type d)).
    { unfold wants_nat, local_nat. destruct (Z.eq_dec (d_type d) 5); [tauto|]. destruct (Z.eq_dec (d_type d) 6); [tauto|]. destruct (Z.eq_dec (d_type d) 2); [tauto|].
      destruct (Z.eq_dec (d_type d) 4); [tauto|]. destruct (n_force nc); [tauto|]. right. intros [[|]|[|[|]]]; congruence. }
    destruct WN as [WN|WN].
    - destruct (NG WN) as (nip & to & G). eapply (spa_nat_sim K F FO cf WE SE resolve nc d now W1 W2 HE cs0 nip to); auto.
      + intros _. now apply used_named. + intros j _. apply at_named. + intros X j [->| ->]; apply used_named, U45, X.
    - apply (spa_access_sim K F FO cf WE SE resolve nc d now W1 W2 HE cs0); auto using used_named, at_named. }
  destruct (sim_some _ _ _ fw fs S) as (a & fw' & fs' & gs & P & Q & N). exists a, fw', fs'. split; [exact P|]. split; [|exact N].
  destruct (request_rest (quietly K) KQ ci cs0 resolve nc d now fw gs FI D) as (cs2 & fw2 & fs2 & R & G & _). pose proof (eq_trans (eq_sym Q) R) as X. injection X as _ -> _. exact G.
Qed.
Lemma happen_rest_fd ev (fw : firewall) fs cs' fw' fs' : decent cf cs0 ev ->
  fd_happen K F cf ev (cs0, (fw, fs)) = Ok (cs', (fw', fs')) -> rest cs0 fw fw' /\ Forall2 same_names cs0 cs'.
Proof.
  intros D. destruct ev as [| |resolve nc d now|all now]; cbn [fd_happen].
  - destruct (sim_some _ _ _ fw fs (make_sim K F FO cf WE SE cs0 NU)) as (a & fw1 & fs1 & gs & P & Q & _). rewrite P. cbn [bind snd]. intros X. injection X as <- <- <-.
    destruct (make_rest (quietly K) KQ ci cs0 cs0 (fun _ x => x) FI fw gs) as (e & fw2 & fs2 & R & G). rewrite R in Q. injection Q as _ -> _. split; [exact G|apply names_refl].
  - destruct (sim_some _ _ _ fw fs (delete_all_sim K F FO cf WE SE cs0 NU)) as (a & fw1 & fs1 & gs & P & Q & _). unfold plainly in P, Q.
    destruct (fd_delete_all_chains machine fd cd cs0 (fw, fs)) as [[fw2 fs2]|]; [|discriminate]. cbn [bind] in P |- *. injection P as _ -> ->. intros X. injection X as <- <- <-.
    destruct (drop_rest (quietly K) KQ ci cs0 cs0 (fun _ x => x) FI fw gs) as (fw3 & fs3 & R & G). rewrite R in Q. cbn [bind] in Q. injection Q as _ -> _. split; [exact G|apply names_refl].
  - destruct (request_rest_fd resolve nc d now fw fs D) as (cs1 & fw1 & fs1 & R & G & N). rewrite R. intros X. injection X as <- <- <-. auto.
  - apply pass_rest_fd. auto.
Qed.
End Side.

Lemma short_same exe c c' : same_names c c' -> names_short exe c -> names_short exe c'.
Proof. intros (A & B & C & D & E). unfold names_short. now rewrite A, B, C, E. Qed.
Lemma names_all_pass exe cs cs' : Forall2 same_names cs cs' -> all_pass exe cs -> all_pass exe cs'.
Proof.
  intros N (E & A & B). split; [exact E|]. split; [eapply names_fitting; eauto|]. clear A. induction N as [|c c' cs cs' S N IH]; intros x; [intros []|].
  intros [<-|I] U; [|apply IH; auto; intros y Y; apply B; now right]. apply (short_same exe c); [exact S|]. apply B; [now left|]. unfold in_use in *. destruct S as (S & _). now rewrite <- S.
Qed.
Theorem history_rest_fd K (KO : iptables_ok K) F (FO : firewalld_ok F) cf evs : forall cs (fw : firewall) fs cs' fw' fs', all_pass (f_cmd cf) cs -> Forall (decent cf cs) evs ->
  fd_history K F cf evs (cs, (fw, fs)) = Ok (cs', (fw', fs')) -> rest cs fw fw' /\ Forall2 same_names cs cs'.
Proof.
  induction evs as [|ev evs IH]; intros cs fw fs cs' fw' fs' A D Q; cbn [fd_history] in Q.
  - injection Q as <- <- <-. split; [apply rest_refl|apply names_refl].
  - inversion_clear D as [|? ? D1 D2]. destruct (fd_happen K F cf ev (cs, (fw, fs))) as [[cs1 [fw1 fs1]]|] eqn:E; [|discriminate]. cbn [bind] in Q.
    destruct (happen_rest_fd K KO F FO cf cs A _ _ _ _ _ _ D1 E) as [G N].
    destruct (IH cs1 fw1 fs1 cs' fw' fs') as [G2 N2]; [eapply names_all_pass; eauto| |exact Q|].
    { revert D2. apply Forall_impl. intros a. now apply decent_names. }
    split; [|eapply names_trans; eauto]. intros t n. rewrite (G t n). rewrite <- (names_bare cs cs1), <- (names_bare cs cs1 fw') by exact N. apply G2.
Qed.
