(** Proofs about process_spa_request: the whole function. *)
From Verif Require Import Bytes M_util M_message M_codec M_access M_cycle M_incoming M_packet M_fw
  S_text S_access S_incoming S_fw P_bytes P_util P_util2 P_access P_incoming5 P_fw P_fw2 P_fw3 P_fw4 P_fw5 P_fw6 P_fw7 P_fw8 P_fw9.
From Coq Require Import Init.Byte List ZArith Bool Lia.
Import ListNotations.
Open Scope Z_scope.

Lemma zlen_0 {A} (l : list A) : zlen l = 0 -> l = [].
Proof. destruct l; auto. rewrite zlen_cons. pose proof (zlen_nonneg l). lia. Qed.

Section Whole.
Variable K : iptables.
Variable KO : iptables_ok K.
Variable cf : fwconf.
Variable resolve : bytes -> option bytes.
Notation run := (run_iptables K).
Variable nc : nat_conf.
Variable d : spa_data.
Variable now : Z.
Notation e := (now + d_timeout d).
Notation src := (d_use d).
Notation dst := (if f_use_dst cf then d_pkt_dst d else $ "0.0.0.0/0").
Hypothesis WS : word src. Hypothesis LS : zlen src <= 15.
Hypothesis WD : word (d_pkt_dst d). Hypothesis LD : zlen (d_pkt_dst d) <= 15.
Hypothesis HE : 0 <= e < 4294967296.

Lemma dst_word : word dst /\ zlen dst <= 15.
Proof. destruct (f_use_dst cf); auto. split; [lit|vm_compute; discriminate]. Qed.
Lemma wants_nat_iff : wants_nat nc (d_type d) <->
  (d_type d =? FKO_LOCAL_NAT_ACCESS_MSG) || (d_type d =? FKO_CLIENT_TIMEOUT_LOCAL_NAT_ACCESS_MSG) ||
  (d_type d =? FKO_NAT_ACCESS_MSG) || (d_type d =? FKO_CLIENT_TIMEOUT_NAT_ACCESS_MSG) || n_force nc = true.
Proof.
  unfold wants_nat, local_nat. rewrite !orb_true_iff, !Z.eqb_eq.
  change FKO_LOCAL_NAT_ACCESS_MSG with 5. change FKO_CLIENT_TIMEOUT_LOCAL_NAT_ACCESS_MSG with 6.
  change FKO_NAT_ACCESS_MSG with 2. change FKO_CLIENT_TIMEOUT_NAT_ACCESS_MSG with 4. tauto.
Qed.
Lemma local_iff : local_nat (d_type d) <->
  (d_type d =? FKO_LOCAL_NAT_ACCESS_MSG) || (d_type d =? FKO_CLIENT_TIMEOUT_LOCAL_NAT_ACCESS_MSG) = true.
Proof.
  unfold local_nat. rewrite !orb_true_iff, !Z.eqb_eq.
  change FKO_LOCAL_NAT_ACCESS_MSG with 5. change FKO_CLIENT_TIMEOUT_LOCAL_NAT_ACCESS_MSG with 6. tauto.
Qed.

Theorem spa_access pl cs fw fs :
  ~ wants_nat nc (d_type d) -> requested (d_remain d) pl ->
  names_fit (f_cmd cf) (chain_at 0 cs) -> (c_to (chain_at 1 cs) = [] \/ names_fit (f_cmd cf) (chain_at 1 cs)) ->
  exists cs' fw' fs',
    process_spa_request machine run cf resolve nc d now (cs, (fw, fs)) = Ok (cs', (fw', fs')) /\
    Forall2 same_names cs cs' /\
    grown (access_chains (chain_at 0 cs) (chain_at 1 cs)) (access_rules src dst e (chain_at 0 cs) (chain_at 1 cs) pl) fw fw' /\
    (fs = [] -> fs' = [] /\ forall proto port, In (proto, port) pl ->
       (forall r, opens src dst proto port e (c_target (chain_at 0 cs)) r -> legal K r = true) ->
       exists r, opens src dst proto port e (c_target (chain_at 0 cs)) r /\ present fw' (chain_at 0 cs) r).
Proof.
  intros NN RQ N0 N1. destruct (entries_ok _ _ RQ) as [NE F]. destruct RQ as (items & L & F2).
  unfold process_spa_request. rewrite (expand_port_list_ok _ _ _ L F2).
  destruct pl as [|[p q] pl]; [easy|]. cbv zeta.
  destruct (_ || n_force nc) eqn:B; [exfalso; apply NN, wants_nat_iff, B|].
  rewrite (u32_small e) by lia. destruct dst_word as [WD' LD'].
  exact (open_ports_spec K KO cf src _ WS LS WD' LD' e HE now _ _ _ cs fw fs eq_refl eq_refl N0 N1 F).
Qed.

Lemma nat_address_ok nat ip to : nat_goal nc nat ip to -> nat_address cf resolve nc nat = Ok (Some (ip, to)).
Proof.
  intros (A & T & G). pose proof A as (L & _). unfold nat_address. destruct (n_force nc).
  - destruct G as [-> ->]. do 2 f_equal. f_equal. apply ztake_all. unfold MAX_IPV4_STR_LEN. lia.
  - destruct G as (q & -> & NE & D & E). destruct (address_word ip A) as [W NC].
    pose proof (address_iff2 ip A) as V.
    assert (IX : index_of ","%byte (ip ++ [","%byte] ++ q) = Some (List.length ip)) by (apply index_of_app; auto).
    rewrite IX. cbv zeta. rewrite firstn_app, Nat.sub_diag, firstn_all. cbn [firstn]. rewrite app_nil_r.
    unfold MAX_HOSTNAME_LEN. destruct (Z.leb_spec (zlen ip) 70); [|lia]. cbn [negb].
    destruct (Z.gtb_spec (zlen ip + 1) 70); [lia|]. rewrite V. cbn [bind].
    replace (skipn (S (List.length ip)) (ip ++ [","%byte] ++ q)) with q.
    2:{ replace (S (List.length ip)) with (List.length (ip ++ [","%byte])) by (rewrite app_length; cbn; lia).
        rewrite app_assoc, skipn_app, Nat.sub_diag, skipn_all. reflexivity. }
    rewrite (strtol_wrapper_digits q 0 MAX_PORT); auto; unfold MAX_PORT; try lia. cbn [strtol_ok].
    rewrite E. do 3 f_equal. apply ztake_all. unfold MAX_IPV4_STR_LEN. lia.
Qed.

(** A step that is taken or not, on chain [j] of a configuration with the names of [cs0] *)
Lemma step_opt (b : bool) (res : outcome (state machine)) j (Q : chain -> rule -> Prop) cs0 cs fw fs (P : bytes -> bytes -> rule -> Prop) :
  Forall2 same_names cs0 cs -> (forall c c', same_names c c' -> Q c' = Q c) ->
  (b = true -> step K res (chain_at j cs) (Q (chain_at j cs)) cs fw fs) ->
  (b = true -> forall t n r, within (chain_at j cs0) (Q (chain_at j cs0)) t n r -> P t n r) ->
  exists cs' fw' fs', (if b then res else Ok (cs, (fw, fs))) = Ok (cs', (fw', fs')) /\ Forall2 same_names cs0 cs' /\
    grown (any_chain cs0) P fw fw' /\
    (fs = [] -> fs' = [] /\ ((forall r, legal K r = true) -> b = true -> exists r, Q (chain_at j cs0) r /\ present fw' (chain_at j cs0) r)).
Proof.
  intros S0 QS ST HP. destruct b.
  - destruct (ST eq_refl) as (cs' & fw' & fs' & R & S1 & G & A).
    pose proof (nth_names j _ _ S0) as SN. pose proof (QS _ _ SN) as QE. pose proof SN as (T1 & T2 & T3 & T4 & T5).
    exists cs', fw', fs'. split; auto. split; [eapply names_trans; eauto|]. split.
    + revert G. rewrite QE. apply grown_impl.
      * intros t n I. exists j. unfold is_chain in *. now rewrite T2, T5 in I.
      * intros t n r I. apply HP; auto. unfold within, jump_to in *. now rewrite T2, T3, T5 in I.
    + intro X. destruct (A X) as [Y Z]. split; auto. intros LG _. destruct Z as (r & Hr & Pr); [auto|].
      rewrite QE in Hr. exists r. split; auto. unfold present in *. now rewrite T2, T5 in Pr.
  - exists cs, fw, fs. split; [reflexivity|]. split; auto. split; [apply grown_refl|]. intro X. split; auto. discriminate.
Qed.

Theorem spa_nat_at pl proto port ip to cs fw fs :
  wants_nat nc (d_type d) -> requested (d_remain d) ((proto, port) :: pl) ->
  word ip -> zlen ip <= 15 -> 0 <= to <= 65535 -> nat_address cf resolve nc (match d_nat d with Some n => n | None => [] end) = Ok (Some (ip, to)) ->
  (local_nat (d_type d) -> names_fit (f_cmd cf) (chain_at 0 cs)) ->
  (forall j, (j = 2 \/ j = 3)%nat -> c_to (chain_at j cs) = [] \/ names_fit (f_cmd cf) (chain_at j cs)) ->
  (n_snat nc || f_snat cf = true -> forall j, (j = 4 \/ j = 5)%nat -> names_fit (f_cmd cf) (chain_at j cs)) ->
  zlen (n_snat_ip nc) <= 15 -> zlen (f_snat_ip cf) <= 15 ->
  exists i how cs' fw' fs', snat_how cf nc port i how /\
    process_spa_request machine run cf resolve nc d now (cs, (fw, fs)) = Ok (cs', (fw', fs')) /\
    Forall2 same_names cs cs' /\
    grown (any_chain cs) (nat_rules cf nc (d_type d) cs src dst proto port ip to e i how) fw fw' /\
    (fs = [] -> fs' = [] /\ ((forall r, legal K r = true) ->
       (local_nat (d_type d) -> exists r, opens src dst proto to e (c_target (chain_at 0 cs)) r /\ present fw' (chain_at 0 cs) r) /\
       (~ local_nat (d_type d) -> c_to (chain_at 2 cs) <> [] ->
          exists r, forwards (n_forward_all nc) src proto to e (c_target (chain_at 2 cs)) r /\ present fw' (chain_at 2 cs) r) /\
       (n_no_dnat nc = false -> c_to (chain_at 3 cs) <> [] ->
          exists r, redirects (n_forward_all nc) src dst proto port e (c_target (chain_at 3 cs)) ip to r /\ present fw' (chain_at 3 cs) r) /\
       (n_snat nc || f_snat cf = true ->
          exists r, translates (n_forward_all nc) src proto ip to e (c_target (chain_at i cs)) how r /\ present fw' (chain_at i cs) r))).
Proof.
  intros WN RQ WI LI HT NG N0 N23 N45 L1 L2. destruct (entries_ok _ _ RQ) as [_ F]. inversion F as [|? ? [HP HQ] _]; subst. cbn [fst snd] in HP, HQ.
  destruct RQ as (items & L & F2).
  unfold process_spa_request. rewrite (expand_port_list_ok _ _ _ L F2). cbv zeta.
  rewrite (proj1 wants_nat_iff WN). rewrite (u32_small e) by lia.
  rewrite NG. cbn [bind].
  destruct dst_word as [WD' LD']. change IPT_ANY_IP with ($ "0.0.0.0/0").
  set (D := dst) in *. clearbody D.
  set (loc := (d_type d =? FKO_LOCAL_NAT_ACCESS_MSG) || (d_type d =? FKO_CLIENT_TIMEOUT_LOCAL_NAT_ACCESS_MSG)).
  assert (LOC : local_nat (d_type d) <-> loc = true) by apply local_iff. clearbody loc.
  destruct (snat_choice cf port HQ nc L1 L2) as (how0 & sp0 & _ & _ & _ & _ & _ & _ & SH0).
  (* first step *)
  assert (S1 : exists cs1 fw1 fs1,
    (if loc then ipt_rule machine run cf 0 (RULE_ARGS (c_table (chain_at 0 cs)) proto src D to e (c_target (chain_at 0 cs))) e now (cs, (fw, fs))
     else if negb (zlen (c_to (chain_at 2 cs)) =? 0) then forward_access_rule machine run cf nc src proto to e now (cs, (fw, fs))
     else Ok (cs, (fw, fs))) = Ok (cs1, (fw1, fs1)) /\ Forall2 same_names cs cs1 /\
    grown (any_chain cs) (fun t n r =>
      (local_nat (d_type d) /\ within (chain_at 0 cs) (opens src D proto to e (c_target (chain_at 0 cs))) t n r) \/
      (~ local_nat (d_type d) /\ within (chain_at 2 cs) (forwards (n_forward_all nc) src proto to e (c_target (chain_at 2 cs))) t n r)) fw fw1 /\
    (fs = [] -> fs1 = [] /\ ((forall r, legal K r = true) ->
       (local_nat (d_type d) -> exists r, opens src D proto to e (c_target (chain_at 0 cs)) r /\ present fw1 (chain_at 0 cs) r) /\
       (~ local_nat (d_type d) -> c_to (chain_at 2 cs) <> [] ->
          exists r, forwards (n_forward_all nc) src proto to e (c_target (chain_at 2 cs)) r /\ present fw1 (chain_at 2 cs) r)))).
  { destruct loc.
    - assert (LT : local_nat (d_type d)) by now apply LOC.
      destruct (step_opt true (ipt_rule machine run cf 0 (RULE_ARGS (c_table (chain_at 0 cs)) proto src D to e (c_target (chain_at 0 cs))) e now (cs, (fw, fs)))
        0 (fun c => opens src D proto to e (c_target c)) cs cs fw fs
        (fun t n r => (local_nat (d_type d) /\ within (chain_at 0 cs) (opens src D proto to e (c_target (chain_at 0 cs))) t n r) \/
      (~ local_nat (d_type d) /\ within (chain_at 2 cs) (forwards (n_forward_all nc) src proto to e (c_target (chain_at 2 cs))) t n r)))
        as (cs1 & fw1 & fs1 & R & SN & G & A).
      + apply names_refl.
      + intros c c' (-> & _). reflexivity.
      + intros _. apply local_spec; auto.
      + intros _ t n r W. left. auto.
      + exists cs1, fw1, fs1. split; [exact R|]. split; [exact SN|]. split; [exact G|]. intro X. destruct (A X) as [Y Z]. split; auto.
        intro LG. split; [intros _; apply Z; auto|]. intro NL. contradiction.
    - assert (NL : ~ local_nat (d_type d)) by (intro Q; apply LOC in Q; discriminate).
      destruct (step_opt (negb (zlen (c_to (chain_at 2 cs)) =? 0)) (forward_access_rule machine run cf nc src proto to e now (cs, (fw, fs)))
        2 (fun c => forwards (n_forward_all nc) src proto to e (c_target c)) cs cs fw fs
        (fun t n r => (local_nat (d_type d) /\ within (chain_at 0 cs) (opens src D proto to e (c_target (chain_at 0 cs))) t n r) \/
      (~ local_nat (d_type d) /\ within (chain_at 2 cs) (forwards (n_forward_all nc) src proto to e (c_target (chain_at 2 cs))) t n r)))
        as (cs1 & fw1 & fs1 & R & SN & G & A).
      + apply names_refl.
      + intros c c' (-> & _). reflexivity.
      + intros NZ. apply forward_spec with (port := port) (ip := ip); auto; try lia.
        destruct (N23 2%nat (or_introl eq_refl)) as [Q|Q]; auto. rewrite Q in NZ. discriminate.
      + intros _ t n r W. right. auto.
      + exists cs1, fw1, fs1. split; [exact R|]. split; [exact SN|]. split; [exact G|]. intro X. destruct (A X) as [Y Z]. split; auto.
        intro LG. split; [intro Q; contradiction|]. intros _ NE. apply Z; auto.
        destruct (Z.eqb_spec (zlen (c_to (chain_at 2 cs))) 0) as [Q|Q]; [|reflexivity].
        exfalso. apply NE, zlen_0, Q. }
  destruct S1 as (cs1 & fw1 & fs1 & R1 & SN1 & G1 & A1).
  pose proof (nth_names 3 _ _ SN1) as SM. pose proof SM as (T1 & T2 & T3 & T4 & T5).
  destruct (step_opt (negb (zlen (c_to (chain_at 3 cs1)) =? 0) && negb (n_no_dnat nc))
      (dnat_rule machine run cf nc src D ip to proto port e now (cs1, (fw1, fs1)))
      3 (fun c => redirects (n_forward_all nc) src D proto port e (c_target c) ip to) cs cs1 fw1 fs1
      (fun t n r => n_no_dnat nc = false /\
         within (chain_at 3 cs) (redirects (n_forward_all nc) src D proto port e (c_target (chain_at 3 cs)) ip to) t n r))
    as (cs2 & fw2 & fs2 & R2 & SN2 & G2 & A2).
  { exact SN1. }
  { intros c c' (-> & _). reflexivity. }
  { intros B. apply dnat_spec; auto; try lia. apply andb_true_iff in B. destruct B as [B _].
    destruct (N23 3%nat (or_intror eq_refl)) as [Q|Q]; [rewrite T5, Q in B; discriminate|]. eapply names_fit_same; eauto. }
  { intros B t n r W. split; auto. apply andb_true_iff in B. destruct B as [_ B]. destruct (n_no_dnat nc); [discriminate|reflexivity]. }
  assert (SAME : forall j, same_names (chain_at j cs) (chain_at j cs2)) by (intro; apply nth_names; auto).
  assert (S3 : exists i how cs3 fw3 fs3, snat_how cf nc port i how /\
    (n_snat nc || f_snat cf = true \/ i = fst (snat_target cf nc port) /\ how = how0) /\
    (if n_snat nc || f_snat cf then snat_rule machine run cf nc src ip to proto port e now (cs2, (fw2, fs2)) else Ok (cs2, (fw2, fs2)))
      = Ok (cs3, (fw3, fs3)) /\ Forall2 same_names cs cs3 /\
    grown (any_chain cs) (fun t n r => n_snat nc || f_snat cf = true /\
       within (chain_at i cs) (translates (n_forward_all nc) src proto ip to e (c_target (chain_at i cs)) how) t n r) fw2 fw3 /\
    (fs2 = [] -> fs3 = [] /\ ((forall r, legal K r = true) -> n_snat nc || f_snat cf = true ->
       exists r, translates (n_forward_all nc) src proto ip to e (c_target (chain_at i cs)) how r /\ present fw3 (chain_at i cs) r))).
  { destruct (n_snat nc || f_snat cf) eqn:SB.
    - destruct (snat_spec K KO cf src WS LS e HE proto port HP HQ ip WI ltac:(lia) to HT nc L1 L2 now cs2 fw2 fs2) as (i & how & SH & ST).
      { intros j Hj. eapply names_fit_same; [apply SAME|]. apply N45; auto. }
      destruct (step_opt true (snat_rule machine run cf nc src ip to proto port e now (cs2, (fw2, fs2))) i
        (fun c => translates (n_forward_all nc) src proto ip to e (c_target c) how) cs cs2 fw2 fs2
        (fun t n r => true = true /\ within (chain_at i cs) (translates (n_forward_all nc) src proto ip to e (c_target (chain_at i cs)) how) t n r))
        as (cs3 & fw3 & fs3 & R3 & SN3 & G3 & A3); auto.
      { intros c c' (-> & _). reflexivity. }
      exists i, how, cs3, fw3, fs3. auto 10.
    - exists (fst (snat_target cf nc port)), how0, cs2, fw2, fs2. split; auto. split; auto. split; [reflexivity|]. split; auto.
      split; [apply grown_refl|]. intro X. split; auto. intros _ Q. discriminate. }
  destruct S3 as (i & how & cs3 & fw3 & fs3 & SH & IH & R3 & SN3 & G3 & A3).
  exists i, how, cs3, fw3, fs3. split; auto. split.
  { cbn [fst]. match goal with |- bind ?x _ = _ => match type of R1 with ?l = _ => change x with l end end. rewrite R1. cbn [bind fst].
    match goal with |- bind ?x _ = _ => match type of R2 with ?l = _ => change x with l end end. rewrite R2. cbn [bind]. exact R3. }
  split; auto. split.
  { apply (grown_trans _ _ _ fw1); [|apply (grown_trans _ _ _ fw2)].
    - revert G1. apply grown_impl; auto. intros t n r [X|X]; [left|right; left]; exact X.
    - revert G2. apply grown_impl; auto. intros t n r X. right. right. left. exact X.
    - revert G3. apply grown_impl; auto. intros t n r X. right. right. right. exact X. }
  intro X. destruct (A1 X) as [X1 B1]. destruct (A2 X1) as [X2 B2]. destruct (A3 X2) as [X3 B3]. split; auto.
  intro LG. specialize (B1 LG). specialize (B2 LG). specialize (B3 LG). destruct B1 as [B1 B1'].
  split. { intro Q. destruct (B1 Q) as (r & O & P). exists r. split; auto. apply (there_grown _ _ _ _ _ _ G3). apply (there_grown _ _ _ _ _ _ G2). exact P. }
  split. { intros Q Q'. destruct (B1' Q Q') as (r & O & P). exists r. split; auto. apply (there_grown _ _ _ _ _ _ G3). apply (there_grown _ _ _ _ _ _ G2). exact P. }
  split. { intros Q Q'. destruct B2 as (r & O & P).
    - rewrite Q, T5. destruct (Z.eqb_spec (zlen (c_to (chain_at 3 cs))) 0) as [Y|Y]; [|reflexivity].
      exfalso. apply Q', zlen_0, Y.
    - exists r. split; auto. apply (there_grown _ _ _ _ _ _ G3). exact P. }
  exact B3.
Qed.
Theorem spa_nat pl proto port ip to cs fw fs :
  wants_nat nc (d_type d) -> requested (d_remain d) ((proto, port) :: pl) ->
  nat_goal nc (match d_nat d with Some n => n | None => [] end) ip to ->
  (local_nat (d_type d) -> names_fit (f_cmd cf) (chain_at 0 cs)) ->
  (forall j, (j = 2 \/ j = 3)%nat -> c_to (chain_at j cs) = [] \/ names_fit (f_cmd cf) (chain_at j cs)) ->
  (n_snat nc || f_snat cf = true -> forall j, (j = 4 \/ j = 5)%nat -> names_fit (f_cmd cf) (chain_at j cs)) ->
  zlen (n_snat_ip nc) <= 15 -> zlen (f_snat_ip cf) <= 15 ->
  exists i how cs' fw' fs', snat_how cf nc port i how /\
    process_spa_request machine run cf resolve nc d now (cs, (fw, fs)) = Ok (cs', (fw', fs')) /\
    Forall2 same_names cs cs' /\
    grown (any_chain cs) (nat_rules cf nc (d_type d) cs src dst proto port ip to e i how) fw fw' /\
    (fs = [] -> fs' = [] /\ ((forall r, legal K r = true) ->
       (local_nat (d_type d) -> exists r, opens src dst proto to e (c_target (chain_at 0 cs)) r /\ present fw' (chain_at 0 cs) r) /\
       (~ local_nat (d_type d) -> c_to (chain_at 2 cs) <> [] ->
          exists r, forwards (n_forward_all nc) src proto to e (c_target (chain_at 2 cs)) r /\ present fw' (chain_at 2 cs) r) /\
       (n_no_dnat nc = false -> c_to (chain_at 3 cs) <> [] ->
          exists r, redirects (n_forward_all nc) src dst proto port e (c_target (chain_at 3 cs)) ip to r /\ present fw' (chain_at 3 cs) r) /\
       (n_snat nc || f_snat cf = true ->
          exists r, translates (n_forward_all nc) src proto ip to e (c_target (chain_at i cs)) how r /\ present fw' (chain_at i cs) r))).
Proof.
  intros WN RQ NG. pose proof NG as (AT & HT & _). destruct (address_word ip AT) as [WI _]. pose proof (proj1 AT) as LI. apply (spa_nat_at pl); auto; [lia|]. now apply nat_address_ok.
Qed.
End Whole.
