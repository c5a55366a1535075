(** Proofs about the daemon with an iptables without -C: NAT requests. *)
From Verif Require Import Bytes M_util M_message M_codec M_access M_cycle M_incoming M_packet M_fw M_extcmd
  S_text S_access S_incoming S_fw S_extcmd P_bytes P_util P_util2 P_access P_incoming5 P_fw P_fw2 P_fw3 P_fw4 P_fw5 P_fw6 P_fw7 P_fw8 P_fw9 P_fw10 M_old S_old P_old P_old2.
From Coq Require Import Init.Byte List ZArith Bool Lia.
Import ListNotations.
Open Scope Z_scope.

Ltac fits := cbn [join app]; rewrite ?zlen_app;
  repeat match goal with |- context [zlen (str ?s)] => let v := eval vm_compute in (zlen (str s)) in change (zlen (str s)) with v end;
  change (zlen mark) with 5; change (zlen [" "%byte]) with 1; change (zlen [":"%byte]) with 1; lia.

Section Nat.
Variable K : iptables.
Variable cf : fwconf.
Notation run := (run_iptables K).
Variables src dst : bytes.
Hypothesis WS : word src. Hypothesis LS : zlen src <= 15.
Hypothesis WD : word dst. Hypothesis LD : zlen dst <= 15.
Variable e : Z.
Hypothesis HE : 0 <= e < 4294967296.
Variables proto port : Z.
Hypothesis HP : 0 <= proto <= 255. Hypothesis HQ : 0 <= port <= 65535.
Variable ip : bytes.
Hypothesis WI : word ip. Hypothesis LI : zlen ip <= 15.
Variable to : Z.
Hypothesis HT : 0 <= to <= 65535.
Variable nc : nat_conf.


(** What one step does: [c] is the chain, [Q] what the rule satisfies *)
Definition step_old (res : outcome (state machine)) (c : chain) (Q : rule -> Prop) (cs : list chain) (fw : firewall) (fs : list fate) : Prop :=
  exists cs' fw' fs',
    res = Ok (cs', (fw', fs')) /\ Forall2 same_names cs cs' /\ grown (is_chain c) (within c Q) fw fw' /\ (fs = [] -> fs' = []).

Lemma step_old_at i c rl r sp q now cs fw fs (Q : rule -> Prop) :
  chain_at i cs = c -> names_fit (f_cmd cf) c ->
  rl = rule_text (c_table c) r ++ sp -> Forall word r -> r <> [] -> Forall blank sp -> zlen r < 20 ->
  zlen (f_cmd cf) + zlen (c_to c) + zlen rl + 5 <= 254 -> Q r ->
  step_old (ipt_rule_old machine run cf i (fmt rl) q e now (cs, (fw, fs))) c Q cs fw fs.
Proof.
  intros HC NF E W NE B N L HQ'. pose proof NF as (W1 & W2 & W3 & W4 & W5 & J & UM & L0).
  pose proof (zlen_nonneg (f_cmd cf)). pose proof (zlen_nonneg (c_to c)). rewrite fmt_id by lia.
  destruct (ipt_rule_old_spec K cf i c rl r sp q e now cs fw fs) as (cs' & fw' & fs' & R & S1 & G & A); auto.
  exists cs', fw', fs'. split; auto. split; auto. split; [apply (grown_one c Q r); auto; apply W4|].
  intro X. apply (A X).
Qed.

Ltac nums :=
  assert (NE : numeral e (dec e)) by (apply dec_num; lia); assert (LE : zlen (dec e) <= 10) by (apply dec_len10; lia);
  assert (NP : numeral proto (dec proto)) by (apply dec_num; lia); assert (LP : zlen (dec proto) <= 5) by (apply dec_len5; lia);
  assert (NQ : numeral port (dec port)) by (apply dec_num; lia); assert (LQ : zlen (dec port) <= 5) by (apply dec_len5; lia);
  assert (NT : numeral to (dec to)) by (apply dec_num; lia); assert (LT : zlen (dec to) <= 5) by (apply dec_len5; lia);
  assert (WX : word (mark ++ dec e)) by (apply mark_word; apply NE);
  assert (WY : word (ip ++ [":"%byte] ++ dec to)) by (apply colon_word; auto; eapply numeral_word; eauto).
Ltac gen := rewrite ?dec_i_dec by lia; change EXPIRE_COMMENT_PREFIX with mark;
  set (dp := dec proto) in *; set (dq := dec port) in *; set (dx := dec e) in *; set (dt := dec to) in *; clearbody dp dq dx dt.
Ltac text := gen; cbn [app]; rewrite ?app_nil_r; unfold rule_text, expiring; cbn [join app]; do 14 (rewrite <- ?app_assoc; cbn [app]); reflexivity.

Lemma forward_old c now cs fw fs : chain_at 2 cs = c -> names_fit (f_cmd cf) c ->
  step_old (forward_access_rule_old machine run cf nc src proto to e now (cs, (fw, fs))) c
       (forwards (n_forward_all nc) src proto to e (c_target c)) cs fw fs.
Proof.
  intros HC NF. pose proof NF as (W1 & W2 & W3 & W4 & W5 & J & UM & L). nums.
  pose proof (zlen_nonneg (c_from c)). unfold forward_access_rule_old. cbn [fst]. rewrite HC.
  destruct (n_forward_all nc) eqn:ALL.
  - apply (step_old_at 2 c _ ([$ "-s"; src] ++ expiring (dec e) (c_target c)) [] _); auto.
    + unfold FWD_ALL_RULE_ARGS, expire_args. text.
    + unfold expiring. cbn [app]. words_ok.
    + discriminate.
    + reflexivity.
    + unfold FWD_ALL_RULE_ARGS, expire_args. gen. fits.
    + exists (dec proto), (dec to), (dec e). auto.
  - apply (step_old_at 2 c _ ([$ "-p"; dec proto; $ "-s"; src; $ "--dport"; dec to] ++ expiring (dec e) (c_target c)) [] _); auto.
    + unfold FWD_RULE_ARGS, expire_args. text.
    + unfold expiring. cbn [app]. words_ok.
    + discriminate.
    + reflexivity.
    + unfold FWD_RULE_ARGS, expire_args. gen. fits.
    + exists (dec proto), (dec to), (dec e). auto.
Qed.

Lemma dnat_old c now cs fw fs : chain_at 3 cs = c -> names_fit (f_cmd cf) c ->
  step_old (dnat_rule_old machine run cf nc src dst ip to proto port e now (cs, (fw, fs))) c
       (redirects (n_forward_all nc) src dst proto port e (c_target c) ip to) cs fw fs.
Proof.
  intros HC NF. pose proof NF as (W1 & W2 & W3 & W4 & W5 & J & UM & L). nums.
  pose proof (zlen_nonneg (c_from c)). unfold dnat_rule_old. cbn [fst]. rewrite HC.
  destruct (n_forward_all nc) eqn:ALL.
  - apply (step_old_at 3 c _ ([$ "-s"; src; $ "-d"; dst] ++ expiring (dec e) (c_target c) ++ [$ "--to-destination"; ip]) [] _); auto.
    + unfold DNAT_ALL_RULE_ARGS, expire_args. text.
    + unfold expiring. cbn [app]. words_ok.
    + discriminate.
    + reflexivity.
    + unfold DNAT_ALL_RULE_ARGS, expire_args. gen. fits.
    + exists (dec proto), (dec port), (dec e), (dec to). auto.
  - apply (step_old_at 3 c _ ([$ "-p"; dec proto; $ "-s"; src; $ "-d"; dst; $ "--dport"; dec port] ++ expiring (dec e) (c_target c)
             ++ [$ "--to-destination"; ip ++ [":"%byte] ++ dec to]) [] _); auto.
    + unfold DNAT_RULE_ARGS, expire_args. text.
    + unfold expiring. cbn [app]. words_ok.
    + discriminate.
    + reflexivity.
    + unfold DNAT_RULE_ARGS, expire_args. gen. fits.
    + exists (dec proto), (dec port), (dec e), (dec to). auto 6.
Qed.

Lemma local_old c q now cs fw fs : chain_at 0 cs = c -> names_fit (f_cmd cf) c ->
  step_old (ipt_rule_old machine run cf 0 (RULE_ARGS (c_table c) proto src dst to e (c_target c)) q e now (cs, (fw, fs))) c
       (opens src dst proto to e (c_target c)) cs fw fs.
Proof.
  intros HC NF. pose proof NF as (W1 & W2 & W3 & W4 & W5 & J & UM & L). nums. pose proof (zlen_nonneg (c_from c)). pose proof (zlen_nonneg (c_table c)). pose proof (zlen_nonneg (c_target c)).
  assert (LL : zlen (f_cmd cf) + zlen (c_to c) + zlen (RULE_ARGS (c_table c) proto src dst to e (c_target c)) + 5 <= 254).
  { unfold RULE_ARGS, expire_args. gen. fits. }
  pose proof (zlen_nonneg (f_cmd cf)). pose proof (zlen_nonneg (c_to c)).
  rewrite <- (fmt_id (RULE_ARGS (c_table c) proto src dst to e (c_target c))) by lia.
  apply (step_old_at 0 c _ (access_rule src dst (dec proto) (dec to) (dec e) (c_target c)) [] q); auto.
  - unfold RULE_ARGS, expire_args, access_rule. text.
  - unfold access_rule, expiring. cbn [app]. words_ok.
  - discriminate.
  - reflexivity.
  - apply access_opens; auto.
Qed.
Hypothesis LN : zlen (n_snat_ip nc) <= 15.
Hypothesis LF : zlen (f_snat_ip cf) <= 15.
Lemma snat_old now cs fw fs :
  (forall i, (i = 4 \/ i = 5)%nat -> names_fit (f_cmd cf) (chain_at i cs)) ->
  exists i how, snat_how cf nc port i how /\
  step_old (snat_rule_old machine run cf nc src ip to proto port e now (cs, (fw, fs))) (chain_at i cs)
       (translates (n_forward_all nc) src proto ip to e (c_target (chain_at i cs)) how) cs fw fs.
Proof.
  intro NFS. unfold snat_rule_old. destruct (snat_choice cf port HQ nc LN LF) as (how & sp & E & B & WH & HS & L1 & L2 & SH).
  destruct (snat_target cf nc port) as [i txt]. cbn [fst snd] in *. exists i, how. split; auto.
  assert (NF : names_fit (f_cmd cf) (chain_at i cs)) by (apply NFS; inversion SH; auto).
  set (c := chain_at i cs) in *. assert (HC : chain_at i cs = c) by reflexivity. clearbody c.
  pose proof NF as (W1 & W2 & W3 & W4 & W5 & J & UM & L). nums.
  pose proof (zlen_nonneg (c_from c)). 
  destruct (n_forward_all nc) eqn:ALL.
  - apply (step_old_at i c _ ([$ "-s"; src] ++ expiring (dec e) (c_target c) ++ how) (match how with [] => [" "%byte] ++ sp | _ => sp end) _); auto.
    + unfold SNAT_ALL_RULE_ARGS, expire_args. rewrite E. destruct how as [|h how]; text.
    + unfold expiring. cbn [app]. repeat (apply Forall_cons; [first [assumption | lit]|]). exact WH.
    + discriminate.
    + destruct how; auto. constructor; auto. left; reflexivity.
    + rewrite !zlen_app. unfold expiring. rewrite !zlen_cons, zlen_nil. lia.
    + unfold SNAT_ALL_RULE_ARGS, expire_args. clear E. gen. fits.
    + exists (dec proto), (dec to), (dec e). auto.
  - apply (step_old_at i c _ ([$ "-p"; dec proto; $ "-d"; ip; $ "--dport"; dec to] ++ expiring (dec e) (c_target c) ++ how) (match how with [] => [" "%byte] ++ sp | _ => sp end) _); auto.
    + unfold SNAT_RULE_ARGS, expire_args. rewrite E. destruct how as [|h how]; text.
    + unfold expiring. cbn [app]. repeat (apply Forall_cons; [first [assumption | lit | eapply numeral_word; eassumption]|]). exact WH.
    + discriminate.
    + destruct how; auto. constructor; auto. left; reflexivity.
    + rewrite !zlen_app. unfold expiring. rewrite !zlen_cons, zlen_nil. lia.
    + unfold SNAT_RULE_ARGS, expire_args. clear E. gen. fits.
    + exists (dec proto), (dec to), (dec e). auto.
Qed.
End Nat.

(** A step that is taken or not, on chain [j] of a configuration with the names of [cs0] *)
Lemma step_old_opt (b : bool) (res : outcome (state machine)) j (Q : chain -> rule -> Prop) cs0 cs fw fs (P : bytes -> bytes -> rule -> Prop) :
  Forall2 same_names cs0 cs -> (forall c c', same_names c c' -> Q c' = Q c) ->
  (b = true -> step_old res (chain_at j cs) (Q (chain_at j cs)) cs fw fs) ->
  (b = true -> forall t n r, within (chain_at j cs0) (Q (chain_at j cs0)) t n r -> P t n r) ->
  exists cs' fw' fs', (if b then res else Ok (cs, (fw, fs))) = Ok (cs', (fw', fs')) /\ Forall2 same_names cs0 cs' /\
    grown (any_chain cs0) P fw fw' /\ (fs = [] -> fs' = []).
Proof.
  intros S0 QS ST HP. destruct b.
  - destruct (ST eq_refl) as (cs' & fw' & fs' & R & S1 & G & A).
    pose proof (nth_names j _ _ S0) as SN. pose proof (QS _ _ SN) as QE. pose proof SN as (T1 & T2 & T3 & T4 & T5).
    exists cs', fw', fs'. split; auto. split; [eapply names_trans; eauto|]. split; [|exact A].
    revert G. rewrite QE. apply grown_impl.
    + intros t n I. exists j. unfold is_chain in *. now rewrite T2, T5 in I.
    + intros t n r I. apply HP; auto. unfold within, jump_to in *. now rewrite T2, T3, T5 in I.
  - exists cs, fw, fs. split; [reflexivity|]. split; auto. split; [apply grown_refl|auto].
Qed.

Section Whole.
Variable K : iptables.
Variable cf : fwconf.
Variable resolve : bytes -> option bytes.
Notation run := (run_iptables K).
Variable nc : nat_conf.
Variable d : spa_data.
Variable now : Z.
Notation e := (now + d_timeout d).
Notation src := (d_use d).
Notation dst := (if f_use_dst cf then d_pkt_dst d else $ "0.0.0.0/0").
Hypothesis WS : word src. Hypothesis LS : zlen src <= 15.
Hypothesis WD : word (d_pkt_dst d). Hypothesis LD : zlen (d_pkt_dst d) <= 15.
Hypothesis HE : 0 <= e < 4294967296.

Theorem spa_nat_old pl proto port ip to cs fw fs :
  wants_nat nc (d_type d) -> requested (d_remain d) ((proto, port) :: pl) ->
  nat_goal nc (match d_nat d with Some n => n | None => [] end) ip to ->
  (local_nat (d_type d) -> names_fit (f_cmd cf) (chain_at 0 cs)) ->
  (forall j, (j = 2 \/ j = 3)%nat -> c_to (chain_at j cs) = [] \/ names_fit (f_cmd cf) (chain_at j cs)) ->
  (n_snat nc || f_snat cf = true -> forall j, (j = 4 \/ j = 5)%nat -> names_fit (f_cmd cf) (chain_at j cs)) ->
  zlen (n_snat_ip nc) <= 15 -> zlen (f_snat_ip cf) <= 15 ->
  exists i how cs' fw' fs', snat_how cf nc port i how /\
    process_spa_request_old machine run cf resolve nc d now (cs, (fw, fs)) = Ok (cs', (fw', fs')) /\
    Forall2 same_names cs cs' /\
    grown (any_chain cs) (nat_rules cf nc (d_type d) cs src dst proto port ip to e i how) fw fw' /\ (fs = [] -> fs' = []).
Proof.
  intros WN RQ NG N0 N23 N45 L1 L2. pose proof NG as (AT & HT & _). destruct (address_word ip AT) as [WI _]. pose proof (proj1 AT) as LI.
  destruct (entries_ok _ _ RQ) as [_ F]. inversion F as [|? ? [HP HQ] _]; subst. cbn [fst snd] in HP, HQ.
  destruct RQ as (items & L & F2).
  unfold process_spa_request_old. rewrite (expand_port_list_ok _ _ _ L F2). cbv zeta.
  rewrite (proj1 (wants_nat_iff nc d now HE) WN). rewrite (u32_small e) by lia.
  rewrite (nat_address_ok cf resolve nc _ _ _ NG). cbn [bind].
  destruct (dst_word cf d WD LD) as [WD' LD']. change IPT_ANY_IP with ($ "0.0.0.0/0").
  set (D := dst) in *. clearbody D.
  set (loc := (d_type d =? FKO_LOCAL_NAT_ACCESS_MSG) || (d_type d =? FKO_CLIENT_TIMEOUT_LOCAL_NAT_ACCESS_MSG)).
  assert (LOC : local_nat (d_type d) <-> loc = true) by apply (local_iff d now HE). clearbody loc.
  destruct (snat_choice cf port HQ nc L1 L2) as (how0 & sp0 & _ & _ & _ & _ & _ & _ & SH0).
  assert (S1 : exists cs1 fw1 fs1,
    (if loc then ipt_rule_old machine run cf 0 (RULE_ARGS (c_table (chain_at 0 cs)) proto src D to e (c_target (chain_at 0 cs)))
                   (mkWant proto (Some src) (Some D) to (Some ip) to e (c_target (chain_at 0 cs))) e now (cs, (fw, fs))
     else if negb (zlen (c_to (chain_at 2 cs)) =? 0) then forward_access_rule_old machine run cf nc src proto to e now (cs, (fw, fs))
     else Ok (cs, (fw, fs))) = Ok (cs1, (fw1, fs1)) /\ Forall2 same_names cs cs1 /\
    grown (any_chain cs) (fun t n r =>
      (local_nat (d_type d) /\ within (chain_at 0 cs) (opens src D proto to e (c_target (chain_at 0 cs))) t n r) \/
      (~ local_nat (d_type d) /\ within (chain_at 2 cs) (forwards (n_forward_all nc) src proto to e (c_target (chain_at 2 cs))) t n r)) fw fw1 /\
    (fs = [] -> fs1 = [])).
  { destruct loc.
    - assert (LT : local_nat (d_type d)) by now apply LOC.
      apply (step_old_opt true (ipt_rule_old machine run cf 0 (RULE_ARGS (c_table (chain_at 0 cs)) proto src D to e (c_target (chain_at 0 cs)))
                   (mkWant proto (Some src) (Some D) to (Some ip) to e (c_target (chain_at 0 cs))) e now (cs, (fw, fs)))
        0 (fun c => opens src D proto to e (c_target c)) cs cs fw fs).
      + apply names_refl.
      + intros c c' (-> & _). reflexivity.
      + intros _. apply (local_old K cf src D WS LS WD' LD' e HE proto port HP HQ ip WI to HT); auto.
      + intros _ t n r W. left. auto.
    - assert (NL : ~ local_nat (d_type d)) by (intro Q; apply LOC in Q; discriminate).
      apply (step_old_opt (negb (zlen (c_to (chain_at 2 cs)) =? 0)) (forward_access_rule_old machine run cf nc src proto to e now (cs, (fw, fs)))
        2 (fun c => forwards (n_forward_all nc) src proto to e (c_target c)) cs cs fw fs).
      + apply names_refl.
      + intros c c' (-> & _). reflexivity.
      + intros NZ. apply (forward_old K cf src WS LS e HE proto port HP HQ ip WI to HT); auto.
        destruct (N23 2%nat (or_introl eq_refl)) as [Q|Q]; auto. rewrite Q in NZ. discriminate.
      + intros _ t n r W. right. auto. }
  destruct S1 as (cs1 & fw1 & fs1 & R1 & SN1 & G1 & A1).
  pose proof (nth_names 3 _ _ SN1) as SM. pose proof SM as (T1 & T2 & T3 & T4 & T5).
  destruct (step_old_opt (negb (zlen (c_to (chain_at 3 cs1)) =? 0) && negb (n_no_dnat nc))
      (dnat_rule_old machine run cf nc src D ip to proto port e now (cs1, (fw1, fs1)))
      3 (fun c => redirects (n_forward_all nc) src D proto port e (c_target c) ip to) cs cs1 fw1 fs1
      (fun t n r => n_no_dnat nc = false /\
         within (chain_at 3 cs) (redirects (n_forward_all nc) src D proto port e (c_target (chain_at 3 cs)) ip to) t n r))
    as (cs2 & fw2 & fs2 & R2 & SN2 & G2 & A2).
  { exact SN1. }
  { intros c c' (-> & _). reflexivity. }
  { intros B. apply (dnat_old K cf src D WS LS WD' LD' e HE proto port HP HQ ip WI (proj2 LI) to HT); auto. apply andb_true_iff in B. destruct B as [B _].
    destruct (N23 3%nat (or_intror eq_refl)) as [Q|Q]; [rewrite T5, Q in B; discriminate|]. eapply names_fit_same; eauto. }
  { intros B t n r W. split; auto. apply andb_true_iff in B. destruct B as [_ B]. destruct (n_no_dnat nc); [discriminate|reflexivity]. }
  assert (SAME : forall j, same_names (chain_at j cs) (chain_at j cs2)) by (intro; apply nth_names; auto).
  assert (S3 : exists i how cs3 fw3 fs3, snat_how cf nc port i how /\
    (if n_snat nc || f_snat cf then snat_rule_old machine run cf nc src ip to proto port e now (cs2, (fw2, fs2)) else Ok (cs2, (fw2, fs2)))
      = Ok (cs3, (fw3, fs3)) /\ Forall2 same_names cs cs3 /\
    grown (any_chain cs) (fun t n r => n_snat nc || f_snat cf = true /\
       within (chain_at i cs) (translates (n_forward_all nc) src proto ip to e (c_target (chain_at i cs)) how) t n r) fw2 fw3 /\
    (fs2 = [] -> fs3 = [])).
  { destruct (n_snat nc || f_snat cf) eqn:SB.
    - destruct (snat_old K cf src WS LS e HE proto port HP HQ ip WI (proj2 LI) to HT nc L1 L2 now cs2 fw2 fs2) as (i & how & SH & ST).
      { intros j Hj. eapply names_fit_same; [apply SAME|]. apply N45; auto. }
      destruct (step_old_opt true (snat_rule_old machine run cf nc src ip to proto port e now (cs2, (fw2, fs2))) i
        (fun c => translates (n_forward_all nc) src proto ip to e (c_target c) how) cs cs2 fw2 fs2
        (fun t n r => true = true /\ within (chain_at i cs) (translates (n_forward_all nc) src proto ip to e (c_target (chain_at i cs)) how) t n r))
        as (cs3 & fw3 & fs3 & R3 & SN3 & G3 & A3); auto.
      { intros c c' (-> & _). reflexivity. }
      exists i, how, cs3, fw3, fs3. auto 10.
    - exists (fst (snat_target cf nc port)), how0, cs2, fw2, fs2. split; auto. split; [reflexivity|]. split; auto.
      split; [apply grown_refl|auto]. }
  destruct S3 as (i & how & cs3 & fw3 & fs3 & SH & R3 & SN3 & G3 & A3).
  exists i, how, cs3, fw3, fs3. split; auto. split.
  { cbn [fst]. match goal with |- bind ?x _ = _ => match type of R1 with ?l = _ => change x with l end end. rewrite R1. cbn [bind fst].
    match goal with |- bind ?x _ = _ => match type of R2 with ?l = _ => change x with l end end. rewrite R2. cbn [bind]. exact R3. }
  split; auto. split; [|auto].
  apply (grown_trans _ _ _ fw1); [|apply (grown_trans _ _ _ fw2)].
  - revert G1. apply grown_impl; auto. intros t n r [X|X]; [left|right; left]; exact X.
  - revert G2. apply grown_impl; auto. intros t n r X. right. right. left. exact X.
  - revert G3. apply grown_impl; auto. intros t n r X. right. right. right. exact X.
Qed.
End Whole.
