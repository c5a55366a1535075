(** Proofs about process_spa_request: NAT. *)
From Verif Require Import Bytes M_util M_message M_codec M_access M_cycle M_incoming M_packet M_fw
  S_text S_access S_incoming S_fw P_bytes P_util P_util2 P_access P_incoming5 P_fw P_fw2 P_fw3 P_fw4 P_fw5 P_fw6 P_fw7 P_fw8.
From Coq Require Import Init.Byte List ZArith Bool Lia.
Import ListNotations.
Open Scope Z_scope.

Lemma octet_digits s v : c_number s v -> all_digits s /\ s <> [].
Proof. intros H. destruct H as (A & B & _). auto. Qed.
Lemma dot_char : ~ blank "."%byte /\ "."%byte <> x00.
Proof. split; [|discriminate]. intros [H|H]; [discriminate|destruct H as [_ H]; vm_compute in H; apply H; reflexivity]. Qed.
Lemma address_chars s a b c d : ipv4_text s a b c d -> Forall (fun x => digit x \/ x = "."%byte) s.
Proof.
  intros (A & B & C & D & -> & NA & NB & NC & ND & _).
  apply octet_digits in NA, NB, NC, ND.
  assert (G : forall x, all_digits x -> Forall (fun x => digit x \/ x = "."%byte) x) by (intros x F; eapply Forall_impl; [|exact F]; auto).
  repeat (apply Forall_app; split); try (apply G; tauto); (constructor; [auto|constructor]).
Qed.
Lemma address_word s : address_text s -> word s /\ ~ In ","%byte s.
Proof.
  intros (L & a & b & c & d & T). pose proof (address_chars _ _ _ _ _ T) as F. split.
  - split; [intros ->; rewrite zlen_nil in L; lia|]. eapply Forall_impl; [|exact F].
    intros x [D| ->]; [now apply digit_not_blank|apply dot_char].
  - intro I. rewrite Forall_forall in F. destruct (F _ I) as [D|D]; [|discriminate]. unfold digit in D. vm_compute in D. destruct D as [D _]. apply D. reflexivity.
Qed.

Lemma grown_one c (Q : rule -> Prop) r fw fw' : c_to c <> [] -> Q r -> grown (mine c) (adds c r) fw fw' ->
  grown (is_chain c) (within c Q) fw fw'.
Proof.
  intros N H. apply grown_impl.
  - intros t n [-> ->]. repeat split; auto.
  - intros t n x [J|(-> & -> & ->)]; split; auto.
Qed.

Notation there := present.
Section Nat.
Variable K : iptables.
Variable KO : iptables_ok K.
Variable cf : fwconf.
Notation run := (run_iptables K).
Variables src dst : bytes.
Hypothesis WS : word src. Hypothesis LS : zlen src <= 15.
Hypothesis WD : word dst. Hypothesis LD : zlen dst <= 15.
Variable e : Z.
Hypothesis HE : 0 <= e < 4294967296.
Variables proto port : Z.
Hypothesis HP : 0 <= proto <= 255. Hypothesis HQ : 0 <= port <= 65535.
Variable ip : bytes.
Hypothesis WI : word ip. Hypothesis LI : zlen ip <= 15.
Variable to : Z.
Hypothesis HT : 0 <= to <= 65535.
Variable nc : nat_conf.

Lemma fmt_fmt s : zlen s <= 254 -> fmt (fmt s) = fmt s.
Proof. intro. rewrite !fmt_id; auto. rewrite fmt_id; auto. Qed.

(** What one step does: [c] is the chain, [Q] what the rule satisfies *)
Definition step (res : outcome (state machine)) (c : chain) (Q : rule -> Prop) (cs : list chain) (fw : firewall) (fs : list fate) : Prop :=
  exists cs' fw' fs',
    res = Ok (cs', (fw', fs')) /\ Forall2 same_names cs cs' /\ grown (is_chain c) (within c Q) fw fw' /\
    (fs = [] -> fs' = [] /\ ((forall r, Q r -> legal K r = true) -> exists r, Q r /\ there fw' c r)).

Lemma step_at i c rl r sp now cs fw fs (Q : rule -> Prop) :
  chain_at i cs = c -> names_fit (f_cmd cf) c ->
  rl = rule_text (c_table c) r ++ sp -> Forall word r -> r <> [] -> Forall blank sp -> zlen r < 20 ->
  zlen (f_cmd cf) + zlen (c_to c) + zlen rl + 5 <= 254 -> Q r ->
  step (ipt_rule machine run cf i (fmt rl) e now (cs, (fw, fs))) c Q cs fw fs.
Proof.
  intros HC NF E W NE B N L HQ'. pose proof NF as (W1 & W2 & W3 & W4 & W5 & J & UM & L0).
  pose proof (zlen_nonneg (f_cmd cf)). pose proof (zlen_nonneg (c_to c)). rewrite fmt_id by lia.
  destruct (ipt_rule_at K KO cf i c rl r sp e now cs fw fs) as (cs' & fw' & fs' & R & S1 & G & A); auto.
  exists cs', fw', fs'. split; auto. split; auto. split; [apply (grown_one c Q r); auto; apply W4|].
  intro X. destruct (A X) as [Y Z]. split; auto. intro LG. exists r. split; auto. apply Z, LG, HQ'.
Qed.

Ltac nums :=
  assert (NE : numeral e (dec e)) by (apply dec_num; lia); assert (LE : zlen (dec e) <= 10) by (apply dec_len10; lia);
  assert (NP : numeral proto (dec proto)) by (apply dec_num; lia); assert (LP : zlen (dec proto) <= 5) by (apply dec_len5; lia);
  assert (NQ : numeral port (dec port)) by (apply dec_num; lia); assert (LQ : zlen (dec port) <= 5) by (apply dec_len5; lia);
  assert (NT : numeral to (dec to)) by (apply dec_num; lia); assert (LT : zlen (dec to) <= 5) by (apply dec_len5; lia);
  assert (WX : word (mark ++ dec e)) by (apply mark_word; apply NE);
  assert (WY : word (ip ++ [":"%byte] ++ dec to)) by (apply colon_word; auto; eapply numeral_word; eauto).
Ltac gen := rewrite ?dec_i_dec by lia; change EXPIRE_COMMENT_PREFIX with mark;
  set (dp := dec proto) in *; set (dq := dec port) in *; set (dx := dec e) in *; set (dt := dec to) in *; clearbody dp dq dx dt.
Ltac text := gen; cbn [app]; rewrite ?app_nil_r; unfold rule_text, expiring; cbn [join app]; do 14 (rewrite <- ?app_assoc; cbn [app]); reflexivity.

Lemma forward_spec c now cs fw fs : chain_at 2 cs = c -> names_fit (f_cmd cf) c ->
  step (forward_access_rule machine run cf nc src proto to e now (cs, (fw, fs))) c
       (forwards (n_forward_all nc) src proto to e (c_target c)) cs fw fs.
Proof.
  intros HC NF. pose proof NF as (W1 & W2 & W3 & W4 & W5 & J & UM & L). nums.
  pose proof (zlen_nonneg (c_from c)). unfold forward_access_rule. cbn [fst]. rewrite HC.
  destruct (n_forward_all nc) eqn:ALL.
  - apply (step_at 2 c _ ([$ "-s"; src] ++ expiring (dec e) (c_target c)) []); auto.
    + unfold FWD_ALL_RULE_ARGS, expire_args. text.
    + unfold expiring. cbn [app]. words_ok.
    + discriminate.
    + reflexivity.
    + unfold FWD_ALL_RULE_ARGS, expire_args. gen. fits.
    + exists (dec proto), (dec to), (dec e). auto.
  - apply (step_at 2 c _ ([$ "-p"; dec proto; $ "-s"; src; $ "--dport"; dec to] ++ expiring (dec e) (c_target c)) []); auto.
    + unfold FWD_RULE_ARGS, expire_args. text.
    + unfold expiring. cbn [app]. words_ok.
    + discriminate.
    + reflexivity.
    + unfold FWD_RULE_ARGS, expire_args. gen. fits.
    + exists (dec proto), (dec to), (dec e). auto.
Qed.

Lemma dnat_spec c now cs fw fs : chain_at 3 cs = c -> names_fit (f_cmd cf) c ->
  step (dnat_rule machine run cf nc src dst ip to proto port e now (cs, (fw, fs))) c
       (redirects (n_forward_all nc) src dst proto port e (c_target c) ip to) cs fw fs.
Proof.
  intros HC NF. pose proof NF as (W1 & W2 & W3 & W4 & W5 & J & UM & L). nums.
  pose proof (zlen_nonneg (c_from c)). unfold dnat_rule. cbn [fst]. rewrite HC.
  destruct (n_forward_all nc) eqn:ALL.
  - apply (step_at 3 c _ ([$ "-s"; src; $ "-d"; dst] ++ expiring (dec e) (c_target c) ++ [$ "--to-destination"; ip]) []); auto.
    + unfold DNAT_ALL_RULE_ARGS, expire_args. text.
    + unfold expiring. cbn [app]. words_ok.
    + discriminate.
    + reflexivity.
    + unfold DNAT_ALL_RULE_ARGS, expire_args. gen. fits.
    + exists (dec proto), (dec port), (dec e), (dec to). auto.
  - apply (step_at 3 c _ ([$ "-p"; dec proto; $ "-s"; src; $ "-d"; dst; $ "--dport"; dec port] ++ expiring (dec e) (c_target c)
             ++ [$ "--to-destination"; ip ++ [":"%byte] ++ dec to]) []); auto.
    + unfold DNAT_RULE_ARGS, expire_args. text.
    + unfold expiring. cbn [app]. words_ok.
    + discriminate.
    + reflexivity.
    + unfold DNAT_RULE_ARGS, expire_args. gen. fits.
    + exists (dec proto), (dec port), (dec e), (dec to). auto 6.
Qed.

Lemma local_spec c now cs fw fs : chain_at 0 cs = c -> names_fit (f_cmd cf) c ->
  step (ipt_rule machine run cf 0 (RULE_ARGS (c_table c) proto src dst to e (c_target c)) e now (cs, (fw, fs))) c
       (opens src dst proto to e (c_target c)) cs fw fs.
Proof.
  intros HC NF. pose proof NF as (_ & _ & _ & W4 & _).
  destruct (in_rule_spec K KO cf src dst WS LS WD LD e HE c proto to now cs fw fs HC NF HP HT) as (cs' & fw' & fs' & R & S1 & G & A).
  pose proof (access_opens src dst e HE proto to (c_target c) HP HT) as O.
  exists cs', fw', fs'. split; auto. split; auto. split; [eapply grown_one; eauto; apply W4|].
  intro X. destruct (A X) as [Y Z]. split; auto. intro LG. eexists. split; [exact O|]. apply Z, LG, O.
Qed.

Hypothesis LN : zlen (n_snat_ip nc) <= 15.
Hypothesis LF : zlen (f_snat_ip cf) <= 15.
Lemma snat_choice : exists how sp, snd (snat_target cf nc port) = join [" "%byte] how ++ sp /\ Forall blank sp /\ Forall word how /\
  (how = [] -> sp = [" "%byte]) /\ zlen (snd (snat_target cf nc port)) <= 27 /\ zlen how <= 2 /\
  snat_how cf nc port (fst (snat_target cf nc port)) how.
Proof.
  assert (NQ : numeral port (dec port)) by (apply dec_num; lia). assert (LQ : zlen (dec port) <= 5) by (apply dec_len5; lia).
  unfold snat_target. rewrite dec_i_dec by lia. set (dq := dec port) in *. clearbody dq.
  assert (ST : forall a, is_valid_ipv4_addr a (zlen a) = true -> zlen a <= 15 -> (n_snat nc = true /\ a = n_snat_ip nc) \/ a = f_snat_ip cf ->
    exists how sp, snprintf (SNAT_TARGET_BUFSIZE - 1) ($ "--to-source " ++ a) = join [" "%byte] how ++ sp /\ Forall blank sp /\ Forall word how /\
      (how = [] -> sp = [" "%byte]) /\ zlen (snprintf (SNAT_TARGET_BUFSIZE - 1) ($ "--to-source " ++ a)) <= 27 /\ zlen how <= 2 /\ snat_how cf nc port 4 how).
  { intros a V L C. pose proof (address_iff a V L) as AT. destruct (address_word a AT) as [W _].
    exists [$ "--to-source"; a], []. unfold snprintf. rewrite ztake_all.
    2:{ rewrite zlen_app. change (zlen ($ "--to-source ")) with 12. change (SNAT_TARGET_BUFSIZE - 1 - 1) with 62. lia. }
    split; [rewrite app_nil_r; reflexivity|]. split; [constructor|]. split; [words_ok|]. split; [discriminate|].
    split; [rewrite zlen_app; change (zlen ($ "--to-source ")) with 12; lia|]. split; [reflexivity|]. constructor; auto. }
  assert (PT : n_forward_all nc = false -> exists how sp, $ "--to-ports " ++ dq = join [" "%byte] how ++ sp /\ Forall blank sp /\ Forall word how /\
      (how = [] -> sp = [" "%byte]) /\ zlen ($ "--to-ports " ++ dq) <= 27 /\ zlen how <= 2 /\ snat_how cf nc port 5 how).
  { intro FA. exists [$ "--to-ports"; dq], []. split; [rewrite app_nil_r; reflexivity|]. split; [constructor|]. split; [words_ok|]. split; [discriminate|].
    split; [rewrite zlen_app; change (zlen ($ "--to-ports ")) with 11; lia|]. split; [reflexivity|]. constructor; auto. }
  destruct (n_snat nc && is_valid_ipv4_addr (n_snat_ip nc) (zlen (n_snat_ip nc))) eqn:B1.
  { apply andb_true_iff in B1. destruct B1. cbn [fst snd]. apply ST; auto. }
  destruct (negb (n_forward_all nc) && n_snat nc && n_masq nc) eqn:B2.
  { cbn [fst snd]. apply PT. destruct (n_forward_all nc); [discriminate|reflexivity]. }
  destruct (is_valid_ipv4_addr (f_snat_ip cf) (zlen (f_snat_ip cf))) eqn:B3.
  { cbn [fst snd]. apply ST; auto. }
  cbn [fst snd]. destruct (n_forward_all nc) eqn:FA; [|apply PT; auto].
  exists [], [" "%byte]. split; [reflexivity|]. split; [constructor; [left; reflexivity|constructor]|]. split; [constructor|]. split; [reflexivity|].
  split; [change (zlen ($ " ")) with 1; lia|]. split; [rewrite zlen_nil; lia|]. constructor; auto.
Qed.

Lemma snat_spec now cs fw fs :
  (forall i, (i = 4 \/ i = 5)%nat -> names_fit (f_cmd cf) (chain_at i cs)) ->
  exists i how, snat_how cf nc port i how /\
  step (snat_rule machine run cf nc src ip to proto port e now (cs, (fw, fs))) (chain_at i cs)
       (translates (n_forward_all nc) src proto ip to e (c_target (chain_at i cs)) how) cs fw fs.
Proof.
  intro NFS. unfold snat_rule. destruct snat_choice as (how & sp & E & B & WH & HS & L1 & L2 & SH).
  destruct (snat_target cf nc port) as [i txt]. cbn [fst snd] in *. exists i, how. split; auto.
  assert (NF : names_fit (f_cmd cf) (chain_at i cs)) by (apply NFS; inversion SH; auto).
  set (c := chain_at i cs) in *. assert (HC : chain_at i cs = c) by reflexivity. clearbody c.
  pose proof NF as (W1 & W2 & W3 & W4 & W5 & J & UM & L). nums.
  pose proof (zlen_nonneg (c_from c)). 
  destruct (n_forward_all nc) eqn:ALL.
  - apply (step_at i c _ ([$ "-s"; src] ++ expiring (dec e) (c_target c) ++ how) (match how with [] => [" "%byte] ++ sp | _ => sp end)); auto.
    + unfold SNAT_ALL_RULE_ARGS, expire_args. rewrite E. destruct how as [|h how]; text.
    + unfold expiring. cbn [app]. repeat (apply Forall_cons; [first [assumption | lit]|]). exact WH.
    + discriminate.
    + destruct how; auto. constructor; auto. left; reflexivity.
    + rewrite !zlen_app. unfold expiring. rewrite !zlen_cons, zlen_nil. lia.
    + unfold SNAT_ALL_RULE_ARGS, expire_args. clear E. gen. fits.
    + exists (dec proto), (dec to), (dec e). auto.
  - apply (step_at i c _ ([$ "-p"; dec proto; $ "-d"; ip; $ "--dport"; dec to] ++ expiring (dec e) (c_target c) ++ how) (match how with [] => [" "%byte] ++ sp | _ => sp end)); auto.
    + unfold SNAT_RULE_ARGS, expire_args. rewrite E. destruct how as [|h how]; text.
    + unfold expiring. cbn [app]. repeat (apply Forall_cons; [first [assumption | lit | eapply numeral_word; eassumption]|]). exact WH.
    + discriminate.
    + destruct how; auto. constructor; auto. left; reflexivity.
    + rewrite !zlen_app. unfold expiring. rewrite !zlen_cons, zlen_nil. lia.
    + unfold SNAT_RULE_ARGS, expire_args. clear E. gen. fits.
    + exists (dec proto), (dec to), (dec e). auto.
Qed.
End Nat.
