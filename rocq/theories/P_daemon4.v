(** From the options of the client to the rules of the firewall. *)
From Verif Require Import Bytes M_util M_message M_codec M_cipher M_ctx M_access M_replay M_cycle M_incoming M_packet M_client M_send M_fw M_fwinit M_daemon
  S_base64 S_text S_codec S_cipher S_ctx S_access S_replay S_cycle S_client S_send S_incoming S_fw S_fwinit S_daemon
  P_bytes P_util P_util2 P_access P_replay P_incoming P_incoming3 P_incoming8 P_send4
  P_fw P_fw2 P_fw7 P_fw8 P_fw9 P_fw10 P_fwinit P_fwinit2 P_daemon P_daemon2 P_daemon3.
From Coq Require Import Init.Byte List ZArith Bool Lia.
Import ListNotations.
Open Scope Z_scope.

Lemma requested_unique s pl pl' : requested s pl -> requested s pl' -> pl = pl'.
Proof.
  intros (i & L & F) (i' & L' & F'). pose proof (expand_port_list_ok _ _ _ L F) as E. rewrite (expand_port_list_ok _ _ _ L' F') in E. now injection E.
Qed.

Section Server.
Variable K : iptables.
Hypothesis KO : iptables_ok K.
Variable H : hashes.
Hypothesis HO : hashes_ok H.
Variable G : gpg.
Variable cf : conf.
Variable fc : fwconf.
Variable resolve : bytes -> option bytes.
Notation run := (run_iptables K).
Variable en : env.
Variable p : packet.
Variable later : Z.
Variable st st' : sstate.
Variable cs : list chain.
Variable fw : firewall.
Variable i : nat.
Variable a : stanza.
Variable d : spa_data.
Hypothesis UA : Forall usable (st_acc st).
Hypothesis FO : firewall_ok fc cs (st_acc st).
Hypothesis TO : turn_ok fc cs (Receive en p later).
Hypothesis NE : nth_error (st_acc st) i = Some a.
Hypothesis IS : incoming_spa H G cf en p st = Ok ([Grant (1 + Z.of_nat i) d], st').

Lemma grant_fit : fit_request a d.
Proof.
  destruct TO as (PO & TM).
  destruct (authorized H G cf en p st _ st' (Grant (1 + Z.of_nat i) d) HO PO (usable_config _ UA) IS (or_introl eq_refl)) as (data & fwd & i' & a' & C & D & FW & NE' & LE).
  assert (EK : 1 + Z.of_nat i = 1 + Z.of_nat i') by (destruct LE as (_ & _ & m & d' & _ & _ & _ & _ & MY); apply MY).
  assert (i' = i) by lia. subst i'. rewrite NE in NE'. injection NE' as <-.
  assert (UU : usable a) by (rewrite Forall_forall in UA; apply UA; eapply nth_error_In; eauto).
  exact (granted_fit _ _ _ _ _ _ _ _ _ _ _ UU FW LE).
Qed.
Lemma grant_take s' fs : process_spa_request machine run fc resolve (a_nat a) d later (cs, (fw, fs)) = Ok s' ->
  take machine run H G cf fc resolve (Receive en p later) (st, (cs, (fw, fs))) = Ok ([(st_acc st, en, p, later)], (st', s')).
Proof.
  intros R. cbn [take]. rewrite IS. cbn [bind grants]. replace (nat_of (st_acc st) (1 + Z.of_nat i)) with (a_nat a).
  - rewrite R. reflexivity.
  - unfold nat_of. replace (Z.to_nat (1 + Z.of_nat i - 1)) with i by lia. now rewrite NE.
Qed.
Lemma access_origin ci co t n r (j0 j1 : nat) src dst e pl : ci = chain_at j0 cs -> co = chain_at j1 cs -> c_to ci <> [] -> access_rules src dst e ci co pl t n r ->
  jumps cs t n r \/ exists proto port, In (proto, port) pl /\
    ((is_chain ci t n /\ opens src dst proto port e (c_target ci) r) \/ (is_chain co t n /\ answers src dst proto port e (c_target co) r)).
Proof.
  pose proof FO as (FI & _). intros -> -> NT [J|[(T & J)|X]]; [left; eapply jump_own; eauto|left; eapply jump_own; eauto|right; exact X].
Qed.
Notation dst := (if f_use_dst fc then d_pkt_dst d else $ "0.0.0.0/0").
Notation e := (later + d_timeout d).
Theorem grant_access pl : ~ wants_nat (a_nat a) (d_type d) -> requested (d_remain d) pl ->
  exists cs' fw', take machine run H G cf fc resolve (Receive en p later) (st, (cs, (fw, []))) = Ok ([(st_acc st, en, p, later)], (st', (cs', (fw', [])))) /\
    (forall proto port, In (proto, port) pl -> (forall r, opens (d_use d) dst proto port e (c_target (chain_at 0 cs)) r -> legal K r = true) ->
       exists r, opens (d_use d) dst proto port e (c_target (chain_at 0 cs)) r /\ present fw' (chain_at 0 cs) r) /\
    (forall t n r, was fw' t n r -> was fw t n r \/ jumps cs t n r \/ exists proto port, In (proto, port) pl /\
      ((is_chain (chain_at 0 cs) t n /\ opens (d_use d) dst proto port e (c_target (chain_at 0 cs)) r) \/
       (is_chain (chain_at 1 cs) t n /\ answers (d_use d) dst proto port e (c_target (chain_at 1 cs)) r))).
Proof.
  intros NW RQ. pose proof FO as (FI & FS & F0 & _). destruct TO as (PO & TM). pose proof grant_fit as FR.
  destruct (fr_use _ _ FR) as (W1 & L1). destruct (fr_dst _ _ FR) as (W2 & L2). pose proof (fr_time _ _ FR) as TI.
  assert (N0 : names_fit (f_cmd fc) (chain_at 0 cs)) by exact (fit_used fc cs 0%nat FI F0).
  assert (N1 : c_to (chain_at 1 cs) = [] \/ names_fit (f_cmd fc) (chain_at 1 cs)) by exact (fit_at fc cs 1%nat FI).
  destruct (spa_access K KO fc resolve (a_nat a) d later W1 L1 W2 L2 ltac:(lia) pl cs fw [] NW RQ N0 N1) as (cs1 & fw1 & fs1 & R & _ & GR & O).
  destruct (O eq_refl) as (-> & OO). exists cs1, fw1. split; [exact (grant_take _ _ R)|]. split; [exact OO|].
  intros t n r W. destruct (grown_added _ _ _ _ GR t n r W) as [X|X]; [now left|right].
  apply (access_origin _ _ _ _ _ 0%nat 1%nat _ _ _ _ eq_refl eq_refl) in X; [exact X|]. apply (proj1 (proj1 (proj2 (proj2 (proj2 N0))))).
Qed.
Theorem grant_nat proto port more ip to q : wants_nat (a_nat a) (d_type d) -> n_force (a_nat a) = false -> requested (d_remain d) ((proto, port) :: more) ->
  address_text ip -> 0 <= to <= 65535 -> d_nat d = Some (ip ++ [","%byte] ++ q) -> q <> [] -> all_digits q -> decimal q = to ->
  exists i how cs' fw', snat_how fc (a_nat a) port i how /\ take machine run H G cf fc resolve (Receive en p later) (st, (cs, (fw, []))) = Ok ([(st_acc st, en, p, later)], (st', (cs', (fw', [])))) /\
    ((forall r, legal K r = true) ->
      (local_nat (d_type d) -> exists r, opens (d_use d) dst proto to e (c_target (chain_at 0 cs)) r /\ present fw' (chain_at 0 cs) r) /\
      (~ local_nat (d_type d) -> c_to (chain_at 2 cs) <> [] ->
         exists r, forwards (n_forward_all (a_nat a)) (d_use d) proto to e (c_target (chain_at 2 cs)) r /\ present fw' (chain_at 2 cs) r) /\
      (n_no_dnat (a_nat a) = false -> c_to (chain_at 3 cs) <> [] ->
         exists r, redirects (n_forward_all (a_nat a)) (d_use d) dst proto port e (c_target (chain_at 3 cs)) ip to r /\ present fw' (chain_at 3 cs) r) /\
      (n_snat (a_nat a) || f_snat fc = true ->
         exists r, translates (n_forward_all (a_nat a)) (d_use d) proto ip to e (c_target (chain_at i cs)) how r /\ present fw' (chain_at i cs) r)) /\
    (forall t n r, was fw' t n r -> was fw t n r \/ nat_rules fc (a_nat a) (d_type d) cs (d_use d) dst proto port ip to e i how t n r).
Proof.
  intros WN NF RQ AI TR DN Q1 Q2 Q3. pose proof FO as (FI & FS & F0 & F45). destruct TO as (PO & TM). pose proof grant_fit as FR.
  assert (IA : In a (st_acc st)) by (eapply nth_error_In; eauto). assert (UU : usable a) by (rewrite Forall_forall in UA; auto).
  destruct (fr_use _ _ FR) as (W1 & L1). destruct (fr_dst _ _ FR) as (W2 & L2). pose proof (fr_time _ _ FR) as TI.
  assert (NG : nat_goal (a_nat a) (match d_nat d with Some n => n | None => [] end) ip to).
  { split; [exact AI|]. split; [exact TR|]. rewrite NF. exists q. rewrite DN. auto. }
  destruct (spa_nat K KO fc resolve (a_nat a) d later W1 L1 W2 L2 ltac:(lia) more proto port ip to cs fw [] WN RQ NG) as (i0 & how & cs1 & fw1 & fs1 & SH & R & _ & GR & O).
  { intros _. now apply fit_used. } { intros j _. now apply fit_at. } { intros X j [->| ->]; apply fit_used; auto; apply (F45 a IA X). } { apply UU. } { exact FS. }
  destruct (O eq_refl) as (-> & OO). exists i0, how, cs1, fw1. split; [exact SH|]. split; [exact (grant_take _ _ R)|]. split; [exact OO|].
  intros t n r W. apply (grown_added _ _ _ _ GR t n r W).
Qed.
End Server.

(** The address for the translation *)
Lemma sep_cut (h h' : bytes) c c' r r' : ~ In c h -> ~ In c' h -> ~ In c h' -> ~ In c' h' -> h ++ [c] ++ r = h' ++ [c'] ++ r' -> h = h' /\ c = c' /\ r = r'.
Proof.
  revert h'. induction h as [|x h IH]; intros [|y h'] N1 N2 N3 N4 E; cbn in E.
  - injection E as -> ->. auto.
  - injection E as -> _. destruct N3. now left.
  - injection E as -> _. destruct N2. now left.
  - injection E as -> E. destruct (IH h') as (-> & -> & ->); auto; intros I; [apply N1|apply N2|apply N3|apply N4]; now right.
Qed.
Lemma nat_wanted_address o t ip sep ds : nat_wanted o t -> address_text ip -> (sep = ":"%byte \/ sep = ","%byte) -> o_nat_access o = ip ++ [sep] ++ ds ->
  exists q, t = ip ++ [","%byte] ++ q /\ writes q (decimal ds) /\ 1 <= decimal ds <= 65535.
Proof.
  intros (host & p & q & -> & W & X) (_ & a & b & c & d & A) S E.
  assert (N : forall x, x = ":"%byte \/ x = ","%byte -> ~ In x ip).
  { intros x Y I. pose proof (address_chars _ _ _ _ _ A) as F. rewrite Forall_forall in F. destruct (F x I) as [D|D]; destruct Y as [->| ->]; try discriminate; unfold digit in D; vm_compute in D; destruct D; congruence. }
  destruct X as [(Y & _)|(_ & N1 & N2 & [(Y & _)|(sep' & s & S' & Y & AD & DP & R)])].
  - rewrite E in Y. destruct ip; discriminate.
  - exfalso. rewrite E in Y. destruct S as [->| ->]; [apply N1|apply N2]; rewrite <- Y; apply in_app_iff; right; left; reflexivity.
  - assert (Z : host = ip /\ sep' = sep /\ s = ds).
    { apply sep_cut; [destruct S' as [->| ->]; auto|destruct S as [->| ->]; auto|apply N; exact S'|apply N; exact S|congruence]. }
    destruct Z as (-> & -> & ->). exists q. rewrite DP. auto.
Qed.
