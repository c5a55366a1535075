(** Proofs about the daemon with an iptables without -C: when a NAT request adds its rule. *)
From Verif Require Import Bytes M_util M_message M_codec M_access M_cycle M_incoming M_packet M_fw M_extcmd
  S_text S_access S_incoming S_fw S_extcmd P_bytes P_util P_util2 P_access P_incoming5 P_fw P_fw2 P_fw3 P_fw4 P_fw5 P_fw6 P_fw7 P_fw8 P_fw9 P_fw10 M_old S_old P_old P_old2 P_old3 P_old4.
From Coq Require Import Init.Byte List ZArith Bool Lia.
Import ListNotations.
Open Scope Z_scope.

Section Whole.
Variable K : iptables.
Variable KO : iptables_ok K.
Variable cf : fwconf.
Variable resolve : bytes -> option bytes.
Notation run := (run_iptables K).
Variable nc : nat_conf.
Variable d : spa_data.
Variable now : Z.
Notation e := (now + d_timeout d).
Notation src := (d_use d).
Notation dst := (if f_use_dst cf then d_pkt_dst d else $ "0.0.0.0/0").
Hypothesis WS : word src. Hypothesis LS : zlen src <= 15.
Hypothesis HE : 0 <= e < 4294967296.
Hypothesis WD : word (d_pkt_dst d). Hypothesis LD : zlen (d_pkt_dst d) <= 15.

Lemma dnat_once proto port ip to n ip' cs fw rs hs l :
  0 <= proto <= 255 -> 0 <= port <= 65535 -> word ip -> zlen ip <= 15 -> 0 < to <= 65535 -> 0 <= n -> n_forward_all nc = false ->
  names_fit (f_cmd cf) (chain_at 3 cs) -> c_from (chain_at 3 cs) <> c_to (chain_at 3 cs) ->
  fw (c_table (chain_at 3 cs)) (c_to (chain_at 3 cs)) = Some rs -> Forall (fun r => ~ In x0a (show K r)) rs ->
  text_lines (heading K (c_to (chain_at 3 cs))) hs -> first_with e l (hs ++ shown_lines K 1 rs) -> sends_to ip' n l ->
  exists cs' fw', dnat_rule_old machine run cf nc src dst ip to proto port e now (cs, (fw, [])) = Ok (cs', (fw', [])) /\
    exists rs', fw' (c_table (chain_at 3 cs)) (c_to (chain_at 3 cs)) = Some rs' /\
      (tells src None proto port e (c_target (chain_at 3 cs)) l /\ n = to /\ (f_use_dst cf = true -> holds ($ " to:" ++ ip) l) -> rs' = rs) /\
      (~ (tells src None proto port e (c_target (chain_at 3 cs)) l /\ n = to /\ (f_use_dst cf = true -> holds ($ " to:" ++ ip) l)) ->
         forall r, redirects false src dst proto port e (c_target (chain_at 3 cs)) ip to r -> legal K r = true ->
         rs' = if f_prepend cf then r :: rs else rs ++ [r]).
Proof.
  intros HP HQ WI LI HT HN NA NF FT HR SN (HH & HN2) FW ST.
  destruct (dst_word cf d WD LD) as [WD' LD'].
  set (D := dst) in *. clearbody D.
  set (c := chain_at 3 cs) in *. assert (HC : chain_at 3 cs = c) by reflexivity.
  pose proof NF as (W1 & W2 & W3 & W4 & W5 & J & UM & LL).
  pose proof (zlen_nonneg (c_from c)). pose proof (zlen_nonneg (c_table c)). pose proof (zlen_nonneg (c_to c)). pose proof (zlen_nonneg (f_cmd cf)). pose proof (zlen_nonneg (c_target c)).
  unfold dnat_rule_old. cbn [fst]. rewrite HC, NA.
  set (q := mkWant proto (Some src) (Some D) port (Some ip) to e (c_target c)).
  assert (DEC : rule_listed (here cf q) (listing K (c_to c) rs) = true <-> tells src None proto port e (c_target c) l /\ n = to /\ (f_use_dst cf = true -> holds ($ " to:" ++ ip) l)).
  { unfold here, q. cbn [q_proto q_src q_dst q_port q_nat q_nat_port q_exp q_target].
    rewrite (nat_listed proto port e src (c_target c) (if f_use_dst cf then Some D else None) ip ip' to n (listing K (c_to c) rs) (hs ++ shown_lines K 1 rs) l); auto; try lia.
    { destruct (f_use_dst cf); assert (Some D <> None) by discriminate; intuition congruence. }
    split.
    - unfold listing. rewrite map_app, concat_app, <- HH, <- rule_lines_concat. reflexivity.
    - apply Forall_app. split; [exact HN2|]. apply (shown_no_nl K KO); [exact SN|lia]. }
  clear FW ST.
  assert (NE' : numeral e (dec e)) by (apply dec_num; lia). assert (LE : zlen (dec e) <= 10) by (apply dec_len10; lia).
  assert (NP : numeral proto (dec proto)) by (apply dec_num; lia). assert (LP : zlen (dec proto) <= 5) by (apply dec_len5; lia).
  assert (NQ : numeral port (dec port)) by (apply dec_num; lia). assert (LQ : zlen (dec port) <= 5) by (apply dec_len5; lia).
  assert (NT : numeral to (dec to)) by (apply dec_num; lia). assert (LT : zlen (dec to) <= 5) by (apply dec_len5; lia).
  assert (WX : word (mark ++ dec e)) by (apply mark_word; apply NE').
  assert (WY : word (ip ++ [":"%byte] ++ dec to)) by (apply colon_word; auto; eapply numeral_word; eauto).
  set (r := [$ "-p"; dec proto; $ "-s"; src; $ "-d"; D; $ "--dport"; dec port] ++ expiring (dec e) (c_target c) ++ [$ "--to-destination"; ip ++ [":"%byte] ++ dec to]).
  assert (TXT : DNAT_RULE_ARGS (c_table c) proto src D port e (c_target c) ip to = rule_text (c_table c) r).
  { unfold DNAT_RULE_ARGS, expire_args, r. rewrite ?dec_i_dec by lia. change EXPIRE_COMMENT_PREFIX with mark.
    cbn [app]; unfold rule_text, expiring; cbn [join app]; do 14 (rewrite <- ?app_assoc; cbn [app]); reflexivity. }
  assert (LEN : zlen (f_cmd cf) + zlen (c_to c) + zlen (DNAT_RULE_ARGS (c_table c) proto src D port e (c_target c) ip to) + 5 <= 254).
  { unfold DNAT_RULE_ARGS, expire_args. rewrite !dec_i_dec by lia. change EXPIRE_COMMENT_PREFIX with mark. clear TXT r.
    set (dp := dec proto) in *. set (dq := dec port) in *. set (dx := dec e) in *. set (dt := dec to) in *. clearbody dp dq dx dt. fits. }
  assert (WR : Forall word r). { unfold r, expiring. cbn [app]. words_ok. }
  unfold ipt_rule_old. cbv zeta. change (chain_at 3 cs) with c. rewrite ?(fmt_id (DNAT_RULE_ARGS (c_table c) proto src D port e (c_target c) ip to)) by lia. rewrite TXT in *.
  destruct (mk_chain_old_spec K cf c NF fw []) as (fw1 & fs1 & R1 & G1 & A1).
  match type of R1 with ?l = _ => match goal with |- context [mk_chain_old ?a1 ?a2 ?a3 ?a4 ?a5] => change (mk_chain_old a1 a2 a3 a4 a5) with l end end.
  rewrite R1. cbn [bind]. destruct (A1 eq_refl) as (-> & _).
  assert (HR1 : fw1 (c_table c) (c_to c) = Some rs).
  { specialize (G1 (c_table c) (c_to c)). rewrite HR in G1. destruct G1 as (rs' & E & DR). rewrite E. f_equal. eapply drops_none; [exact DR|].
    intros x (_ & Q & _). congruence. }
  unfold rule_exists_old. fold (here cf q). destruct (output_spec K cf (c_table c) (c_to c) fw1 []) as (out & R2 & A2); auto; try lia. rewrite R2. cbn [bind tl].
  rewrite (A2 eq_refl), HR1. destruct (rule_listed (here cf q) (listing K (c_to c) rs)) eqn:TH.
  - cbn [bind fst]. exists cs, fw1. split; [reflexivity|]. exists rs. split; [exact HR1|]. split; [reflexivity|]. intro N. exfalso. apply N, DEC. reflexivity.
  - assert (CR : create_rule machine run cf (c_to c) (rule_text (c_table c) r) (fw1, []) =
      Ok (true, (if legal K r then put_chain fw1 (c_table c) (c_to c) (Some (if f_prepend cf then r :: rs else rs ++ [r])) else fw1, []))).
    { unfold create_rule. set (op := if f_prepend cf then $ "-I" else $ "-A").
      destruct (run_cmd K cf ((if f_prepend cf then $ "-I " else $ "-A ") ++ c_to c ++ $ " " ++ rule_text (c_table c) r)
              (f_cmd cf :: op :: c_to c :: $ "-t" :: c_table c :: r) fw1 []) as (ok & fw' & R & C & A).
      { unfold op, rule_text. cbn [join]. destruct (f_prepend cf); reflexivity. }
      { unfold op. destruct (f_prepend cf); do 3 (apply Forall_cons; [first [assumption | lit]|]); do 2 (apply Forall_cons; [first [assumption | lit]|]); exact WR. }
      { reflexivity. }
      { replace (join [" "%byte] (f_cmd cf :: op :: c_to c :: $ "-t" :: c_table c :: r)) with
          (f_cmd cf ++ [" "%byte] ++ op ++ [" "%byte] ++ c_to c ++ [" "%byte] ++ rule_text (c_table c) r) by reflexivity.
        rewrite !zlen_app. change (zlen [" "%byte]) with 1. assert (zlen op = 2) by (unfold op; destruct (f_prepend cf); reflexivity). lia. }
      rewrite R. cbn [bind tl]. destruct (A eq_refl) as (_ & ->). f_equal. f_equal. f_equal.
      unfold ipt, op.
      destruct (f_prepend cf); [change (bseq ($ "-I") ($ "-t")) with false|change (bseq ($ "-A") ($ "-t")) with false];
        change (bseq ($ "-t") ($ "-t")) with true; unfold r; cbn [app]; cbn iota; unfold ipt_chain; rewrite HR1;
        [change (bseq ($ "-I") ($ "-C")) with false; change (bseq ($ "-I") ($ "-A")) with false; change (bseq ($ "-I") ($ "-I")) with true|
         change (bseq ($ "-A") ($ "-C")) with false; change (bseq ($ "-A") ($ "-A")) with true]; cbn iota;
        destruct (legal K _); reflexivity. }
    rewrite CR. cbn [bind]. cbn [fst]. eexists _, _. split; [reflexivity|].
    assert (SAME : forall r0, redirects false src D proto port e (c_target c) ip to r0 -> r0 = r).
    { intros r0 (p & q0 & x & m & N1 & N2 & N3 & N4 & ->).
      assert (p = dec proto) as -> by (apply (numeral_unique proto); [lia|assumption|assumption]). assert (q0 = dec port) as -> by (apply (numeral_unique port); [lia|assumption|assumption]).
      assert (x = dec e) as -> by (apply (numeral_unique e); [lia|assumption|assumption]). assert (m = dec to) as -> by (apply (numeral_unique to); [lia|assumption|assumption]). reflexivity. }
    destruct (legal K r) eqn:LG.
    + eexists. split; [apply put_same|]. split; [intro T; exfalso; apply DEC in T; discriminate|].
      intros _ r0 RD _. rewrite (SAME r0 RD). reflexivity.
    + exists rs. split; [exact HR1|]. split; [reflexivity|].
      intros _ r0 RD LG0. exfalso. rewrite (SAME r0 RD) in LG0. congruence.
Qed.

Theorem nat_once pl proto port ip to n ip' cs fw rs hs l :
  wants_nat nc (d_type d) -> ~ local_nat (d_type d) -> requested (d_remain d) ((proto, port) :: pl) ->
  nat_goal nc (match d_nat d with Some x => x | None => [] end) ip to -> 0 < to -> 0 <= n ->
  n_no_dnat nc = false -> n_forward_all nc = false -> n_snat nc = false -> f_snat cf = false ->
  (c_to (chain_at 2 cs) = [] \/ names_fit (f_cmd cf) (chain_at 2 cs) /\ c_table (chain_at 2 cs) <> c_table (chain_at 3 cs)) ->
  names_fit (f_cmd cf) (chain_at 3 cs) -> c_from (chain_at 3 cs) <> c_to (chain_at 3 cs) ->
  fw (c_table (chain_at 3 cs)) (c_to (chain_at 3 cs)) = Some rs -> Forall (fun r => ~ In x0a (show K r)) rs ->
  text_lines (heading K (c_to (chain_at 3 cs))) hs -> first_with e l (hs ++ shown_lines K 1 rs) -> sends_to ip' n l ->
  exists cs' fw', process_spa_request_old machine run cf resolve nc d now (cs, (fw, [])) = Ok (cs', (fw', [])) /\
    exists rs', fw' (c_table (chain_at 3 cs)) (c_to (chain_at 3 cs)) = Some rs' /\
      (tells src None proto port e (c_target (chain_at 3 cs)) l /\ n = to /\ (f_use_dst cf = true -> holds ($ " to:" ++ ip) l) -> rs' = rs) /\
      (~ (tells src None proto port e (c_target (chain_at 3 cs)) l /\ n = to /\ (f_use_dst cf = true -> holds ($ " to:" ++ ip) l)) ->
         forall r, redirects false src dst proto port e (c_target (chain_at 3 cs)) ip to r -> legal K r = true ->
         rs' = if f_prepend cf then r :: rs else rs ++ [r]).
Proof.
  intros WN NL RQ NG TO HN ND NA NS1 NS2 OU NF FT HR SN TL FW ST. pose proof NG as (AT & HT & _). destruct (address_word ip AT) as [WI _]. pose proof (proj1 AT) as LI.
  destruct (entries_ok _ _ RQ) as [_ F]. inversion F as [|? ? [HP HQ] _]; subst. cbn [fst snd] in HP, HQ.
  destruct RQ as (items & L & F2).
  unfold process_spa_request_old. rewrite (expand_port_list_ok _ _ _ L F2). cbv zeta.
  rewrite (proj1 (wants_nat_iff nc d now HE) WN). rewrite (u32_small e) by lia.
  rewrite (nat_address_ok cf resolve nc _ _ _ NG). cbn [bind]. change IPT_ANY_IP with ($ "0.0.0.0/0").
  destruct (_ || (d_type d =? FKO_CLIENT_TIMEOUT_LOCAL_NAT_ACCESS_MSG)) eqn:LOC; [exfalso; apply NL, (local_iff d now HE), LOC|].
  cbn [fst].
  assert (S1 : exists cs1 fw1, (if negb (zlen (c_to (chain_at 2 cs)) =? 0) then forward_access_rule_old machine run cf nc src proto to e now (cs, (fw, [])) else Ok (cs, (fw, []))) = Ok (cs1, (fw1, [])) /\
    same_names (chain_at 3 cs) (chain_at 3 cs1) /\ fw1 (c_table (chain_at 3 cs)) (c_to (chain_at 3 cs)) = Some rs).
  { destruct OU as [-> |(NF2 & DT)].
    - exists cs, fw. split; [reflexivity|]. split; [unfold same_names; auto 6|exact HR].
    - destruct (negb _); [|exists cs, fw; split; [reflexivity|]; split; [unfold same_names; auto 6|exact HR]].
      destruct (forward_old K cf src WS LS e HE proto port HP HQ ip WI to ltac:(lia) nc (chain_at 2 cs) now cs fw [] eq_refl NF2) as (cs1 & fw1 & fs1 & R & S & G & A).
      rewrite (A eq_refl) in R. exists cs1, fw1. split; [exact R|]. split; [apply nth_names; exact S|].
      specialize (G (c_table (chain_at 3 cs)) (c_to (chain_at 3 cs))). rewrite HR in G. destruct G as (rs' & E & DR). rewrite E. f_equal. eapply drops_none; [exact DR|].
      intros x (_ & [Q|(Q & _)]); [destruct Q as (Q & _)|]; congruence. }
  destruct S1 as (cs1 & fw1 & R1 & SN1 & HR1).
  match type of R1 with ?l = _ => match goal with |- context [bind ?m _] => change m with l end end.
  rewrite R1. cbn [bind fst]. rewrite ND, NS1, NS2. cbn [negb orb]. rewrite andb_true_r.
  destruct SN1 as (Q1 & Q2 & Q3 & Q4 & Q5).
  assert (NF1 : names_fit (f_cmd cf) (chain_at 3 cs1)) by (unfold names_fit in *; rewrite Q1, Q2, Q3, Q4, Q5; exact NF).
  assert (Z0 : zlen (c_to (chain_at 3 cs1)) =? 0 = false).
  { rewrite Q5. destruct NF as (_ & _ & _ & (CT & _) & _). clear - CT. destruct (c_to (chain_at 3 cs)) as [|x y]; [easy|]. rewrite zlen_cons. pose proof (zlen_nonneg y). apply Z.eqb_neq. lia. }
  rewrite Z0. cbn [negb].
  destruct (dnat_once proto port ip to n ip' cs1 fw1 rs hs l HP HQ WI (proj2 LI) ltac:(lia) HN NA NF1) as (cs' & fw' & R & X); auto.
  - rewrite Q3, Q5. exact FT.
  - rewrite Q2, Q5. exact HR1.
  - rewrite Q5. exact TL.
  - match type of R with ?l = _ => match goal with |- context [bind ?m _] => change m with l end end.
    rewrite R. cbn [bind]. exists cs', fw'. split; [reflexivity|]. rewrite Q1, Q2, Q5 in X. exact X.
Qed.
End Whole.
