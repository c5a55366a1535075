(** Proofs about the daemon with an iptables without -C: the rules made for access requests. *)
From Verif Require Import Bytes M_util M_message M_codec M_access M_cycle M_incoming M_packet M_fw M_extcmd
  S_text S_access S_fw S_extcmd P_bytes P_util P_util2 P_access P_fw P_fw2 P_fw3 P_fw4 P_fw5 P_fw6 P_fw7 P_fw8 P_fw9 P_fw10 M_old S_old P_old.
From Coq Require Import Init.Byte List ZArith Bool Lia.
Import ListNotations.
Open Scope Z_scope.

Ltac fits := rewrite ?zlen_app; cbn [join]; rewrite ?zlen_app;
  repeat match goal with |- context [zlen (str ?s)] => let v := eval vm_compute in (zlen (str s)) in change (zlen (str s)) with v end;
  change (zlen mark) with 5; change (zlen [" "%byte]) with 1; change (zlen [":"%byte]) with 1; lia.

Lemma argv_fits ws : Forall word ws -> zlen ws < 29 -> zlen (join [" "%byte] ws) <= 254 -> strtoargv (fmt (join [" "%byte] ws)) = Ok (Some ws).
Proof. intros F N L. rewrite fmt_id by auto. apply argv_join; auto. lia. Qed.

Section Make.
Variable K : iptables.
Variable KO : iptables_ok K.
Variable cf : fwconf.
Notation run := (run_iptables K).

(** ** Listings *)
Lemma output_spec t n fw fs : word (f_cmd cf) -> word t -> word n -> zlen (f_cmd cf) + zlen t + zlen n <= 100 ->
  exists out, output machine run (fw, fs) (list_cmd cf t n) = Ok (out, (fw, tl fs)) /\
    (fs = [] -> out = Some (match fw t n with Some rs => listing K n rs | None => trouble K end)).
Proof.
  intros W1 W2 W3 L. unfold output, list_cmd.
  replace (f_cmd cf ++ $ " " ++ $ "-t " ++ t ++ $ " -L " ++ n ++ $ " --line-numbers -n") with (join [" "%byte] [f_cmd cf; $ "-t"; t; $ "-L"; n; $ "--line-numbers"; $ "-n"])
    by reflexivity.
  rewrite argv_fits; [|words_ok|reflexivity|fits]. cbn [bind].
  assert (E : ipt K fw [f_cmd cf; $ "-t"; t; $ "-L"; n; $ "--line-numbers"; $ "-n"] = (fw, match fw t n with Some rs => listing K n rs | None => trouble K end)).
  { cbn [ipt]. change (bseq ($ "-t") ($ "-t")) with true. cbn iota. unfold ipt_table. destruct (fw t n); reflexivity. }
  unfold run_iptables. rewrite E. destruct fs as [|[] fs]; cbn [hd tl]; eexists; (split; [reflexivity|]); intro Q; try discriminate Q. reflexivity.
Qed.

Definition here (q : wanted) : wanted :=
  mkWant (q_proto q) (q_src q) (if f_use_dst cf then q_dst q else None) (q_port q) (q_nat q) (q_nat_port q) (q_exp q) (q_target q).

Section One.
Variable c : chain.
Hypothesis NF : names_fit (f_cmd cf) c.

Lemma mk_chain_old_spec fw fs : exists fw' fs',
  mk_chain_old machine run cf c (fw, fs) = Ok (fw', fs') /\ grown (mine c) (jump c) fw fw' /\ (fs = [] -> fs' = [] /\ exists rs, fw' (c_table c) (c_to c) = Some rs).
Proof.
  destruct NF as (W1 & W2 & W3 & W4 & W5 & J & UM & L).
  pose proof (zlen_nonneg (c_from c)). pose proof (zlen_nonneg (c_target c)).
  pose proof (zlen_nonneg (c_to c)). pose proof (zlen_nonneg (c_table c)). pose proof (zlen_nonneg (f_cmd cf)).
  unfold mk_chain_old, chain_exists.
  destruct (run_cmd K cf ($ "-t " ++ c_table c ++ $ " -L " ++ c_to c ++ $ " -n") [f_cmd cf; $ "-t"; c_table c; $ "-L"; c_to c; $ "-n"] fw fs)
    as (ok & fw1 & R1 & C1 & A1); [cbn; rewrite <- ?app_assoc; reflexivity|words_ok|reflexivity|fits|].
  rewrite R1. cbn [bind].
  assert (E1 : fst (ipt K fw [f_cmd cf; $ "-t"; c_table c; $ "-L"; c_to c; $ "-n"]) = fw).
  { cbn [ipt]. change (bseq ($ "-t") ($ "-t")) with true. cbn iota. unfold ipt_table.
    change (bseq ($ "-L") ($ "-N")) with false. change (bseq ($ "-L") ($ "-L")) with true. cbn iota. destruct (fw (c_table c) (c_to c)); reflexivity. }
  assert (fw1 = fw) as -> by (destruct C1; congruence). clear C1.
  assert (S1 : exists fw2 fs2,
    (if negb ok then @Ok machine (fw, tl fs) else bind (create_chain machine run cf c (fw, tl fs)) (fun x => let '(_, w) := x in Ok w)) = Ok (fw2, fs2) /\
    grown (mine c) (jump c) fw fw2 /\ (fs = [] -> fs2 = [] /\ exists rs, fw2 (c_table c) (c_to c) = Some rs)).
  { destruct ok; cbn [negb].
    2:{ exists fw, (tl fs). split; [reflexivity|]. split; [apply grown_refl|]. intro Q. destruct (A1 Q); discriminate. }
    unfold create_chain.
    destruct (run_cmd K cf ($ "-t " ++ c_table c ++ $ " -N " ++ c_to c) [f_cmd cf; $ "-t"; c_table c; $ "-N"; c_to c] fw (tl fs))
      as (ok2 & fw2 & R2 & C2 & A2); [cbn; rewrite <- ?app_assoc; reflexivity|words_ok|reflexivity|fits|].
    rewrite R2. cbn [bind]. exists fw2, (tl (tl fs)). split; [reflexivity|].
    assert (E2 : fst (ipt K fw [f_cmd cf; $ "-t"; c_table c; $ "-N"; c_to c]) =
                 match fw (c_table c) (c_to c) with None => put_chain fw (c_table c) (c_to c) (Some []) | Some _ => fw end).
    { cbn [ipt]. change (bseq ($ "-t") ($ "-t")) with true. cbn iota. unfold ipt_table. destruct (fw (c_table c) (c_to c)); reflexivity. }
    rewrite E2 in *. split.
    - destruct C2 as [-> | ->]; [apply grown_refl|]. destruct (fw (c_table c) (c_to c)) eqn:Q; [apply grown_refl|].
      apply grown_new; auto. split; reflexivity.
    - intros ->. cbn [tl] in *. split; auto. destruct (A2 eq_refl) as [_ ->].
      destruct (fw (c_table c) (c_to c)) as [rs|] eqn:Q; [exists rs; exact Q|]. exists []. apply put_same. }
  destruct S1 as (fw2 & fs2 & R2 & G2 & A2).
  match goal with |- context [bind ?x _] => match type of R2 with ?l = _ => change x with l; rewrite R2 end end. cbn [bind].
  unfold jump_rule_exists_old. destruct (output_spec (c_table c) (c_from c) fw2 fs2) as (out & R3 & _); auto; try lia. rewrite R3. cbn [bind].
  set (there := match out with None => false | Some o => _ end). clearbody there.
  assert (S2 : exists fw3 fs3,
    (if there then @Ok machine (fw2, tl fs2) else bind (add_jump_rule machine run cf c (fw2, tl fs2)) (fun x => let '(_, w) := x in Ok w)) = Ok (fw3, fs3) /\
    grown (mine c) (jump c) fw2 fw3 /\ (fs2 = [] -> fs3 = [])).
  { destruct there.
    { exists fw2, (tl fs2). split; [reflexivity|]. split; [apply grown_refl|]. intros ->. reflexivity. }
    unfold add_jump_rule. rewrite dec_i_dec by lia.
    assert (NM : numeral (c_jump c) (dec (c_jump c))) by (apply dec_num; lia).
    assert (LN : zlen (dec (c_jump c)) <= 5) by (apply dec_len5; lia).
    set (dj := dec (c_jump c)) in *. clearbody dj.
    destruct (run_cmd K cf ($ "-t " ++ c_table c ++ $ " -I " ++ c_from c ++ $ " " ++ dj ++ $ " -j " ++ c_to c)
       [f_cmd cf; $ "-t"; c_table c; $ "-I"; c_from c; dj; $ "-j"; c_to c] fw2 (tl fs2))
      as (ok2 & fw3 & R4 & C4 & A4); [cbn; rewrite <- ?app_assoc; reflexivity|words_ok|reflexivity|fits|].
    rewrite R4. cbn [bind]. exists fw3, (tl (tl fs2)). split; [reflexivity|]. split; [|intros ->; reflexivity].
    destruct C4 as [->| ->]; [apply grown_refl|]. cbn [ipt]. change (bseq ($ "-t") ($ "-t")) with true. cbn iota. unfold ipt_table.
    destruct (fw2 (c_table c) (c_from c)) as [rs|] eqn:Q.
    - change (bseq ($ "-I") ($ "-L")) with false. change (bseq ($ "-I") ($ "-F")) with false. change (bseq ($ "-I") ($ "-X")) with false.
      change (bseq ($ "-I") ($ "-D")) with false. change (bseq ($ "-I") ($ "-I")) with true. cbn iota zeta.
      destruct (legal K [$ "-j"; c_to c] && (1 <=? decimal dj) && (decimal dj <=? zlen rs + 1)); cbn [fst]; [|apply grown_refl].
      eapply grown_put; [exact Q|]. rewrite <- (ztake_zdrop (decimal dj - 1) rs) at 3. apply drops_app. repeat split.
    - change (bseq ($ "-I") ($ "-N")) with false. apply grown_refl. }
  destruct S2 as (fw3 & fs3 & R4 & G3 & A4).
  exists fw3, fs3. split; [exact R4|]. split; [eapply grown_trans; eauto|].
  intro Q. destruct (A2 Q) as [Q2 (rs & X)]. split; auto.
  specialize (G3 (c_table c) (c_to c)). rewrite X in G3. destruct G3 as (rs' & X' & _). eauto.
Qed.
End One.

(** ** One rule *)
Lemma ipt_rule_old_spec i c rl r sp q e now cs fw fs :
  chain_at i cs = c -> names_fit (f_cmd cf) c ->
  rl = rule_text (c_table c) r ++ sp -> Forall word r -> r <> [] -> Forall blank sp -> zlen r < 20 ->
  zlen (f_cmd cf) + zlen (c_to c) + zlen rl + 5 <= 254 ->
  exists cs' fw' fs',
    ipt_rule_old machine run cf i rl q e now (cs, (fw, fs)) = Ok (cs', (fw', fs')) /\
    Forall2 same_names cs cs' /\ grown (mine c) (adds c r) fw fw' /\
    (fs = [] -> fs' = [] /\ exists rs', fw' (c_table c) (c_to c) = Some rs' /\
       ((legal K r = true -> In r rs') \/ rule_listed (here q) (listing K (c_to c) rs') = true)).
Proof.
  intros HC NF -> WR NE B N L. unfold ipt_rule_old. rewrite HC.
  pose proof NF as (W1 & W2 & W3 & W4 & W5 & J & UM & L0).
  pose proof (zlen_nonneg (c_to c)). pose proof (zlen_nonneg (f_cmd cf)). pose proof (zlen_nonneg (c_from c)). pose proof (zlen_nonneg (c_target c)).
  rewrite fmt_id by lia. rewrite zlen_app in L.
  destruct (mk_chain_old_spec c NF fw fs) as (fw1 & fs1 & R1 & G1 & A1). rewrite R1. cbn [bind].
  unfold rule_exists_old. fold (here q). destruct (output_spec (c_table c) (c_to c) fw1 fs1) as (out & R2 & A2); auto; try lia. rewrite R2. cbn [bind].
  assert (G1' : grown (mine c) (adds c r) fw fw1) by (revert G1; apply grown_impl; [auto|intros; left; auto]).
  destruct (match out with None => false | Some o => rule_listed (here q) o end) eqn:TH.
  - exists cs, fw1, (tl fs1). split; [reflexivity|]. split; [apply names_refl|]. split; auto.
    intro Q. destruct (A1 Q) as [Q1 (rs & X)]. subst fs1. split; auto. exists rs. split; auto. right.
    rewrite (A2 eq_refl), X in TH. exact TH.
  - destruct (create_spec K cf c NF r sp fw1 (tl fs1)) as (fw2 & R3 & G3 & A3); auto; try lia. rewrite R3. cbn [bind].
    eexists _, fw2, (tl (tl fs1)). split; [reflexivity|]. split; [apply set_names; rewrite HC; repeat split|]. split.
    + eapply grown_trans; [exact G1'|]. revert G3. apply grown_impl; [auto|intros; right; auto].
    + intro Q. destruct (A1 Q) as [Q1 (rs & X)]. subst fs1. split; auto.
      specialize (G3 (c_table c) (c_to c)). rewrite X in G3. destruct G3 as (rs' & X' & _). exists rs'. split; auto. left. intro LG.
      destruct (A3 eq_refl LG (ex_intro _ rs X)) as (rs2 & X2 & I). assert (rs2 = rs') as <- by congruence. exact I.
Qed.
End Make.

(** ** Access requests without NAT *)
Section Req.
Variable K : iptables.
Variable KO : iptables_ok K.
Variable cf : fwconf.
Notation run := (run_iptables K).
Variables src dst : bytes.
Hypothesis WS : word src. Hypothesis LS : zlen src <= 15.
Hypothesis WD : word dst. Hypothesis LD : zlen dst <= 15.
Variable e : Z.
Hypothesis HE : 0 <= e < 4294967296.

Ltac nums proto port :=
  assert (NE : numeral e (dec e)) by (apply dec_num; lia); assert (LE : zlen (dec e) <= 10) by (apply dec_len10; lia);
  assert (NP : numeral proto (dec proto)) by (apply dec_num; lia); assert (LP : zlen (dec proto) <= 5) by (apply dec_len5; lia);
  assert (NQ : numeral port (dec port)) by (apply dec_num; lia); assert (LQ : zlen (dec port) <= 5) by (apply dec_len5; lia);
  assert (WX : word (mark ++ dec e)) by (apply mark_word; apply NE).

Lemma told_there c proto port rs : names_fit (f_cmd cf) c -> 0 <= proto <= 255 -> 0 <= port <= 65535 ->
  (forall x, numeral e x -> ~ holds (x ++ $ " ") (heading K (c_to c))) ->
  rule_listed (here cf (mkWant proto (Some src) (Some dst) port None 0 e (c_target c))) (listing K (c_to c) rs) = true ->
  exists r, In r rs /\ told K cf src dst proto port e c r.
Proof.
  intros NF HP HQ NH TH. pose proof NF as (W1 & W2 & W3 & W4 & W5 & J & UM & L).
  pose proof (zlen_nonneg (c_from c)). pose proof (zlen_nonneg (c_table c)). pose proof (zlen_nonneg (c_to c)). pose proof (zlen_nonneg (f_cmd cf)).
  change (here cf _) with (plain_want proto src (if f_use_dst cf then Some dst else None) port e (c_target c)) in TH.
  apply listed_tells in TH as (line & HL & NN & TL); auto; try lia; [|destruct (f_use_dst cf); auto].
  assert (NE : line <> []). { intros ->. destruct TL as ((a & b & Q) & _). destruct a; discriminate. }
  destruct KO as (_ & HH & _). destruct (HH (c_to c) W4 UM) as (h & EH & _). unfold listing in HL. rewrite EH, <- app_assoc in HL.
  apply piece in HL as [HL|HL]; [exfalso|apply piece_rule in HL as (r & x & I & LX & HX); auto|exact NN].
  - destruct TL as (_ & _ & _ & _ & (x & NX & X) & _). apply (NH x NX). rewrite EH. apply (holds_trans _ line); [exact X|]. apply (holds_trans _ h); [exact HL|exists [], [x0a]; reflexivity].
  - exists r. split; [exact I|]. exists x. split; [exact LX|]. eapply tells_longer; eauto. destruct (f_use_dst cf); auto.
Qed.

Lemma in_rule_old c proto port now cs fw fs :
  chain_at 0 cs = c -> names_fit (f_cmd cf) c -> 0 <= proto <= 255 -> 0 <= port <= 65535 ->
  (forall x, numeral e x -> ~ holds (x ++ $ " ") (heading K (c_to c))) ->
  let r := access_rule src dst (dec proto) (dec port) (dec e) (c_target c) in
  exists cs' fw' fs',
    ipt_rule_old machine run cf 0 (RULE_ARGS (c_table c) proto src dst port e (c_target c)) (mkWant proto (Some src) (Some dst) port None 0 e (c_target c)) e now (cs, (fw, fs)) = Ok (cs', (fw', fs')) /\
    Forall2 same_names cs cs' /\ grown (mine c) (adds c r) fw fw' /\
    (fs = [] -> fs' = [] /\ (legal K r = true -> present fw' c r \/ exists r', present fw' c r' /\ told K cf src dst proto port e c r')).
Proof.
  intros HC NF HP HQ NH r. pose proof NF as (W1 & W2 & W3 & W4 & W5 & J & UM & L). nums proto port.
  pose proof (zlen_nonneg (c_from c)).
  destruct (ipt_rule_old_spec K cf 0 c (RULE_ARGS (c_table c) proto src dst port e (c_target c)) r [] (mkWant proto (Some src) (Some dst) port None 0 e (c_target c)) e now cs fw fs)
    as (cs' & fw' & fs' & R & S & G & A); auto.
  - unfold RULE_ARGS, expire_args, r, access_rule, expiring. rewrite !dec_i_dec by lia.
    cbn [app]. rewrite app_nil_r. unfold rule_text. cbn [join app]. change EXPIRE_COMMENT_PREFIX with mark. rewrite <- ?app_assoc. reflexivity.
  - unfold r, access_rule, expiring. cbn [app]. words_ok.
  - discriminate.
  - reflexivity.
  - unfold RULE_ARGS, expire_args. rewrite !dec_i_dec by lia. change EXPIRE_COMMENT_PREFIX with mark.
    set (dp := dec proto) in *. set (dq := dec port) in *. set (dx := dec e) in *. clearbody dp dq dx. clear r. fits.
  - exists cs', fw', fs'. split; [exact R|]. split; [exact S|]. split; [exact G|]. intro Q. destruct (A Q) as (Q1 & rs & X & H0). split; [exact Q1|]. intro LG. destruct H0 as [H0|H0].
    + left. exists rs. auto.
    + right. destruct (told_there c proto port rs NF HP HQ NH H0) as (r' & I & T). exists r'. split; [exists rs; auto|exact T].
Qed.
Lemma out_rule_old c proto port now cs fw fs :
  chain_at 1 cs = c -> names_fit (f_cmd cf) c -> 0 <= proto <= 255 -> 0 <= port <= 65535 ->
  let r := answer_rule src dst (dec proto) (dec port) (dec e) (c_target c) in
  exists cs' fw' fs',
    ipt_rule_old machine run cf 1 (OUT_RULE_ARGS (c_table c) proto src dst port e (c_target c)) (mkWant proto (Some src) (Some dst) port None 0 e (c_target c)) e now (cs, (fw, fs)) = Ok (cs', (fw', fs')) /\
    Forall2 same_names cs cs' /\ grown (mine c) (adds c r) fw fw' /\ (fs = [] -> fs' = []).
Proof.
  intros HC NF HP HQ r. pose proof NF as (W1 & W2 & W3 & W4 & W5 & J & UM & L). nums proto port.
  pose proof (zlen_nonneg (c_from c)).
  destruct (ipt_rule_old_spec K cf 1 c (OUT_RULE_ARGS (c_table c) proto src dst port e (c_target c)) r [] (mkWant proto (Some src) (Some dst) port None 0 e (c_target c)) e now cs fw fs)
    as (cs' & fw' & fs' & R & S & G & A); auto.
  - unfold OUT_RULE_ARGS, expire_args, r, answer_rule, expiring. rewrite !dec_i_dec by lia.
    cbn [app]. rewrite app_nil_r. unfold rule_text. cbn [join app]. change EXPIRE_COMMENT_PREFIX with mark. rewrite <- ?app_assoc. reflexivity.
  - unfold r, answer_rule, expiring. cbn [app]. words_ok.
  - discriminate.
  - reflexivity.
  - unfold OUT_RULE_ARGS, expire_args. rewrite !dec_i_dec by lia. change EXPIRE_COMMENT_PREFIX with mark.
    set (dp := dec proto) in *. set (dq := dec port) in *. set (dx := dec e) in *. clearbody dp dq dx. clear r. fits.
  - exists cs', fw', fs'. split; [exact R|]. split; [exact S|]. split; [exact G|]. intro Q. apply (A Q).
Qed.

Notation may_make := access_chains.
Notation may_add := (access_rules src dst e).

Lemma open_ports_old_spec now pl : forall ci co cs fw fs,
  chain_at 0 cs = ci -> chain_at 1 cs = co ->
  names_fit (f_cmd cf) ci -> (c_to co = [] \/ names_fit (f_cmd cf) co) ->
  (forall x, numeral e x -> ~ holds (x ++ $ " ") (heading K (c_to ci))) ->
  Forall (fun x => 0 <= fst x <= 255 /\ 0 <= snd x <= 65535) pl ->
  exists cs' fw' fs',
    open_ports_old machine run cf src dst pl e now (cs, (fw, fs)) = Ok (cs', (fw', fs')) /\
    Forall2 same_names cs cs' /\ grown (may_make ci co) (may_add ci co pl) fw fw' /\
    (fs = [] -> fs' = [] /\ forall proto port, In (proto, port) pl ->
       (forall r, opens src dst proto port e (c_target ci) r -> legal K r = true) ->
       exists r, (opens src dst proto port e (c_target ci) r \/ told K cf src dst proto port e ci r) /\ present fw' ci r).
Proof.
  induction pl as [|[proto port] pl IH]; intros ci co cs fw fs H0 H1 N0 N1 NH F.
  - exists cs, fw, fs. split; [reflexivity|]. split; [apply names_refl|]. split; [apply grown_refl|]. intro Q. split; auto. intros ? ? [].
  - inversion F as [|? ? [HP HQ] F']; subst. cbn [fst snd] in HP, HQ. cbn [open_ports_old fst].
    destruct (in_rule_old (chain_at 0 cs) proto port now cs fw fs eq_refl N0 HP HQ NH) as (cs1 & fw1 & fs1 & R1 & S1 & G1 & A1).
    rewrite R1. cbn [bind fst].
    pose proof (nth_names 1 _ _ S1) as SN1. pose proof SN1 as (T1 & T2 & T3 & T4 & T5).
    assert (G1' : grown (may_make (chain_at 0 cs) (chain_at 1 cs)) (may_add (chain_at 0 cs) (chain_at 1 cs) ((proto, port) :: pl)) fw fw1).
    { revert G1. destruct N0 as (_ & W2 & _ & (W4 & _) & _). apply grown_impl.
      - intros t n [-> ->]. left. repeat split; auto.
      - intros t n r [J|(-> & -> & ->)]; [left; exact J|]. right. right. exists proto, port. split; [left; reflexivity|]. left.
        split; [repeat split; auto|]. apply access_opens; auto. }
    assert (ST : exists cs2 fw2 fs2,
      (if negb (zlen (c_to (chain_at 1 cs1)) =? 0)
       then ipt_rule_old machine run cf 1 (OUT_RULE_ARGS (c_table (chain_at 1 cs1)) proto src dst port e (c_target (chain_at 1 cs1)))
              (mkWant proto (Some src) (Some dst) port None 0 e (c_target (chain_at 1 cs1))) e now (cs1, (fw1, fs1))
       else Ok (cs1, (fw1, fs1))) = Ok (cs2, (fw2, fs2)) /\ Forall2 same_names cs1 cs2 /\
      grown (may_make (chain_at 0 cs) (chain_at 1 cs)) (may_add (chain_at 0 cs) (chain_at 1 cs) ((proto, port) :: pl)) fw1 fw2 /\
      (fs1 = [] -> fs2 = [])).
    { destruct (Z.eqb_spec (zlen (c_to (chain_at 1 cs1))) 0) as [Q|Q]; cbn [negb].
      - exists cs1, fw1, fs1. split; [reflexivity|]. split; [apply names_refl|]. split; [apply grown_refl|auto].
      - assert (N1' : names_fit (f_cmd cf) (chain_at 1 cs)).
        { destruct N1 as [E|N]; auto. exfalso. apply Q. rewrite T5, E. reflexivity. }
        destruct (out_rule_old (chain_at 1 cs1) proto port now cs1 fw1 fs1 eq_refl (names_fit_same _ _ _ SN1 N1') HP HQ)
          as (cs2 & fw2 & fs2 & R2 & S2 & G2 & A2).
        exists cs2, fw2, fs2. split; [exact R2|]. split; [exact S2|]. split; [|intro X; apply A2; auto].
        destruct N1' as (_ & _ & _ & (W4 & _) & _). revert G2. apply grown_impl.
        + intros t n [-> ->]. right. rewrite T2, T5. repeat split; auto.
        + intros t n r [J|(-> & -> & ->)].
          * right. left. split; [exact W4|]. unfold jump in J. rewrite T2, T3, T5 in J. exact J.
          * right. right. exists proto, port. split; [left; reflexivity|]. right. rewrite T1, T2, T5.
            split; [repeat split; auto|]. apply answer_answers; auto. }
    destruct ST as (cs2 & fw2 & fs2 & R2 & S2 & G2 & A2).
    match goal with |- context [bind ?x _] => match type of R2 with ?l = _ => change x with l end end. rewrite R2. cbn [bind].
    pose proof (names_trans _ _ _ S1 S2) as S3.
    pose proof (nth_names 0 _ _ S3) as SA. pose proof (nth_names 1 _ _ S3) as SB.
    destruct (IH _ _ cs2 fw2 fs2 eq_refl eq_refl) as (cs3 & fw3 & fs3 & R3 & S4 & G3 & A3); auto.
    { eapply names_fit_same; eauto. }
    { destruct N1 as [E|N]; [left; destruct SB as (_ & _ & _ & _ & ->); exact E|right; eapply names_fit_same; eauto]. }
    { destruct SA as (_ & _ & _ & _ & ->). exact NH. }
    exists cs3, fw3, fs3. split; [exact R3|]. split; [eapply names_trans; eauto|].
    destruct SA as (U1 & U2 & U3 & U4 & U5), SB as (V1 & V2 & V3 & V4 & V5).
    assert (G3' : grown (may_make (chain_at 0 cs) (chain_at 1 cs)) (may_add (chain_at 0 cs) (chain_at 1 cs) ((proto, port) :: pl)) fw2 fw3).
    { revert G3. unfold access_chains, access_rules, is_chain, jump_to. rewrite U1, U2, U3, U5, V1, V2, V3, V5.
      apply grown_impl; auto. intros t n r [J|[J|(p & q & I & H)]]; auto.
      right. right. exists p, q. split; [right; exact I|exact H]. }
    split. { eapply grown_trans; [exact G1'|]. eapply grown_trans; [exact G2|exact G3']. }
    intro Q. destruct (A1 Q) as [Q1 P1]. specialize (A2 Q1). destruct (A3 A2) as [Q3 P3]. split; auto.
    intros p q [E|I] LG.
    + injection E as <- <-. destruct P1 as [P1|(r' & P1 & T)]; [apply LG, access_opens; auto| |].
      * exists (access_rule src dst (dec proto) (dec port) (dec e) (c_target (chain_at 0 cs))).
        split; [left; apply access_opens; auto|]. apply (there_grown _ _ _ _ _ _ G3'). apply (there_grown _ _ _ _ _ _ G2). exact P1.
      * exists r'. split; [right; exact T|]. apply (there_grown _ _ _ _ _ _ G3'). apply (there_grown _ _ _ _ _ _ G2). exact P1.
    + destruct (P3 p q I) as (r & O & TH). { rewrite U1. exact LG. }
      exists r. unfold told in O. rewrite U1 in O. split; [exact O|]. unfold present in *. rewrite U2, U5 in TH. exact TH.
Qed.
End Req.

Section Whole.
Variable K : iptables.
Variable KO : iptables_ok K.
Variable cf : fwconf.
Variable resolve : bytes -> option bytes.
Notation run := (run_iptables K).
Variable nc : nat_conf.
Variable d : spa_data.
Variable now : Z.
Notation e := (now + d_timeout d).
Notation src := (d_use d).
Notation dst := (if f_use_dst cf then d_pkt_dst d else $ "0.0.0.0/0").
Hypothesis WS : word src. Hypothesis LS : zlen src <= 15.
Hypothesis WD : word (d_pkt_dst d). Hypothesis LD : zlen (d_pkt_dst d) <= 15.
Hypothesis HE : 0 <= e < 4294967296.

Theorem spa_access_old pl cs fw fs :
  ~ wants_nat nc (d_type d) -> requested (d_remain d) pl ->
  names_fit (f_cmd cf) (chain_at 0 cs) -> (c_to (chain_at 1 cs) = [] \/ names_fit (f_cmd cf) (chain_at 1 cs)) ->
  (forall x, numeral e x -> ~ holds (x ++ $ " ") (heading K (c_to (chain_at 0 cs)))) ->
  exists cs' fw' fs',
    process_spa_request_old machine run cf resolve nc d now (cs, (fw, fs)) = Ok (cs', (fw', fs')) /\
    Forall2 same_names cs cs' /\
    grown (access_chains (chain_at 0 cs) (chain_at 1 cs)) (access_rules src dst e (chain_at 0 cs) (chain_at 1 cs) pl) fw fw' /\
    (fs = [] -> fs' = [] /\ forall proto port, In (proto, port) pl ->
       (forall r, opens src dst proto port e (c_target (chain_at 0 cs)) r -> legal K r = true) ->
       exists r, (opens src dst proto port e (c_target (chain_at 0 cs)) r \/ told K cf src dst proto port e (chain_at 0 cs) r) /\ present fw' (chain_at 0 cs) r).
Proof.
  intros NN RQ N0 N1 NH. destruct (entries_ok _ _ RQ) as [NE F]. destruct RQ as (items & L & F2).
  unfold process_spa_request_old. rewrite (expand_port_list_ok _ _ _ L F2).
  destruct pl as [|[p q] pl]; [easy|]. cbv zeta.
  destruct (_ || n_force nc) eqn:B; [exfalso; apply NN, (wants_nat_iff nc d now HE), B|].
  rewrite (u32_small e) by lia. destruct (dst_word cf d WD LD) as [WD' LD'].
  exact (open_ports_old_spec K KO cf src _ WS LS WD' LD' e HE now _ _ _ cs fw fs eq_refl eq_refl N0 N1 NH F).
Qed.

(** ** A request of which the rule is there *)
Lemma rule_lines_concat (rs : list rule) : forall k, rule_lines K k rs = concat (map (fun l => l ++ [x0a]) (shown_lines K k rs)).
Proof. induction rs as [|r rs IH]; intro k; [reflexivity|]. cbn [rule_lines shown_lines map concat]. rewrite IH, <- !app_assoc. reflexivity. Qed.
Lemma shown_no_nl (rs : list rule) : Forall (fun r => ~ In x0a (show K r)) rs -> forall k, 0 <= k -> Forall (fun l => ~ In x0a l) (shown_lines K k rs).
Proof.
  induction 1 as [|r rs N F IH]; intros k HK; cbn [shown_lines]; constructor; [|apply IH; lia].
  intro I. apply in_app_or in I as [I|I]; [|apply in_app_or in I as [[I|[]]|I]; [discriminate|auto]].
  destruct KO as (KN & _). destruct (KN k HK) as (_ & A & _). exact (digits_nl _ A I).
Qed.
Lemma drops_none {A} (P : A -> Prop) l l' : only_drops P l l' -> (forall x, ~ P x) -> l = l'.
Proof. induction 1; intro N; [reflexivity|exfalso; eapply N; eauto|f_equal; auto]. Qed.

Theorem spa_once proto port cs fw rs hs l :
  ~ wants_nat nc (d_type d) -> requested (d_remain d) [(proto, port)] ->
  names_fit (f_cmd cf) (chain_at 0 cs) -> c_to (chain_at 1 cs) = [] -> c_from (chain_at 0 cs) <> c_to (chain_at 0 cs) ->
  fw (c_table (chain_at 0 cs)) (c_to (chain_at 0 cs)) = Some rs -> Forall (fun r => ~ In x0a (show K r)) rs ->
  text_lines (heading K (c_to (chain_at 0 cs))) hs -> first_with e l (hs ++ shown_lines K 1 rs) ->
  exists cs' fw', process_spa_request_old machine run cf resolve nc d now (cs, (fw, [])) = Ok (cs', (fw', [])) /\
    exists rs', fw' (c_table (chain_at 0 cs)) (c_to (chain_at 0 cs)) = Some rs' /\
      (tells src (if f_use_dst cf then Some dst else None) proto port e (c_target (chain_at 0 cs)) l -> rs' = rs) /\
      (~ tells src (if f_use_dst cf then Some dst else None) proto port e (c_target (chain_at 0 cs)) l ->
         forall r, opens src dst proto port e (c_target (chain_at 0 cs)) r -> legal K r = true ->
         rs' = if f_prepend cf then r :: rs else rs ++ [r]).
Proof.
  intros NN RQ NF OU FT HR SN (HH & HN) FW. destruct (entries_ok _ _ RQ) as [NE F]. inversion F as [|? ? [HP HQ] _]; subst. cbn [fst snd] in HP, HQ. destruct RQ as (items & L & F2).
  unfold process_spa_request_old. rewrite (expand_port_list_ok _ _ _ L F2). cbv zeta.
  destruct (_ || n_force nc) eqn:B; [exfalso; apply NN, (wants_nat_iff nc d now HE), B|].
  rewrite (u32_small e) by lia. destruct (dst_word cf d WD LD) as [WD' LD']. change IPT_ANY_IP with ($ "0.0.0.0/0"). set (D := dst) in *.
  assert (DD : (if f_use_dst cf then Some D else None) = (if f_use_dst cf then Some D else None)) by reflexivity. clearbody D.
  cbn [open_ports_old fst]. set (c := chain_at 0 cs) in *. assert (HC : chain_at 0 cs = c) by reflexivity.
  pose proof NF as (W1 & W2 & W3 & W4 & W5 & J & UM & LL).
  pose proof (zlen_nonneg (c_from c)). pose proof (zlen_nonneg (c_table c)). pose proof (zlen_nonneg (c_to c)). pose proof (zlen_nonneg (f_cmd cf)). pose proof (zlen_nonneg (c_target c)).
  set (q := mkWant proto (Some src) (Some D) port None 0 e (c_target c)).
  assert (DEC : rule_listed (here cf q) (listing K (c_to c) rs) = true <-> tells src (if f_use_dst cf then Some D else None) proto port e (c_target c) l).
  { change (here cf q) with (plain_want proto src (if f_use_dst cf then Some D else None) port e (c_target c)).
    destruct FW as (before & after & x & E & PL & L4 & NX & HX & NB). assert (x = dec e) as -> by (apply (numeral_unique e); [lia|exact NX|apply dec_num; lia]).
    apply (listed_first proto port e src (c_target c) (if f_use_dst cf then Some D else None) HP HQ HE LS ltac:(lia) ltac:(destruct (f_use_dst cf); auto) (listing K (c_to c) rs) before l after); auto.
    rewrite <- E. split.
    - unfold listing. rewrite map_app, concat_app, <- HH, <- rule_lines_concat. reflexivity.
    - apply Forall_app. split; [exact HN|]. apply shown_no_nl; [exact SN|lia]. }
  clear FW.
  assert (NE' : numeral e (dec e)) by (apply dec_num; lia). assert (LE : zlen (dec e) <= 10) by (apply dec_len10; lia).
  assert (NP : numeral proto (dec proto)) by (apply dec_num; lia). assert (LP : zlen (dec proto) <= 5) by (apply dec_len5; lia).
  assert (NQ : numeral port (dec port)) by (apply dec_num; lia). assert (LQ : zlen (dec port) <= 5) by (apply dec_len5; lia).
  assert (WX : word (mark ++ dec e)) by (apply mark_word; apply NE').
  set (r := access_rule src D (dec proto) (dec port) (dec e) (c_target c)).
  assert (TXT : RULE_ARGS (c_table c) proto src D port e (c_target c) = rule_text (c_table c) r).
  { unfold RULE_ARGS, expire_args, r, access_rule, expiring. rewrite !dec_i_dec by lia.
    cbn [app]. unfold rule_text. cbn [join app]. change EXPIRE_COMMENT_PREFIX with mark. rewrite <- ?app_assoc. reflexivity. }
  assert (LEN : zlen (f_cmd cf) + zlen (c_to c) + zlen (RULE_ARGS (c_table c) proto src D port e (c_target c)) + 5 <= 254).
  { unfold RULE_ARGS, expire_args. rewrite !dec_i_dec by lia. change EXPIRE_COMMENT_PREFIX with mark. clear TXT r.
    set (dp := dec proto) in *. set (dq := dec port) in *. set (dx := dec e) in *. clearbody dp dq dx. fits. }
  assert (WR : Forall word r). { unfold r, access_rule, expiring. cbn [app]. words_ok. }
  unfold ipt_rule_old. cbv zeta. change (chain_at 0 cs) with c. rewrite fmt_id by lia. rewrite TXT in *.
  destruct (mk_chain_old_spec K cf c NF fw []) as (fw1 & fs1 & R1 & G1 & A1).
  match type of R1 with ?l = _ => match goal with |- context [mk_chain_old ?a1 ?a2 ?a3 ?a4 ?a5] => change (mk_chain_old a1 a2 a3 a4 a5) with l end end.
  rewrite R1. cbn [bind]. destruct (A1 eq_refl) as (-> & _).
  assert (HR1 : fw1 (c_table c) (c_to c) = Some rs).
  { specialize (G1 (c_table c) (c_to c)). rewrite HR in G1. destruct G1 as (rs' & E & DR). rewrite E. f_equal. eapply drops_none; [exact DR|].
    intros x (_ & Q & _). congruence. }
  unfold rule_exists_old. fold (here cf q). destruct (output_spec K cf (c_table c) (c_to c) fw1 []) as (out & R2 & A2); auto; try lia. rewrite R2. cbn [bind tl].
  rewrite (A2 eq_refl), HR1. destruct (rule_listed (here cf q) (listing K (c_to c) rs)) eqn:TH.
  - cbn [bind fst]. rewrite OU. change (zlen [] =? 0) with true. cbn [negb bind]. exists cs, fw1. split; [reflexivity|]. exists rs. split; [exact HR1|]. split; [reflexivity|]. intro N. exfalso. apply N, DEC. reflexivity.
  - assert (CR : create_rule machine run cf (c_to c) (rule_text (c_table c) r) (fw1, []) =
      Ok (true, (if legal K r then put_chain fw1 (c_table c) (c_to c) (Some (if f_prepend cf then r :: rs else rs ++ [r])) else fw1, []))).
    { unfold create_rule. set (op := if f_prepend cf then $ "-I" else $ "-A").
      destruct (run_cmd K cf ((if f_prepend cf then $ "-I " else $ "-A ") ++ c_to c ++ $ " " ++ rule_text (c_table c) r)
              (f_cmd cf :: op :: c_to c :: $ "-t" :: c_table c :: r) fw1 []) as (ok & fw' & R & C & A).
      { unfold op, rule_text. cbn [join]. destruct (f_prepend cf); reflexivity. }
      { unfold op. destruct (f_prepend cf); do 3 (apply Forall_cons; [first [assumption | lit]|]); do 2 (apply Forall_cons; [first [assumption | lit]|]); exact WR. }
      { reflexivity. }
      { replace (join [" "%byte] (f_cmd cf :: op :: c_to c :: $ "-t" :: c_table c :: r)) with
          (f_cmd cf ++ [" "%byte] ++ op ++ [" "%byte] ++ c_to c ++ [" "%byte] ++ rule_text (c_table c) r) by reflexivity.
        rewrite !zlen_app. change (zlen [" "%byte]) with 1. assert (zlen op = 2) by (unfold op; destruct (f_prepend cf); reflexivity). lia. }
      rewrite R. cbn [bind tl]. destruct (A eq_refl) as (_ & ->). f_equal. f_equal. f_equal.
      unfold ipt, op. change (access_rule src D (dec proto) (dec port) (dec e) (c_target c)) with r.
      destruct (f_prepend cf); [change (bseq ($ "-I") ($ "-t")) with false|change (bseq ($ "-A") ($ "-t")) with false];
        change (bseq ($ "-t") ($ "-t")) with true; unfold r, access_rule; cbn [app]; cbn iota; fold r; unfold ipt_chain; rewrite HR1;
        [change (bseq ($ "-I") ($ "-C")) with false; change (bseq ($ "-I") ($ "-A")) with false; change (bseq ($ "-I") ($ "-I")) with true|
         change (bseq ($ "-A") ($ "-C")) with false; change (bseq ($ "-A") ($ "-A")) with true]; cbn iota;
        destruct (legal K _); reflexivity. }
    rewrite CR. cbn [bind]. cbn [fst].
    assert (O1 : c_to (chain_at 1 (set_chain 0 (mkChain (c_target c) (c_table c) (c_from c) (c_jump c) (c_to c) (c_active c + 1)
        (if (c_next c <? now) || (e <? c_next c) then e else c_next c)) cs)) = []).
    { destruct cs as [|c0 cs]; [exact OU|]. cbn [set_chain]. destruct cs; exact OU. }
    rewrite O1. change (zlen [] =? 0) with true. cbn [negb bind]. eexists _, _. split; [reflexivity|].
    destruct (legal K r) eqn:LG.
    + eexists. split; [apply put_same|]. split; [intro T; exfalso; apply DEC in T; discriminate|].
      intros _ r0 (p & q0 & x & N1 & N2 & N3 & ->) _.
      assert (p = dec proto) as -> by (apply (numeral_unique (proto)); [lia|assumption|assumption]). assert (q0 = dec port) as -> by (apply (numeral_unique (port)); [lia|assumption|assumption]).
      assert (x = dec e) as -> by (apply (numeral_unique (e)); [lia|assumption|assumption]). reflexivity.
    + exists rs. split; [exact HR1|]. split; [reflexivity|].
      intros _ r0 (p & q0 & x & N1 & N2 & N3 & ->) LG0. exfalso.
      assert (p = dec proto) as -> by (apply (numeral_unique (proto)); [lia|assumption|assumption]). assert (q0 = dec port) as -> by (apply (numeral_unique (port)); [lia|assumption|assumption]).
      assert (x = dec e) as -> by (apply (numeral_unique (e)); [lia|assumption|assumption]). unfold r, access_rule in LG. congruence.
Qed.
End Whole.
