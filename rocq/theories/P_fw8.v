(** Proofs about process_spa_request. *)
From Verif Require Import Bytes M_util M_message M_codec M_access M_cycle M_incoming M_packet M_fw
  S_text S_access S_fw P_bytes P_util P_util2 P_access P_fw P_fw2 P_fw3 P_fw4 P_fw5 P_fw6 P_fw7.
From Coq Require Import Init.Byte List ZArith Bool Lia.
Import ListNotations.
Open Scope Z_scope.

Lemma nth_names i cs cs' : Forall2 same_names cs cs' -> same_names (chain_at i cs) (chain_at i cs').
Proof.
  intro F. revert i. induction F; intros [|i]; cbn; auto using same_names_refl. apply IHF.
Qed.
Lemma names_trans a b c : Forall2 same_names a b -> Forall2 same_names b c -> Forall2 same_names a c.
Proof.
  intro F. revert c. induction F as [|x y a b H F IH]; intros c G; inversion G; subst; constructor; auto.
  unfold same_names in *. intuition congruence.
Qed.
Lemma names_fit_same exe c c' : same_names c c' -> names_fit exe c -> names_fit exe c'.
Proof. intros (A & B & C & D & E) H. unfold names_fit in *. rewrite ?A, ?B, ?C, ?D, ?E in *. exact H. Qed.

Lemma mark_word x : all_digits x -> word (mark ++ x).
Proof.
  intro A. split; [discriminate|]. apply Forall_app. split.
  - apply word_lit; [reflexivity|discriminate].
  - eapply Forall_impl; [|exact A]. intros. now apply digit_not_blank.
Qed.
Lemma colon_word ip n : word ip -> word n -> word (ip ++ [":"%byte] ++ n).
Proof.
  intros [N F] [_ G]. split; [destruct ip; [easy|discriminate]|]. apply Forall_app. split; auto. apply Forall_app. split; auto.
  apply word_lit; [reflexivity|discriminate].
Qed.

Ltac fits := cbn [join app]; rewrite ?zlen_app;
  repeat match goal with |- context [zlen (str ?s)] => let v := eval vm_compute in (zlen (str s)) in change (zlen (str s)) with v end;
  change (zlen mark) with 5; change (zlen [" "%byte]) with 1; change (zlen [":"%byte]) with 1; lia.

Definition access_rule (src dst p q x target : bytes) : rule :=
  [$ "-p"; p; $ "-s"; src; $ "-d"; dst; $ "--dport"; q] ++ expiring x target.
Definition answer_rule (src dst p q x target : bytes) : rule :=
  [$ "-p"; p; $ "-d"; src; $ "-s"; dst; $ "--sport"; q] ++ expiring x target.

Section Req.
Variable K : iptables.
Variable KO : iptables_ok K.
Variable cf : fwconf.
Notation run := (run_iptables K).
Variables src dst : bytes.
Hypothesis WS : word src. Hypothesis LS : zlen src <= 15.
Hypothesis WD : word dst. Hypothesis LD : zlen dst <= 15.
Variable e : Z.
Hypothesis HE : 0 <= e < 4294967296.

Lemma e_num : numeral e (dec e). Proof. apply dec_num. lia. Qed.
Lemma e_len : zlen (dec e) <= 10. Proof. apply dec_len10. lia. Qed.


Ltac nums proto port :=
  pose proof e_num as NE; pose proof e_len as LE;
  assert (NP : numeral proto (dec proto)) by (apply dec_num; lia); assert (LP : zlen (dec proto) <= 5) by (apply dec_len5; lia);
  assert (NQ : numeral port (dec port)) by (apply dec_num; lia); assert (LQ : zlen (dec port) <= 5) by (apply dec_len5; lia);
  assert (WX : word (mark ++ dec e)) by (apply mark_word; apply NE).

Lemma in_rule_spec c proto port now cs fw fs :
  chain_at 0 cs = c -> names_fit (f_cmd cf) c -> 0 <= proto <= 255 -> 0 <= port <= 65535 ->
  let r := access_rule src dst (dec proto) (dec port) (dec e) (c_target c) in
  exists cs' fw' fs',
    ipt_rule machine run cf 0 (RULE_ARGS (c_table c) proto src dst port e (c_target c)) e now (cs, (fw, fs)) = Ok (cs', (fw', fs')) /\
    Forall2 same_names cs cs' /\ grown (mine c) (adds c r) fw fw' /\
    (fs = [] -> fs' = [] /\ (legal K r = true -> exists rs', fw' (c_table c) (c_to c) = Some rs' /\ In r rs')).
Proof.
  intros HC NF HP HQ r. pose proof NF as (W1 & W2 & W3 & W4 & W5 & J & UM & L). nums proto port.
  pose proof (zlen_nonneg (c_from c)).
  apply (ipt_rule_at K KO cf 0 c _ r []); auto.
  - unfold RULE_ARGS, expire_args, r, access_rule, expiring. rewrite !dec_i_dec by lia.
    cbn [app]. rewrite app_nil_r. unfold rule_text. cbn [join app]. change EXPIRE_COMMENT_PREFIX with mark. rewrite <- ?app_assoc. reflexivity.
  - unfold r, access_rule, expiring. cbn [app]. words_ok.
  - discriminate.
  - reflexivity.
  - unfold RULE_ARGS, expire_args. rewrite !dec_i_dec by lia. change EXPIRE_COMMENT_PREFIX with mark.
    set (dp := dec proto) in *. set (dq := dec port) in *. set (dx := dec e) in *. clearbody dp dq dx. clear r. fits.
Qed.
Lemma out_rule_spec c proto port now cs fw fs :
  chain_at 1 cs = c -> names_fit (f_cmd cf) c -> 0 <= proto <= 255 -> 0 <= port <= 65535 ->
  let r := answer_rule src dst (dec proto) (dec port) (dec e) (c_target c) in
  exists cs' fw' fs',
    ipt_rule machine run cf 1 (OUT_RULE_ARGS (c_table c) proto src dst port e (c_target c)) e now (cs, (fw, fs)) = Ok (cs', (fw', fs')) /\
    Forall2 same_names cs cs' /\ grown (mine c) (adds c r) fw fw' /\
    (fs = [] -> fs' = [] /\ (legal K r = true -> exists rs', fw' (c_table c) (c_to c) = Some rs' /\ In r rs')).
Proof.
  intros HC NF HP HQ r. pose proof NF as (W1 & W2 & W3 & W4 & W5 & J & UM & L). nums proto port.
  pose proof (zlen_nonneg (c_from c)).
  apply (ipt_rule_at K KO cf 1 c _ r []); auto.
  - unfold OUT_RULE_ARGS, expire_args, r, answer_rule, expiring. rewrite !dec_i_dec by lia.
    cbn [app]. rewrite app_nil_r. unfold rule_text. cbn [join app]. change EXPIRE_COMMENT_PREFIX with mark. rewrite <- ?app_assoc. reflexivity.
  - unfold r, answer_rule, expiring. cbn [app]. words_ok.
  - discriminate.
  - reflexivity.
  - unfold OUT_RULE_ARGS, expire_args. rewrite !dec_i_dec by lia. change EXPIRE_COMMENT_PREFIX with mark.
    set (dp := dec proto) in *. set (dq := dec port) in *. set (dx := dec e) in *. clearbody dp dq dx. clear r. fits.
Qed.

(** ** Access requests without NAT *)
Notation may_make := access_chains.
Notation may_add := (access_rules src dst e).

Lemma access_opens proto port target : 0 <= proto <= 255 -> 0 <= port <= 65535 ->
  opens src dst proto port e target (access_rule src dst (dec proto) (dec port) (dec e) target).
Proof.
  intros. exists (dec proto), (dec port), (dec e). split; [apply dec_num; lia|]. split; [apply dec_num; lia|]. split; [apply e_num|reflexivity].
Qed.
Lemma answer_answers proto port target : 0 <= proto <= 255 -> 0 <= port <= 65535 ->
  answers src dst proto port e target (answer_rule src dst (dec proto) (dec port) (dec e) target).
Proof.
  intros. exists (dec proto), (dec port), (dec e). split; [apply dec_num; lia|]. split; [apply dec_num; lia|]. split; [apply e_num|reflexivity].
Qed.

Notation there := present.
Lemma there_grown new P fw fw' c r : grown new P fw fw' -> there fw c r -> there fw' c r.
Proof. intros G (rs & E & I). exact (grown_in _ _ _ _ _ _ _ _ G E I). Qed.

Lemma open_ports_spec now pl : forall ci co cs fw fs,
  chain_at 0 cs = ci -> chain_at 1 cs = co ->
  names_fit (f_cmd cf) ci -> (c_to co = [] \/ names_fit (f_cmd cf) co) ->
  Forall (fun x => 0 <= fst x <= 255 /\ 0 <= snd x <= 65535) pl ->
  exists cs' fw' fs',
    open_ports machine run cf src dst pl e now (cs, (fw, fs)) = Ok (cs', (fw', fs')) /\
    Forall2 same_names cs cs' /\ grown (may_make ci co) (may_add ci co pl) fw fw' /\
    (fs = [] -> fs' = [] /\ forall proto port, In (proto, port) pl ->
       (forall r, opens src dst proto port e (c_target ci) r -> legal K r = true) ->
       exists r, opens src dst proto port e (c_target ci) r /\ there fw' ci r).
Proof.
  induction pl as [|[proto port] pl IH]; intros ci co cs fw fs H0 H1 N0 N1 F.
  - exists cs, fw, fs. split; [reflexivity|]. split; [apply names_refl|]. split; [apply grown_refl|]. intro Q. split; auto. intros ? ? [].
  - inversion F as [|? ? [HP HQ] F']; subst. cbn [fst snd] in HP, HQ. cbn [open_ports fst].
    destruct (in_rule_spec (chain_at 0 cs) proto port now cs fw fs eq_refl N0 HP HQ) as (cs1 & fw1 & fs1 & R1 & S1 & G1 & A1).
    rewrite R1. cbn [bind fst].
    pose proof (nth_names 1 _ _ S1) as SN1. pose proof SN1 as (T1 & T2 & T3 & T4 & T5).
    assert (G1' : grown (may_make (chain_at 0 cs) (chain_at 1 cs)) (may_add (chain_at 0 cs) (chain_at 1 cs) ((proto, port) :: pl)) fw fw1).
    { revert G1. destruct N0 as (_ & W2 & _ & (W4 & _) & _). apply grown_impl.
      - intros t n [-> ->]. left. repeat split; auto.
      - intros t n r [J|(-> & -> & ->)]; [left; exact J|]. right. right. exists proto, port. split; [left; reflexivity|]. left.
        split; [repeat split; auto|]. apply access_opens; auto. }
    assert (ST : exists cs2 fw2 fs2,
      (if negb (zlen (c_to (chain_at 1 cs1)) =? 0)
       then ipt_rule machine run cf 1 (OUT_RULE_ARGS (c_table (chain_at 1 cs1)) proto src dst port e (c_target (chain_at 1 cs1))) e now (cs1, (fw1, fs1))
       else Ok (cs1, (fw1, fs1))) = Ok (cs2, (fw2, fs2)) /\ Forall2 same_names cs1 cs2 /\
      grown (may_make (chain_at 0 cs) (chain_at 1 cs)) (may_add (chain_at 0 cs) (chain_at 1 cs) ((proto, port) :: pl)) fw1 fw2 /\
      (fs1 = [] -> fs2 = [])).
    { destruct (Z.eqb_spec (zlen (c_to (chain_at 1 cs1))) 0) as [Q|Q]; cbn [negb].
      - exists cs1, fw1, fs1. split; [reflexivity|]. split; [apply names_refl|]. split; [apply grown_refl|auto].
      - assert (N1' : names_fit (f_cmd cf) (chain_at 1 cs)).
        { destruct N1 as [E|N]; auto. exfalso. apply Q. rewrite T5, E. reflexivity. }
        destruct (out_rule_spec (chain_at 1 cs1) proto port now cs1 fw1 fs1 eq_refl (names_fit_same _ _ _ SN1 N1') HP HQ)
          as (cs2 & fw2 & fs2 & R2 & S2 & G2 & A2).
        exists cs2, fw2, fs2. split; [exact R2|]. split; [exact S2|]. split; [|intro X; apply A2; auto].
        destruct N1' as (_ & _ & _ & (W4 & _) & _). revert G2. apply grown_impl.
        + intros t n [-> ->]. right. rewrite T2, T5. repeat split; auto.
        + intros t n r [J|(-> & -> & ->)].
          * right. left. split; [exact W4|]. unfold jump in J. rewrite T2, T3, T5 in J. exact J.
          * right. right. exists proto, port. split; [left; reflexivity|]. right. rewrite T1, T2, T5.
            split; [repeat split; auto|]. apply answer_answers; auto. }
    destruct ST as (cs2 & fw2 & fs2 & R2 & S2 & G2 & A2).
    match goal with |- context [bind ?x _] => match type of R2 with ?l = _ => change x with l end end. rewrite R2. cbn [bind].
    pose proof (names_trans _ _ _ S1 S2) as S3.
    pose proof (nth_names 0 _ _ S3) as SA. pose proof (nth_names 1 _ _ S3) as SB.
    destruct (IH _ _ cs2 fw2 fs2 eq_refl eq_refl) as (cs3 & fw3 & fs3 & R3 & S4 & G3 & A3); auto.
    { eapply names_fit_same; eauto. }
    { destruct N1 as [E|N]; [left; destruct SB as (_ & _ & _ & _ & ->); exact E|right; eapply names_fit_same; eauto]. }
    exists cs3, fw3, fs3. split; [exact R3|]. split; [eapply names_trans; eauto|].
    destruct SA as (U1 & U2 & U3 & U4 & U5), SB as (V1 & V2 & V3 & V4 & V5).
    assert (G3' : grown (may_make (chain_at 0 cs) (chain_at 1 cs)) (may_add (chain_at 0 cs) (chain_at 1 cs) ((proto, port) :: pl)) fw2 fw3).
    { revert G3. unfold access_chains, access_rules, is_chain, jump_to. rewrite U1, U2, U3, U5, V1, V2, V3, V5.
      apply grown_impl; auto. intros t n r [J|[J|(p & q & I & H)]]; auto.
      right. right. exists p, q. split; [right; exact I|exact H]. }
    split. { eapply grown_trans; [exact G1'|]. eapply grown_trans; [exact G2|exact G3']. }
    intro Q. destruct (A1 Q) as [Q1 P1]. specialize (A2 Q1). destruct (A3 A2) as [Q3 P3]. split; auto.
    intros p q [E|I] LG.
    + injection E as <- <-. exists (access_rule src dst (dec proto) (dec port) (dec e) (c_target (chain_at 0 cs))).
      split; [apply access_opens; auto|]. apply (there_grown _ _ _ _ _ _ G3'). apply (there_grown _ _ _ _ _ _ G2).
      apply P1. apply LG. apply access_opens; auto.
    + destruct (P3 p q I) as (r & O & TH). { rewrite U1. exact LG. }
      exists r. rewrite U1 in O. split; auto. unfold present in *. rewrite U2, U5 in TH. exact TH.
Qed.
End Req.

(** The requested protocols and ports *)
Lemma entries_ok s pl : requested s pl ->
  pl <> [] /\ Forall (fun x : Z * Z => 0 <= fst x <= 255 /\ 0 <= snd x <= 65535) pl.
Proof.
  intros (items & L & F). split.
  - destruct L as (raws & _ & N & _ & G). intros ->. inversion F; subst. inversion G; subst. easy.
  - clear L. induction F as [|it [p q] items pl [(a & ds & _ & _ & P & _ & Q) _] F IH]; constructor; cbn [fst snd] in *; auto. lia.
Qed.
