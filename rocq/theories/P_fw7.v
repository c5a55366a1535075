(** Proofs about the creation of rules. *)
From Verif Require Import Bytes M_util M_message M_codec M_access M_cycle M_incoming M_packet M_fw
  S_text S_fw P_bytes P_util P_util2 P_fw P_fw2 P_fw3 P_fw4 P_fw5 P_fw6.
From Coq Require Import Init.Byte List ZArith Bool Lia.
Import ListNotations.
Open Scope Z_scope.

(** ** Growth *)
Lemma drops_refl {A} (P : A -> Prop) l : only_drops P l l.
Proof. induction l; [apply drops_nil|now apply drops_keep]. Qed.
Lemma drops_trans {A} (P : A -> Prop) a b c : only_drops P a b -> only_drops P b c -> only_drops P a c.
Proof.
  intro H. revert c. induction H as [|x a b Px H IH|x a b H IH]; intros c G; auto.
  - apply drops_drop; auto.
  - inversion G; subst; [apply drops_drop|apply drops_keep]; auto.
Qed.
Lemma drops_impl {A} (P Q : A -> Prop) a b : (forall x, P x -> Q x) -> only_drops P a b -> only_drops Q a b.
Proof. intros I H. induction H; [apply drops_nil|apply drops_drop|apply drops_keep]; auto. Qed.
Lemma drops_app {A} (P : A -> Prop) a x b : P x -> only_drops P (a ++ x :: b) (a ++ b).
Proof. intro H. induction a; cbn; [apply drops_drop; auto using drops_refl|now apply drops_keep]. Qed.
Lemma drops_all {A} (P : A -> Prop) a b : only_drops P a b -> Forall P b -> Forall P a.
Proof. induction 1; intro F; auto; inversion F; subst; auto. Qed.

Lemma grown_refl new P fw : grown new P fw fw.
Proof. intros t c. destruct (fw t c) as [rs|]; auto. exists rs. auto using drops_refl. Qed.
Lemma grown_trans new P a b d : grown new P a b -> grown new P b d -> grown new P a d.
Proof.
  intros H G t c. specialize (H t c). specialize (G t c). destruct (a t c) as [rs|].
  - destruct H as (r1 & E1 & D1). rewrite E1 in G. destruct G as (r2 & E2 & D2). exists r2. split; auto. eapply drops_trans; eauto.
  - destruct H as [E|(N & r1 & E1 & F1)].
    + rewrite E in G. exact G.
    + rewrite E1 in G. destruct G as (r2 & E2 & D2). right. split; auto. exists r2. split; auto. eapply drops_all; eauto.
Qed.
Lemma grown_impl (new new' : bytes -> bytes -> Prop) (P Q : bytes -> bytes -> rule -> Prop) fw fw' :
  (forall t c, new t c -> new' t c) -> (forall t c r, P t c r -> Q t c r) -> grown new P fw fw' -> grown new' Q fw fw'.
Proof.
  intros I J G t c. specialize (G t c). destruct (fw t c).
  - destruct G as (r1 & E & D). exists r1. split; auto. apply (drops_impl (P t c)); auto.
  - destruct G as [E|(N & r1 & E & F)]; auto. right. split; auto. exists r1. split; auto. revert F. apply Forall_impl. auto.
Qed.
Lemma grown_put new P fw t c rs rs' :
  fw t c = Some rs -> only_drops (P t c) rs' rs -> grown new P fw (put_chain fw t c (Some rs')).
Proof.
  intros E D t' c'. unfold put_chain. destruct (bseq t' t && bseq c' c) eqn:B.
  - apply andb_true_iff in B. destruct B as [B1 B2]. apply bseq_eq in B1, B2. subst. rewrite E. exists rs'. auto.
  - apply grown_refl.
Qed.
Lemma grown_new new P fw t c : fw t c = None -> (new t c : Prop) -> grown new P fw (put_chain fw t c (Some [])).
Proof.
  intros E D t' c'. unfold put_chain. destruct (bseq t' t && bseq c' c) eqn:B.
  - apply andb_true_iff in B. destruct B as [B1 B2]. apply bseq_eq in B1, B2. subst. rewrite E. right. split; auto. exists []. auto.
  - apply grown_refl.
Qed.
Lemma grown_in new P fw fw' t c rs r : grown new P fw fw' -> fw t c = Some rs -> In r rs ->
  exists rs', fw' t c = Some rs' /\ In r rs'.
Proof.
  intros G E I. specialize (G t c). rewrite E in G. destruct G as (rs' & E' & D). exists rs'. split; auto.
  clear - D I. induction D; cbn in *; intuition.
Qed.

(** ** Command lines that end in blanks *)
Lemma words_tail s ws sp : words s ws -> Forall blank sp -> words (s ++ sp) ws.
Proof.
  intros H B. induction H as [s F|a w t ws F N NB T H IH].
  - constructor. apply Forall_app. auto.
  - replace ((a ++ w ++ t) ++ sp) with (a ++ w ++ (t ++ sp)) by (now rewrite !app_assoc). constructor; auto.
    destruct T as [->|T].
    + cbn. destruct B; [now left|right; auto].
    + destruct t; [exfalso; revert T; clear; intros [H|H]; [discriminate|destruct H as [H _]; vm_compute in H; apply H; reflexivity] |right; exact T].
Qed.
Lemma run_tail K m ws sp size : Forall word ws -> Forall blank sp -> zlen ws < 29 -> zlen (join [" "%byte] ws ++ sp) <= 254 ->
  run_extcmd machine (run_iptables K) m (fmt (join [" "%byte] ws ++ sp)) size = Ok (captured size (run_iptables K m ws)).
Proof.
  intros F B N L. rewrite fmt_id by auto. unfold run_extcmd. rewrite (strtoargv_words _ ws).
  - destruct (Z.ltb_spec (zlen ws) 29); [|lia]. cbn [bind]. destruct (run_iptables K m ws) as [[m' []] out]; reflexivity.
  - apply words_tail; auto using words_join.
  - apply Forall_forall. intros w I. pose proof (join_zlen_in w ws I). rewrite zlen_app in L. pose proof (zlen_nonneg sp). lia.
Qed.

(** ** One command *)
Lemma run_effect K fw fs argv : exists fw' e out,
  run_iptables K (fw, fs) argv = ((fw', tl fs), e, out) /\
  (fw' = fw \/ fw' = fst (ipt K fw argv)) /\
  (fs = [] -> fw' = fst (ipt K fw argv) /\ e = Exited /\ out = snd (ipt K fw argv)).
Proof.
  unfold run_iptables. destruct (ipt K fw argv) as [fw1 o]. cbn [fst snd]. destruct fs as [|[] fs]; cbn [hd tl];
    do 3 eexists; (split; [reflexivity|]); (split; [auto|]); auto; discriminate.
Qed.

Lemma cut_rev_some r : r <> [] -> cut_rev r <> [].
Proof.
  induction r as [|c r IH]; [easy|]. intros _. destruct r as [|d r]; [discriminate|].
  change (cut_rev (c :: d :: r)) with (if beq c x0a then c :: d :: r else cut_rev (d :: r)).
  destruct (beq c x0a); [discriminate|]. apply IH. discriminate.
Qed.
Lemma rev_some {A} (l : list A) : l <> [] -> rev l <> [].
Proof. intros N Q. apply N. rewrite <- (rev_involutive l), Q. reflexivity. Qed.
Lemma seen s : s <> [] -> chop_newline (truncate_partial_line s) <> [].
Proof.
  intro N. assert (T : truncate_partial_line s <> []).
  { unfold truncate_partial_line. destruct (memb x0a s); auto. apply rev_some, cut_rev_some, rev_some, N. }
  destruct (truncate_partial_line s) as [|a [|b t]]; [easy|discriminate|].
  unfold chop_newline. destruct ((_ >? _) && _); [|discriminate]. cbn. discriminate.
Qed.

Section Make.
Variable K : iptables.
Variable KO : iptables_ok K.
Variable cf : fwconf.
Notation run := (run_iptables K).

Lemma run_cmd_tail args ws sp fw fs :
  f_cmd cf ++ $ " " ++ args = join [" "%byte] ws ++ sp -> Forall word ws -> Forall blank sp -> zlen ws < 29 ->
  zlen (join [" "%byte] ws ++ sp) <= 254 ->
  exists ok fw', command machine run cf args (fw, fs) = Ok (ok, (fw', tl fs)) /\
    (fw' = fw \/ fw' = fst (ipt K fw ws)) /\ (fs = [] -> ok = true /\ fw' = fst (ipt K fw ws)).
Proof.
  intros E F B N L. unfold command. rewrite E, run_tail by auto. cbn [bind].
  destruct (run_effect K fw fs ws) as (fw' & e & out & R & C & A). rewrite R. unfold captured. destruct e; cbn [bind].
  1,2: exists false, fw'; split; [reflexivity|]; split; auto; intro Q; destruct (A Q) as (_ & X & _); discriminate.
  exists true, fw'. split; [reflexivity|]. split; auto. intro Q. destruct (A Q) as (X & _); auto.
Qed.

Lemma run_cmd args ws fw fs :
  f_cmd cf ++ $ " " ++ args = join [" "%byte] ws -> Forall word ws -> zlen ws < 29 -> zlen (join [" "%byte] ws) <= 254 ->
  exists ok fw', command machine run cf args (fw, fs) = Ok (ok, (fw', tl fs)) /\
    (fw' = fw \/ fw' = fst (ipt K fw ws)) /\ (fs = [] -> ok = true /\ fw' = fst (ipt K fw ws)).
Proof. intros E F N L. apply (run_cmd_tail args ws []); rewrite ?app_nil_r; auto. Qed.

Lemma trouble_seen : zlen (chop_newline (truncate_partial_line (read_output CMD_BUFSIZE (trouble K) [] []))) =? 0 = false.
Proof.
  destruct KO as (_ & _ & m & -> & N & Z).
  rewrite read_output_spec; auto using no_nul_nil; [|apply no_nul_app; split; [exact Z|intros [|[]]; discriminate]|reflexivity].
  cbn [app]. rewrite zlen_nil. destruct m as [|x m]; [easy|].
  replace (CMD_BUFSIZE - 1 - 0) with 255 by reflexivity.
  assert (S1 : chop_newline (truncate_partial_line (ztake 255 ((x :: m) ++ [x0a]))) <> []) by (apply seen; discriminate).
  destruct (chop_newline _) as [|a l]; [easy|]. rewrite zlen_cons. pose proof (zlen_nonneg l). apply Z.eqb_neq. lia.
Qed.

Definition rule_text (t : bytes) (r : rule) : bytes := join [" "%byte] ($ "-t" :: t :: r).

(** rule_exists_chk_support *)
Lemma exists_spec n t r sp fw fs :
  word (f_cmd cf) -> word n -> word t -> Forall word r -> r <> [] -> Forall blank sp -> zlen r < 20 ->
  zlen (f_cmd cf) + zlen n + zlen (rule_text t r) + zlen sp + 5 <= 254 ->
  exists there, rule_exists machine run cf n (rule_text t r ++ sp) (fw, fs) = Ok (there, (fw, tl fs)) /\
    (fs = [] -> there = match fw t n with Some rs => existsb (same_rule r) rs | None => false end).
Proof.
  intros W1 W2 W3 WR NE B N L.
  set (ws := f_cmd cf :: $ "-C" :: n :: $ "-t" :: t :: r).
  assert (E : f_cmd cf ++ $ " -C " ++ n ++ $ " " ++ rule_text t r ++ sp = join [" "%byte] ws ++ sp).
  { rewrite !app_assoc. f_equal. rewrite <- !app_assoc. reflexivity. }
  assert (WS : Forall word ws).
  { do 3 (apply Forall_cons; [first [assumption | lit]|]). do 2 (apply Forall_cons; [first [assumption | lit]|]). exact WR. }
  unfold rule_exists. rewrite E, run_tail; auto.
  2:{ unfold ws. rewrite !zlen_cons. lia. }
  2:{ rewrite <- E. rewrite !zlen_app. change (zlen ($ " -C ")) with 4. change (zlen ($ " ")) with 1. lia. }
  assert (I : ipt K fw ws = (fw, match fw t n with Some rs => if existsb (same_rule r) rs then [] else trouble K | None => trouble K end)).
  { unfold ws, ipt. destruct r as [|x r]; [easy|].
    change (bseq ($ "-C") ($ "-t")) with false. change (bseq ($ "-t") ($ "-t")) with true. cbn iota.
    unfold ipt_chain. change (bseq ($ "-C") ($ "-C")) with true. cbn iota. destruct (fw t n) as [rs|]; auto. destruct (existsb (same_rule (x :: r)) rs); auto. }
  unfold run_iptables. rewrite I. destruct fs as [|f fs].
  - cbn [hd tl captured bind]. eexists. split; [reflexivity|]. intros _. destruct (fw t n) as [rs|].
    + destruct (existsb (same_rule r) rs); [reflexivity|]. rewrite trouble_seen. reflexivity.
    + rewrite trouble_seen. reflexivity.
  - destruct f; cbn [hd tl captured bind]; eexists; (split; [reflexivity|]); discriminate.
Qed.

Lemma existsb_in r rs : existsb (same_rule r) rs = true -> In r rs.
Proof.
  intro H. apply existsb_exists in H. destruct H as (x & I & S). unfold same_rule in S. destruct (list_eq_dec _ r x); [subst; auto|discriminate].
Qed.

Section One.
Variable c : chain.
Hypothesis NF : names_fit (f_cmd cf) c.

(** The rules and the chain that mk_chain may make *)
Definition mine (t n : bytes) : Prop := t = c_table c /\ n = c_to c.
Definition jump (t n : bytes) (r : rule) : Prop := t = c_table c /\ n = c_from c /\ r = [$ "-j"; c_to c].

Ltac rw E := match type of E with ?l = _ => match goal with |- context [bind ?x _] => change x with l; rewrite E end end.
Ltac fits := rewrite ?zlen_app; cbn [join]; rewrite ?zlen_app; 
  repeat match goal with |- context [zlen (str ?s)] => let v := eval vm_compute in (zlen (str s)) in change (zlen (str s)) with v end;
  change (zlen [" "%byte]) with 1; lia.

Lemma mk_chain_spec fw fs : exists n fw' fs',
  mk_chain machine run cf c (fw, fs) = Ok (n, (fw', fs')) /\ grown mine jump fw fw' /\ (fs = [] -> fs' = [] /\ exists rs, fw' (c_table c) (c_to c) = Some rs).
Proof.
  destruct NF as (W1 & W2 & W3 & W4 & W5 & J & UM & L).
  pose proof (zlen_nonneg (c_from c)). pose proof (zlen_nonneg (c_target c)).
  pose proof (zlen_nonneg (c_to c)). pose proof (zlen_nonneg (c_table c)). pose proof (zlen_nonneg (f_cmd cf)).
  unfold mk_chain, chain_exists.
  (* -L *)
  destruct (run_cmd ($ "-t " ++ c_table c ++ $ " -L " ++ c_to c ++ $ " -n") [f_cmd cf; $ "-t"; c_table c; $ "-L"; c_to c; $ "-n"] fw fs)
    as (ok & fw1 & R1 & C1 & A1); [cbn; rewrite <- ?app_assoc; reflexivity|words_ok|reflexivity|fits|].
  rewrite R1. cbn [bind].
  assert (E1 : fst (ipt K fw [f_cmd cf; $ "-t"; c_table c; $ "-L"; c_to c; $ "-n"]) = fw).
  { cbn [ipt]. change (bseq ($ "-t") ($ "-t")) with true. cbn iota. unfold ipt_table.
    change (bseq ($ "-L") ($ "-N")) with false. change (bseq ($ "-L") ($ "-L")) with true. cbn iota. destruct (fw (c_table c) (c_to c)); reflexivity. }
  assert (fw1 = fw) as -> by (destruct C1; congruence). clear C1.
  (* -N *)
  assert (S1 : exists e1 fw2 fs2,
    (if negb ok then @Ok (Z * machine) (0, (fw, tl fs)) else bind (create_chain machine run cf c (fw, tl fs)) (fun x => let '(ok, w) := x in Ok (if ok then 0 else 1, w))) = Ok (e1, (fw2, fs2)) /\
    grown mine jump fw fw2 /\ (fs = [] -> fs2 = [] /\ exists rs, fw2 (c_table c) (c_to c) = Some rs)).
  { destruct ok; cbn [negb].
    2:{ exists 0, fw, (tl fs). split; [reflexivity|]. split; [apply grown_refl|]. intro Q. destruct (A1 Q); discriminate. }
    unfold create_chain.
    destruct (run_cmd ($ "-t " ++ c_table c ++ $ " -N " ++ c_to c) [f_cmd cf; $ "-t"; c_table c; $ "-N"; c_to c] fw (tl fs))
      as (ok2 & fw2 & R2 & C2 & A2); [cbn; rewrite <- ?app_assoc; reflexivity|words_ok|reflexivity|fits|].
    rewrite R2. cbn [bind]. exists (if ok2 then 0 else 1), fw2, (tl (tl fs)). split; [reflexivity|].
    assert (E2 : fst (ipt K fw [f_cmd cf; $ "-t"; c_table c; $ "-N"; c_to c]) =
                 match fw (c_table c) (c_to c) with None => put_chain fw (c_table c) (c_to c) (Some []) | Some _ => fw end).
    { cbn [ipt]. change (bseq ($ "-t") ($ "-t")) with true. cbn iota. unfold ipt_table. destruct (fw (c_table c) (c_to c)); reflexivity. }
    rewrite E2 in *. split.
    - destruct C2 as [-> | ->]; [apply grown_refl|]. destruct (fw (c_table c) (c_to c)) eqn:Q; [apply grown_refl|].
      apply grown_new; auto. split; reflexivity.
    - intros ->. cbn [tl] in *. split; auto. destruct (A2 eq_refl) as [_ ->].
      destruct (fw (c_table c) (c_to c)) as [rs|] eqn:Q; [exists rs; exact Q|]. exists []. apply put_same. }
  destruct S1 as (e1 & fw2 & fs2 & R2 & G2 & A2). rw R2. cbn [bind].
  (* -C *)
  unfold jump_rule_exists.
  assert (RT : fmt ($ "-t " ++ c_table c ++ $ " -j " ++ c_to c) = rule_text (c_table c) [$ "-j"; c_to c] ++ []).
  { rewrite fmt_id; [rewrite app_nil_r; reflexivity|fits]. }
  rewrite RT.
  destruct (exists_spec (c_from c) (c_table c) [$ "-j"; c_to c] [] fw2 fs2) as (there & R3 & A3); auto; try discriminate; try reflexivity.
  { words_ok. } { unfold rule_text. rewrite zlen_nil. fits. }
  rewrite R3. cbn [bind].
  assert (S2 : exists e2 fw3 fs3,
    (if there then @Ok (Z * machine) (0, (fw2, tl fs2)) else bind (add_jump_rule machine run cf c (fw2, tl fs2)) (fun x => let '(ok, w) := x in Ok (if ok then 0 else 1, w))) = Ok (e2, (fw3, fs3)) /\
    grown mine jump fw2 fw3 /\ (fs2 = [] -> fs3 = [])).
  { destruct there.
    { exists 0, fw2, (tl fs2). split; [reflexivity|]. split; [apply grown_refl|]. intros ->. reflexivity. }
    unfold add_jump_rule. rewrite dec_i_dec by lia.
    assert (NM : numeral (c_jump c) (dec (c_jump c))) by (apply dec_num; lia).
    assert (LN : zlen (dec (c_jump c)) <= 5) by (apply dec_len5; lia).
    set (dj := dec (c_jump c)) in *. clearbody dj.
    destruct (run_cmd ($ "-t " ++ c_table c ++ $ " -I " ++ c_from c ++ $ " " ++ dj ++ $ " -j " ++ c_to c)
       [f_cmd cf; $ "-t"; c_table c; $ "-I"; c_from c; dj; $ "-j"; c_to c] fw2 (tl fs2))
      as (ok2 & fw3 & R4 & C4 & A4); [cbn; rewrite <- ?app_assoc; reflexivity|words_ok|reflexivity|fits|].
    rewrite R4. cbn [bind]. exists (if ok2 then 0 else 1), fw3, (tl (tl fs2)). split; [reflexivity|]. split; [|intros ->; reflexivity].
    destruct C4 as [->| ->]; [apply grown_refl|]. cbn [ipt]. change (bseq ($ "-t") ($ "-t")) with true. cbn iota. unfold ipt_table.
    destruct (fw2 (c_table c) (c_from c)) as [rs|] eqn:Q.
    - change (bseq ($ "-I") ($ "-L")) with false. change (bseq ($ "-I") ($ "-F")) with false. change (bseq ($ "-I") ($ "-X")) with false.
      change (bseq ($ "-I") ($ "-D")) with false. change (bseq ($ "-I") ($ "-I")) with true. cbn iota zeta.
      destruct (legal K [$ "-j"; c_to c] && (1 <=? decimal dj) && (decimal dj <=? zlen rs + 1)); cbn [fst]; [|apply grown_refl].
      eapply grown_put; [exact Q|]. rewrite <- (ztake_zdrop (decimal dj - 1) rs) at 3. apply drops_app. repeat split.
    - change (bseq ($ "-I") ($ "-N")) with false. apply grown_refl. }
  destruct S2 as (e2 & fw3 & fs3 & R4 & G3 & A4). rw R4. cbn [bind].
  exists (e1 + e2), fw3, fs3. split; [reflexivity|]. split; [eapply grown_trans; eauto|].
  intro Q. destruct (A2 Q) as [Q2 (rs & X)]. split; auto.
  specialize (G3 (c_table c) (c_to c)). rewrite X in G3. destruct G3 as (rs' & X' & _). eauto.
Qed.

(** create_rule *)
Lemma create_spec r sp fw fs :
  Forall word r -> r <> [] -> Forall blank sp -> zlen r < 20 ->
  zlen (f_cmd cf) + zlen (c_to c) + zlen (rule_text (c_table c) r) + zlen sp + 5 <= 254 ->
  exists fw', create_rule machine run cf (c_to c) (rule_text (c_table c) r ++ sp) (fw, fs) = Ok (true, (fw', tl fs)) /\
    grown mine (fun t n x => t = c_table c /\ n = c_to c /\ x = r) fw fw' /\
    (fs = [] -> legal K r = true -> (exists rs, fw (c_table c) (c_to c) = Some rs) ->
     exists rs', fw' (c_table c) (c_to c) = Some rs' /\ In r rs').
Proof.
  destruct NF as (W1 & W2 & W3 & W4 & W5 & J & UM & L0). intros WR NE B N L. unfold create_rule.
  set (op := if f_prepend cf then $ "-I" else $ "-A").
  destruct (run_cmd_tail ((if f_prepend cf then $ "-I " else $ "-A ") ++ c_to c ++ $ " " ++ rule_text (c_table c) r ++ sp)
              (f_cmd cf :: op :: c_to c :: $ "-t" :: c_table c :: r) sp fw fs) as (ok & fw' & R & C & A); auto.
  { rewrite !app_assoc. f_equal. rewrite <- !app_assoc. unfold op. destruct (f_prepend cf); reflexivity. }
  { unfold op. destruct (f_prepend cf); do 3 (apply Forall_cons; [first [assumption | lit]|]); do 2 (apply Forall_cons; [first [assumption | lit]|]); exact WR. }
  { rewrite !zlen_cons. lia. }
  { rewrite zlen_app. replace (join [" "%byte] (f_cmd cf :: op :: c_to c :: $ "-t" :: c_table c :: r)) with
      (f_cmd cf ++ [" "%byte] ++ op ++ [" "%byte] ++ c_to c ++ [" "%byte] ++ rule_text (c_table c) r) by reflexivity.
    rewrite !zlen_app. change (zlen [" "%byte]) with 1. assert (zlen op = 2) by (unfold op; destruct (f_prepend cf); reflexivity). lia. }
  rewrite R. cbn [bind]. exists fw'. split; [reflexivity|].
  assert (I : fst (ipt K fw (f_cmd cf :: op :: c_to c :: $ "-t" :: c_table c :: r)) =
    match fw (c_table c) (c_to c) with
    | Some rs => if legal K r then put_chain fw (c_table c) (c_to c) (Some (if f_prepend cf then r :: rs else rs ++ [r])) else fw
    | None => fw end).
  { destruct r as [|x r]; [easy|]. unfold ipt, op.
    destruct (f_prepend cf); [change (bseq ($ "-I") ($ "-t")) with false|change (bseq ($ "-A") ($ "-t")) with false];
      change (bseq ($ "-t") ($ "-t")) with true; cbn iota; unfold ipt_chain; destruct (fw (c_table c) (c_to c)); auto;
      [change (bseq ($ "-I") ($ "-C")) with false; change (bseq ($ "-I") ($ "-A")) with false; change (bseq ($ "-I") ($ "-I")) with true|
       change (bseq ($ "-A") ($ "-C")) with false; change (bseq ($ "-A") ($ "-A")) with true]; cbn iota; destruct (legal K (x :: r)); reflexivity. }
  rewrite I in *. split.
  - destruct C as [-> | ->]; [apply grown_refl|]. destruct (fw (c_table c) (c_to c)) as [rs|] eqn:Q; [|apply grown_refl].
    destruct (legal K r); [|apply grown_refl]. eapply grown_put; [exact Q|]. destruct (f_prepend cf).
    + apply drops_drop; auto using drops_refl.
    + rewrite <- (app_nil_r rs) at 2. apply drops_app. auto.
  - intros Q LG (rs & X). destruct (A Q) as [_ ->]. rewrite X, LG. eexists. split; [apply put_same|].
    destruct (f_prepend cf); [left; reflexivity|apply in_app_iff; right; left; reflexivity].
Qed.
End One.

(** ** One rule *)
Definition adds (c : chain) (r : rule) (t n : bytes) (x : rule) : Prop :=
  jump c t n x \/ t = c_table c /\ n = c_to c /\ x = r.

Lemma set_names i c cs : same_names (chain_at i cs) c -> Forall2 same_names cs (set_chain i c cs).
Proof.
  revert cs. induction i as [|i IH]; intros [|x cs] H; cbn in *; constructor; auto.
  - clear. induction cs; constructor; auto using same_names_refl.
  - apply same_names_refl.
Qed.
Lemma names_refl cs : Forall2 same_names cs cs.
Proof. induction cs; constructor; auto using same_names_refl. Qed.

Lemma ipt_rule_spec i rl r sp e now cs fw fs :
  names_fit (f_cmd cf) (chain_at i cs) ->
  rl = rule_text (c_table (chain_at i cs)) r ++ sp -> Forall word r -> r <> [] -> Forall blank sp -> zlen r < 20 ->
  zlen (f_cmd cf) + zlen (c_to (chain_at i cs)) + zlen rl + 5 <= 254 ->
  exists cs' fw' fs',
    ipt_rule machine run cf i rl e now (cs, (fw, fs)) = Ok (cs', (fw', fs')) /\
    Forall2 same_names cs cs' /\ grown (mine (chain_at i cs)) (adds (chain_at i cs) r) fw fw' /\
    (fs = [] -> fs' = [] /\
       (legal K r = true -> exists rs', fw' (c_table (chain_at i cs)) (c_to (chain_at i cs)) = Some rs' /\ In r rs')).
Proof.
  intros NF -> WR NE B N L. unfold ipt_rule. set (c := chain_at i cs) in *.
  assert (HC : chain_at i cs = c) by reflexivity. clearbody c.
  pose proof NF as (W1 & W2 & W3 & W4 & W5 & J & UM & L0).
  pose proof (zlen_nonneg (c_to c)). pose proof (zlen_nonneg (f_cmd cf)).
  rewrite fmt_id by lia. rewrite zlen_app in L.
  destruct (mk_chain_spec c NF fw fs) as (k & fw1 & fs1 & R1 & G1 & A1). rewrite R1. cbn [bind].
  destruct (exists_spec (c_to c) (c_table c) r sp fw1 fs1) as (there & R2 & A2); auto; try lia. rewrite R2. cbn [bind].
  assert (G1' : grown (mine c) (adds c r) fw fw1) by (revert G1; apply grown_impl; [auto|intros; left; auto]).
  destruct there.
  - exists cs, fw1, (tl fs1). split; [reflexivity|]. split; [apply names_refl|]. split; auto.
    intro Q. destruct (A1 Q) as [Q1 (rs & X)]. subst fs1. split; auto. intros _. exists rs. split; auto.
    specialize (A2 eq_refl). rewrite X in A2. apply existsb_in. auto.
  - destruct (create_spec c NF r sp fw1 (tl fs1)) as (fw2 & R3 & G3 & A3); auto; try lia. rewrite R3. cbn [bind].
    eexists _, fw2, (tl (tl fs1)). split; [reflexivity|]. split; [apply set_names; rewrite HC; repeat split|]. split.
    + eapply grown_trans; [exact G1'|]. revert G3. apply grown_impl; [auto|intros; right; auto].
    + intro Q. destruct (A1 Q) as [Q1 X]. subst fs1. split; auto.
Qed.
Lemma ipt_rule_at i c rl r sp e now cs fw fs :
  chain_at i cs = c -> names_fit (f_cmd cf) c ->
  rl = rule_text (c_table c) r ++ sp -> Forall word r -> r <> [] -> Forall blank sp -> zlen r < 20 ->
  zlen (f_cmd cf) + zlen (c_to c) + zlen rl + 5 <= 254 ->
  exists cs' fw' fs',
    ipt_rule machine run cf i rl e now (cs, (fw, fs)) = Ok (cs', (fw', fs')) /\
    Forall2 same_names cs cs' /\ grown (mine c) (adds c r) fw fw' /\
    (fs = [] -> fs' = [] /\ (legal K r = true -> exists rs', fw' (c_table c) (c_to c) = Some rs' /\ In r rs')).
Proof. intros <-. apply ipt_rule_spec. Qed.
End Make.
