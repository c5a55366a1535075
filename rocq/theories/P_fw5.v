(** Proofs about check_firewall_rules. *)
From Verif Require Import Bytes M_util M_message M_codec M_access M_cycle M_incoming M_packet M_fw
  S_text S_fw P_bytes P_util P_util2 P_fw P_fw2 P_fw3 P_fw4 P_incoming5.
From Coq Require Import Init.Byte List ZArith Bool Lia.
Import ListNotations.
Open Scope Z_scope.

Lemma body_contains K r rs : forall k, In r rs -> exists a b, body K k rs = a ++ show K r ++ b.
Proof.
  induction rs as [|x rs IH]; intros k []; cbn [body].
  - subst x. exists (x0a :: number K k ++ [" "%byte]), (body K (k + 1) rs). cbn [app]. now rewrite <- app_assoc.
  - destruct (IH (k + 1) H) as (a & b & ->). exists (x0a :: number K k ++ " "%byte :: show K x ++ a), b.
    cbn [app]. rewrite <- !app_assoc. cbn [app]. now rewrite <- !app_assoc.
Qed.
Lemma without_none {A} (P : A -> Prop) l : Forall (fun x => ~ P x) l -> without P l l.
Proof. induction 1; [constructor|apply without_keep; auto]. Qed.
Lemma drops_none {A} (P : A -> Prop) l : only_drops P l l.
Proof. induction l; [constructor|apply drops_keep; auto]. Qed.

Lemma same_names_refl c : same_names c c. Proof. repeat split. Qed.

Notation quick := (fun f => f = Runs \/ f = DiesBefore \/ f = NoStart).

Section Check.
Variable K : iptables.
Variable KO : iptables_ok K.
Variable cf : fwconf.

Definition list_words (c : chain) : list bytes :=
  [f_cmd cf; $ "-t"; c_table c; $ "-L"; c_to c; $ "--line-numbers"; $ "-n"].

Lemma list_command c m size : names_fit (f_cmd cf) c ->
  run_extcmd machine (run_iptables K) m (fmt (f_cmd cf ++ $ " -t " ++ c_table c ++ $ " -L " ++ c_to c ++ $ " --line-numbers -n")) size =
  Ok (captured size (run_iptables K m (list_words c))).
Proof.
  intros (W1 & W2 & W3 & W4 & W5 & J & UM & L).
  replace (f_cmd cf ++ $ " -t " ++ c_table c ++ $ " -L " ++ c_to c ++ $ " --line-numbers -n") with (join [" "%byte] (list_words c)).
  2:{ unfold list_words. cbn [join]. reflexivity. }
  apply run_fits.
  - unfold list_words. words_ok.
  - reflexivity.
  - unfold list_words. cbn [join]. rewrite !zlen_app.
    change (zlen [" "%byte]) with 1. change (zlen ($ "-t")) with 2. change (zlen ($ "-L")) with 2.
    change (zlen ($ "--line-numbers")) with 14. change (zlen ($ "-n")) with 2.
    pose proof (zlen_nonneg (c_from c)). pose proof (zlen_nonneg (c_target c)). lia.
Qed.
Lemma list_result c fw rs : fw (c_table c) (c_to c) = Some rs ->
  ipt K fw (list_words c) = (fw, listing K (c_to c) rs).
Proof.
  intro E. unfold list_words, ipt. change (bseq ($ "-t") ($ "-t")) with true. cbn iota. unfold ipt_table. rewrite E.
  change (bseq ($ "-L") ($ "-L")) with true. reflexivity.
Qed.

Lemma pass_listing now c fw fs rs h :
  names_fit (f_cmd cf) c -> fw (c_table c) (c_to c) = Some rs -> Forall (fun r => readable (show K r)) rs ->
  1 + zlen rs <= 65536 -> unmarked (h ++ [x0a]) -> Forall quick fs ->
  let out := h ++ body K 1 rs in
  exists c' fw' fs' rs',
    (match strstr (fun b => b) EXPIRE_COMMENT_PREFIX out with
     | None => Ok (mkChain (c_target c) (c_table c) (c_from c) (c_jump c) (c_to c) (less (c_active c)) (c_next c), (fw, fs))
     | Some _ => rm_expired_rules machine (run_iptables K) cf out now c (fw, fs)
     end) = Ok (c', (fw', fs')) /\
    same_names c c' /\ elsewhere (c_table c) (c_to c) fw fw' /\ fw' (c_table c) (c_to c) = Some rs' /\
    only_drops (expired K now) rs rs' /\ Forall quick fs' /\
    (fs = [] -> fs' = [] /\ without (expired K now) rs rs').
Proof.
  intros NF E R LEN HU F out. destruct (strstr _ _ out) eqn:SS.
  - unfold rm_expired_rules. unfold out.
    rewrite loop_quiet.
    2:{ apply quiet_unmarked; [|apply body_end]. intros a b Q. apply (HU a (b ++ [x0a])). rewrite Q, <- !app_assoc. reflexivity. }
    destruct (loop_rules K KO cf c NF now rs 1 (rev h ++ []) [] fw fs 0 0 (c_active c)) as (off' & mn' & act' & fw' & fs' & rs' & L & EL & FW & D & FS & WO); auto; try lia.
    rewrite L. cbn [bind r_w r_active r_min]. eexists _, fw', fs', rs'. split; [reflexivity|].
    split; [repeat split|]. split; auto. split; auto. split; auto. split; auto. tauto.
  - eexists _, fw, fs, rs. split; [reflexivity|]. split; [repeat split|]. split; [apply else_refl|]. split; auto.
    split; [apply drops_none|]. split; auto. intro. split; auto. apply without_none. apply Forall_forall.
    intros r I (e & (p & ds & q & X & _) & _). destruct (body_contains K r rs 1 I) as (a & b & B).
    apply (strstr_none _ _ _ SS (h ++ a ++ p) mark (ds ++ $ " */" ++ q ++ b)); [|reflexivity].
    unfold out. rewrite B, X, <- !app_assoc. reflexivity.
Qed.

Theorem check_pass all now i c fw fs rs :
  names_fit (f_cmd cf) c -> Z.of_nat i < zlen (c_to c) ->
  fw (c_table c) (c_to c) = Some rs -> Forall (fun r => readable (show K r)) rs ->
  zlen (listing K (c_to c) rs) <= 4095 -> Forall quick fs ->
  exists c' fw' fs' rs',
    check_chain machine (run_iptables K) cf all now i c (fw, fs) = Ok (c', (fw', fs')) /\
    same_names c c' /\ elsewhere (c_table c) (c_to c) fw fw' /\ fw' (c_table c) (c_to c) = Some rs' /\
    only_drops (expired K now) rs rs' /\ Forall quick fs' /\
    (fs = [] -> fs' = [] /\ (all = true \/ (c_active c <> 0 /\ c_next c <= now) -> without (expired K now) rs rs')).
Proof.
  intros NF IL E R LL F. unfold check_chain.
  assert (STAY : exists c' fw' fs' rs',
    Ok (c, (fw, fs)) = @Ok (chain * machine) (c', (fw', fs')) /\
    same_names c c' /\ elsewhere (c_table c) (c_to c) fw fw' /\ fw' (c_table c) (c_to c) = Some rs' /\
    only_drops (expired K now) rs rs' /\ Forall quick fs' /\ (fs = [] -> fs' = []) /\ rs' = rs).
  { exists c, fw, fs, rs. repeat split; auto using else_refl, drops_none. }
  destruct (negb all && _) eqn:DUE.
  { destruct STAY as (c' & fw' & fs' & rs' & S1 & S2 & S3 & S4 & S5 & S6 & S7 & S8).
    exists c', fw', fs', rs'. split; auto. split; auto. split; auto. split; auto. split; auto. split; auto.
    intro N. split; auto. intros [->|[A B]]; [discriminate|]. exfalso.
    apply andb_true_iff in DUE. destruct DUE as [_ DUE]. apply orb_true_iff in DUE.
    destruct DUE as [D|D]; [apply Z.eqb_eq in D; easy|]. destruct (Z.gtb_spec (c_next c) now); [lia|discriminate]. }
  clear STAY.
  assert (G : (zlen (c_table c) =? 0) || beq (nth i (c_to c) x00) x00 = false).
  { destruct NF as (W1 & W2 & W3 & W4 & W5 & _). apply orb_false_iff. split.
    - destruct W2 as [N _]. apply Z.eqb_neq. intro Q. apply zlen_zero in Q. easy.
    - apply beq_neq. destruct W4 as [_ A]. rewrite Forall_forall in A. apply (A (nth i (c_to c) x00)).
      apply nth_In. unfold zlen in IL. lia. }
  rewrite G. clear G. rewrite list_command by auto. cbn [bind].
  unfold run_iptables. rewrite (list_result c fw rs E).
  destruct KO as (_ & HK & _). pose proof NF as (W1 & W2 & W3 & W4 & W5 & J & UM & LN). destruct (HK (c_to c) W4 UM) as (h & HD & HNE & HN & HU).
  assert (LT : listing K (c_to c) rs = (h ++ body K 1 rs) ++ [x0a]).
  { unfold listing. rewrite HD, <- !app_assoc, <- lines_body. reflexivity. }
  assert (NN : no_nul (listing K (c_to c) rs)).
  { unfold listing. apply no_nul_app; split.
    - rewrite HD. apply no_nul_app; split; [exact HN|apply no_nul_cons; split; [discriminate|apply no_nul_nil]].
    - apply lines_no_nul; auto. lia. }
  assert (LEN : 1 + zlen rs <= 65536).
  { unfold listing in LL; rewrite zlen_app in LL; pose proof (zlen_lines K rs 1); pose proof (zlen_nonneg (heading K (c_to c))); lia. }
  assert (NXT : forall fs1, Forall quick fs1 -> exists c' fw' fs' rs',
    (let '(ok, out, w) := captured STANDARD_CMD_OUT_BUFSIZE (fw, fs1, Exited, listing K (c_to c) rs) in
     if negb ok then Ok (c, w)
     else match strstr (fun b => b) EXPIRE_COMMENT_PREFIX (chop_newline out) with
          | None => Ok (mkChain (c_target c) (c_table c) (c_from c) (c_jump c) (c_to c) (less (c_active c)) (c_next c), w)
          | Some _ => rm_expired_rules machine (run_iptables K) cf (chop_newline out) now c w
          end) = Ok (c', (fw', fs')) /\
    same_names c c' /\ elsewhere (c_table c) (c_to c) fw fw' /\ fw' (c_table c) (c_to c) = Some rs' /\
    only_drops (expired K now) rs rs' /\ Forall quick fs' /\
    (fs1 = [] -> fs' = [] /\ without (expired K now) rs rs')).
  { intros fs1 F1. cbn [captured negb]. rewrite read_all; auto; [|reflexivity].
    rewrite LT, truncate_lines. rewrite chop_last by (destruct h; [easy|discriminate]). apply pass_listing; auto. now rewrite <- HD. }
  destruct fs as [|f fs].
  - cbn [hd tl]. destruct (NXT [] ltac:(constructor)) as (c' & fw' & fs' & rs' & S1 & S2 & S3 & S4 & S5 & S6 & S7).
    exists c', fw', fs', rs'. split; [exact S1|]. split; auto. split; auto. split; auto. split; auto. split; auto.
    intro N. destruct (S7 N). auto.
  - inversion F as [|? ? Hf F']; subst. cbn [hd tl]. destruct Hf as [->|[->| ->]].
    + destruct (NXT fs F') as (c' & fw' & fs' & rs' & S1 & S2 & S3 & S4 & S5 & S6 & S7).
      exists c', fw', fs', rs'. split; [exact S1|]. split; auto. split; auto. split; auto. split; auto. split; auto. discriminate.
    + cbn [captured negb]. exists c, fw, fs, rs. split; [reflexivity|]. split; [apply same_names_refl|]. split; [apply else_refl|]. split; auto.
      split; [apply drops_none|]. split; auto. discriminate.
    + cbn [captured negb]. exists c, fw, fs, rs. split; [reflexivity|]. split; [apply same_names_refl|]. split; [apply else_refl|]. split; auto.
      split; [apply drops_none|]. split; auto. discriminate.
Qed.
End Check.
