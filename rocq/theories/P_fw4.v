(** Proofs about the removal of expired rules: the whole pass over a chain. *)
From Verif Require Import Bytes M_util M_message M_codec M_access M_cycle M_incoming M_packet M_fw
  S_text S_fw P_bytes P_util P_util2 P_fw P_fw2 P_fw3 P_incoming5.
From Coq Require Import Init.Byte List ZArith Bool Lia.
Import ListNotations.
Open Scope Z_scope.

Lemma expires_fun x e e' : expires_at x e -> expires_at x e' -> e = e'.
Proof.
  intros (p & ds & q & E & U & N & A & L & ->) (p' & ds' & q' & E' & U' & N' & A' & L' & ->).
  assert (p' = p) by (apply (U p' (ds' ++ $ " */" ++ q')); exact E'). subst p'.
  rewrite E in E'. apply app_inv_head in E'. apply app_inv_head in E'.
  f_equal. clear - A A' E'. revert ds' A' E'. induction ds as [|x ds IH]; intros [|y ds'] A' E'; auto.
  - exfalso. inversion A'; subst. cbn in E'. injection E' as <- _. unfold digit in H1. change (bv " "%byte) with 32 in H1. lia.
  - exfalso. inversion A; subst. cbn in E'. injection E' as -> _. unfold digit in H1. change (bv " "%byte) with 32 in H1. lia.
  - cbn in E'. injection E' as -> E'. f_equal. inversion A; inversion A'; subst. apply IH; auto.
Qed.
Lemma unmarked_never x e : unmarked x -> ~ expires_at x e.
Proof. intros U (p & ds & q & E & _). exact (U _ _ E). Qed.

(** The listing without the line feed at its end, each line with the one before it *)
Fixpoint body (K : iptables) (k : Z) (rs : list rule) : bytes :=
  match rs with
  | [] => []
  | r :: rest => x0a :: number K k ++ " "%byte :: show K r ++ body K (k + 1) rest
  end.
Lemma lines_body K rs : forall k, [x0a] ++ rule_lines K k rs = body K k rs ++ [x0a].
Proof.
  induction rs as [|r rs IH]; intro k; [reflexivity|].
  cbn [rule_lines body]. cbn [app]. f_equal. rewrite <- !app_assoc. f_equal. cbn [app]. f_equal.
  rewrite <- !app_assoc. f_equal. apply IH.
Qed.
Lemma body_end K k rs : line_end (body K k rs).
Proof. destruct rs; [left; reflexivity|right; eexists; reflexivity]. Qed.

Section Pass.
Variable K : iptables.
Variable KO : iptables_ok K.
Variable cf : fwconf.
Variable c : chain.
Hypothesis NF : names_fit (f_cmd cf) c.
Variable now : Z.
Notation loop := (expire_loop machine (run_iptables K) cf c now).
Notation quick := (fun f => f = Runs \/ f = DiesBefore \/ f = NoStart).

Lemma number_facts k : 0 <= k <= 65536 ->
  Forall (fun x => x <> "_"%byte) (number K k) /\ ~ In x0a (number K k) /\ ~ In " "%byte (number K k) /\
  zlen (number K k) <= 5 /\ all_digits (number K k) /\ decimal (number K k) = k.
Proof.
  intro B. destruct KO as (H & _). specialize (H k ltac:(lia)). pose proof H as (N & A & D & HD).
  assert (L : zlen (number K k) <= 5) by (apply (numeral_zlen k _ 5 H); [|lia]; cbn; lia).
  repeat split; auto.
  - eapply Forall_impl; [|exact A]. intros x Dx ->. unfold digit in Dx. change (bv "_"%byte) with 95 in Dx. lia.
  - apply digits_no_star; auto. unfold digit. change (bv x0a) with 10. lia.
  - apply digits_no_star; auto. unfold digit. change (bv " "%byte) with 32. lia.
Qed.

Lemma loop_rules rs : forall k before kept fw fs off mn act,
  Forall (fun r => readable (show K r)) rs ->
  k + zlen rs <= 65536 -> 0 <= off -> zlen kept = k - 1 - off ->
  fw (c_table c) (c_to c) = Some (kept ++ rs) -> Forall quick fs ->
  exists off' mn' act' fw' fs' rs',
    loop 0 before (body K k rs) (mkRm machine off mn act (fw, fs)) = Ok (mkRm machine off' mn' act' (fw', fs')) /\
    elsewhere (c_table c) (c_to c) fw fw' /\ fw' (c_table c) (c_to c) = Some (kept ++ rs') /\
    only_drops (expired K now) rs rs' /\ Forall quick fs' /\
    (fs = [] -> without (expired K now) rs rs' /\ fs' = []).
Proof.
  induction rs as [|r rs IH]; intros k before kept fw fs off mn act R B O KL E F.
  - exists off, mn, act, fw, fs, []. repeat split; auto using else_refl; try constructor.
  - inversion R as [|? ? R1 R2]; subst. rewrite zlen_cons in B. pose proof (zlen_nonneg rs). pose proof (zlen_nonneg kept).
    destruct (number_facts k ltac:(lia)) as (NU & NN & NS & NL & ND & NV).
    destruct R1 as (NLF & NNUL & M). cbn [body].
    change (x0a :: number K k ++ " "%byte :: show K r ++ body K (k + 1) rs)
      with ([x0a] ++ number K k ++ [" "%byte] ++ show K r ++ body K (k + 1) rs).
    pose proof (body_end K (k + 1) rs) as BE.
    destruct M as [U|(e & X)].
    + (* an unmarked rule *)
      replace ([x0a] ++ number K k ++ [" "%byte] ++ show K r ++ body K (k + 1) rs)
        with (([x0a] ++ number K k ++ [" "%byte] ++ show K r) ++ body K (k + 1) rs) by (now rewrite <- !app_assoc).
      rewrite loop_quiet.
      2:{ apply quiet_cons; [discriminate|]. cbn [app]. apply quiet_app; auto. apply quiet_cons; [discriminate|]. now apply quiet_unmarked. }
      destruct (IH (k + 1) (rev ([x0a] ++ number K k ++ [" "%byte] ++ show K r) ++ before) (kept ++ [r]) fw fs off mn act)
        as (off' & mn' & act' & fw' & fs' & rs' & L & EL & FW & D & FS & WO); auto; try lia.
      { rewrite zlen_app. change (zlen [r]) with 1. lia. }
      { now rewrite <- app_assoc. }
      exists off', mn', act', fw', fs', (r :: rs'). rewrite <- app_assoc in FW. repeat split; auto.
      * now constructor.
      * apply without_keep; [|tauto]. intros (e & X & _). eapply unmarked_never; eauto.
      * tauto.
    + pose proof X as (pre & ds & post & SX & SU & DN & DA & DL & DE).
      assert (UQ : forall a b, pre ++ mark ++ (ds ++ $ " */" ++ post) = a ++ mark ++ b -> a = pre) by (intros a b Q; apply (SU a b); rewrite SX; exact Q).
      rewrite SX.
      replace ([x0a] ++ number K k ++ [" "%byte] ++ (pre ++ mark ++ ds ++ $ " */" ++ post) ++ body K (k + 1) rs)
        with (([x0a] ++ number K k ++ [" "%byte] ++ pre) ++ mark ++ (ds ++ $ " */" ++ post) ++ body K (k + 1) rs)
        by (now rewrite <- !app_assoc).
      rewrite loop_quiet.
      2:{ apply quiet_cons; [discriminate|]. cbn [app]. apply quiet_app; auto. apply quiet_cons; [discriminate|]. now apply quiet_before. }
      rewrite loop_mark. unfold expire_one.
      rewrite <- !app_assoc. rewrite exp_str_digits by auto.
      assert (ID : is_digits ds = true) by (now apply all_digits_forallb). rewrite ID. cbn [negb].
      rewrite digits_val_decimal by auto. rewrite <- DE.
      set (before' := rev ([x0a] ++ number K k ++ [" "%byte] ++ pre) ++ before).
      assert (ENDING : forall kept' fw1 fs1 off1 mn1 act1,
        zlen kept' = k + 1 - 1 - off1 -> 0 <= off1 -> fw1 (c_table c) (c_to c) = Some (kept' ++ rs) -> Forall quick fs1 ->
        exists off' mn' act' fw' fs' rs',
          loop 0 (rev mark ++ before') (ds ++ $ " */" ++ post ++ body K (k + 1) rs) (mkRm machine off1 mn1 act1 (fw1, fs1)) = Ok (mkRm machine off' mn' act' (fw', fs')) /\
          elsewhere (c_table c) (c_to c) fw1 fw' /\ fw' (c_table c) (c_to c) = Some (kept' ++ rs') /\
          only_drops (expired K now) rs rs' /\ Forall quick fs' /\
          (fs1 = [] -> without (expired K now) rs rs' /\ fs' = [])).
      { intros kept' fw1 fs1 off1 mn1 act1 KL' O1 E1 F1.
        replace (ds ++ $ " */" ++ post ++ body K (k + 1) rs) with ((ds ++ $ " */" ++ post) ++ body K (k + 1) rs) by (now rewrite <- !app_assoc).
        rewrite loop_quiet by (eapply quiet_after; eauto). apply IH; auto. lia. }
      destruct (Z.leb_spec e now) as [Q|Q].
      * assert (IX : index_of x0a before' = Some (List.length (rev (number K k ++ [" "%byte] ++ pre)))).
        { unfold before'. cbn [app rev]. rewrite <- app_assoc. cbn [app]. apply index_of_app.
          rewrite <- in_rev, in_app_iff. cbn. intros [I|[I|I]]; [easy|discriminate|].
          apply NLF. rewrite SX. apply in_app_iff. now left. }
        rewrite IX.
        assert (FN : firstn (List.length (rev (number K k ++ [" "%byte] ++ pre))) before' = rev (number K k ++ [" "%byte] ++ pre)).
        { unfold before'. cbn [app rev]. rewrite <- app_assoc. rewrite firstn_app, firstn_all, Nat.sub_diag. cbn [firstn]. apply app_nil_r. }
        rewrite FN, rev_involutive. rewrite <- !app_assoc. cbn [app]. rewrite (index_of_app " "%byte (number K k)) by auto.
        destruct (Z.gtb_spec (Z.of_nat (List.length (number K k)) + 1) 6) as [G|_]; [unfold zlen in NL; lia|].
        rewrite firstn_app, firstn_all, Nat.sub_diag. cbn [firstn]. rewrite app_nil_r.
        rewrite (strtol_wrapper_digits (number K k) (r_off machine (mkRm machine off mn act (fw, fs))) RCHK_MAX_IPT_RULE_NUM); auto;
          rewrite ?NV; cbn [r_off]; unfold RCHK_MAX_IPT_RULE_NUM; try lia.
        cbn [strtol_ok negb r_w].
        replace (k - off) with (zlen kept + 1) by lia.
        destruct (del_first K cf c NF fw fs kept r rs E ltac:(lia) F) as (ok & fw1 & C & EL1 & FW1 & OK1).
        rewrite C. cbn [bind]. destruct ok.
        -- destruct (ENDING kept fw1 (tl fs) (off + 1) mn (less act)) as (off' & mn' & act' & fw' & fs' & rs' & L & EL & FW & D & FS & WO); auto; try lia.
           { destruct F; cbn; auto. }
           exists off', mn', act', fw', fs', rs'. repeat split; auto.
           ++ eapply else_trans; eauto.
           ++ apply drops_drop; auto. exists e; auto.
           ++ subst fs. destruct (WO eq_refl) as [WO1 _]. apply without_drop; auto. exists e; auto.
           ++ subst fs. apply (WO eq_refl).
        -- destruct (ENDING (kept ++ [r]) fw1 (tl fs) off mn act) as (off' & mn' & act' & fw' & fs' & rs' & L & EL & FW & D & FS & WO); auto; try lia.
           { rewrite zlen_app. change (zlen [r]) with 1. lia. }
           { now rewrite <- app_assoc. }
           { destruct F; cbn; auto. }
           exists off', mn', act', fw', fs', (r :: rs'). rewrite <- app_assoc in FW. repeat split; auto.
           ++ eapply else_trans; eauto.
           ++ now apply drops_keep.
           ++ specialize (OK1 H1). discriminate.
           ++ specialize (OK1 H1). discriminate.
      * cbn [bind r_off r_min r_active r_w].
        destruct (ENDING (kept ++ [r]) fw fs off (if mn <? e then mn else e) act) as (off' & mn' & act' & fw' & fs' & rs' & L & EL & FW & D & FS & WO); auto; try lia.
        { rewrite zlen_app. change (zlen [r]) with 1. lia. }
        { now rewrite <- app_assoc. }
        exists off', mn', act', fw', fs', (r :: rs'). rewrite <- app_assoc in FW. repeat split; auto.
        -- now apply drops_keep.
        -- apply without_keep; [|tauto]. intros (e' & X' & Q'). rewrite (expires_fun _ _ _ X X') in Q. lia.
        -- tauto.
Qed.

Lemma zlen_lines rs : forall k, zlen rs <= zlen (rule_lines K k rs).
Proof.
  induction rs as [|r rs IH]; intro k; [reflexivity|]. cbn [rule_lines]. rewrite !zlen_app, zlen_cons.
  change (zlen [x0a]) with 1. change (zlen [" "%byte]) with 1. specialize (IH (k + 1)).
  pose proof (zlen_nonneg (number K k)). pose proof (zlen_nonneg (show K r)). lia.
Qed.
Lemma lines_no_nul rs : forall k, 0 <= k -> Forall (fun r => readable (show K r)) rs -> no_nul (rule_lines K k rs).
Proof.
  induction rs as [|r rs IH]; intros k B F; [apply no_nul_nil|]. inversion F as [|? ? (A1 & A2 & _) F']; subst.
  cbn [rule_lines]. destruct KO as (H & _). destruct (H k B) as (_ & A & _).
  repeat (apply no_nul_app; split).
  - intro I. eapply digits_no_star; [exact A| |exact I]. unfold digit. change (bv x00) with 0. lia.
  - apply no_nul_cons. split; [discriminate|apply no_nul_nil].
  - exact A2.
  - apply no_nul_cons. split; [discriminate|apply no_nul_nil].
  - apply IH; auto. lia.
Qed.
End Pass.
