(** Proofs about the pf back end: failures, checks, histories and the start. *)
From Verif Require Import Bytes M_util M_message M_codec M_access M_cycle M_incoming M_packet M_fw M_extcmd M_pf
  S_text S_access S_incoming S_fw S_extcmd S_pf P_bytes P_util P_util2 P_access P_fw P_fw2 P_fw3 P_fw5 P_fw6 P_fw7 P_fw8 P_fw9 P_fwinit P_incoming3 P_incoming5 P_extcmd P_pf P_pf2.
From Coq Require Import Init.Byte List ZArith Bool Lia.
Import ListNotations.
Open Scope Z_scope.

Section Pf.
Variable K : pf.
Variable cf : pfconf.
Hypothesis CF : conf_fits cf.
Hypothesis KO : pf_ok K.
Notation run := (run_pfctl K).
Notation feed := (feed_pfctl K).
Notation A := (p_anchor cf).

(** ** Requests, whatever fails *)
Lemma drops_held (P : bytes -> Prop) l l' : only_drops P l l' -> Forall (held K) l -> Forall (held K) l'.
Proof. apply drops_forall. Qed.
Lemma add_safe src dst e now : address_text src -> dst = $ "any" \/ address_text dst -> ten_digits e ->
  forall pl xs k ac fs, Forall (held K) (ac A) ->
  Forall (fun pp : Z * Z => 0 <= fst pp <= 255 /\ 0 <= snd pp <= 65535) pl ->
  Forall2 (grants K src dst e) pl xs -> zlen (lines (ac A ++ xs)) <= 3956 ->
  exists r k' ac' fs', add_rules machine run feed cf src dst e now pl k (ac, fs) = Ok (r, k', (ac', fs')) /\
    elsewhere A ac ac' /\ only_drops (fun _ => True) (ac A ++ xs) (ac' A).
Proof.
  intros SRC DST TEN. induction pl as [|(proto, port) pl IH]; intros xs k ac fs H PP G L.
  - inversion G; subst xs. rewrite app_nil_r. cbn [add_rules]. exists 0, k, ac, fs. split; [reflexivity|]. split; [apply else_refl|apply drops_none].
  - inversion G as [|? x ? xs' G1 G2]; subst. inversion PP as [|? ? (P & Q) PP']; subst. cbn [fst snd] in P, Q.
    destruct (new_rule_shown K KO src dst e SRC DST TEN proto port P Q) as (y & x' & NR & SX & NY & LY & G1' & HX & UX).
    assert (x' = x) by (eapply grants_fun; eauto). subst x'.
    set (rs := ac A) in *. destruct (held_lines K rs H) as (NN & NL & SH).
    assert (LR : zlen (lines rs) <= 3956). { rewrite lines_app, zlen_app in L. pose proof (zlen_nonneg (lines (x :: xs'))). lia. }
    cbn [add_rules].
    destruct (list_run K cf CF ac fs (proj1 KO) NN ltac:(fold rs; lia)) as (ok & out & RE & RO & _). rewrite RE. cbn [bind].
    assert (RS : exists rs1, out = lines rs1 /\ Forall (held K) rs1 /\ only_drops (fun _ => True) rs rs1).
    { destruct RO as [(_ & ->)|[->|(_ & ->)]]; [exists rs; auto using (@drops_none bytes)|exists []; split; [reflexivity|split; [constructor|apply drops_to_nil]]|exists rs; auto using (@drops_none bytes)]. }
    destruct RS as (rs1 & -> & H1 & D1). pose proof (drops_size _ _ _ D1) as Z1. rewrite NR.
    destruct (Z.ltb_spec (zlen (lines rs1) + zlen (y ++ [x0a])) STANDARD_CMD_OUT_BUFSIZE) as [_|B]; [|unfold STANDARD_CMD_OUT_BUFSIZE in B; lia].
    destruct (write_run K cf CF ac (tl fs) (lines rs1 ++ y ++ [x0a]) (rs1 ++ [x]) (load_more K rs1 y x H1 NY SX)) as (ok1 & ac1 & WE & WA & _ & WF).
    match goal with |- context[run_extcmd_write machine feed ?m ?c ?t] => replace (run_extcmd_write machine feed m c t) with (@Ok (bool * machine) (ok1, (ac1, tl (tl fs)))) by (symmetry; exact WE) end.
    cbn [bind].
    assert (DD : only_drops (fun _ => True) (rs ++ [x]) (ac1 A) /\ elsewhere A ac ac1).
    { destruct WA as [->| ->].
      - split; [|apply else_refl]. fold rs. rewrite <- (app_nil_r rs) at 2. clear. induction rs; cbn [app]; [apply drops_drop; constructor; constructor|now apply drops_keep].
      - split; [|apply put_else]. rewrite put_same. apply drops_tail, D1. }
    destruct DD as (D2 & EL1).
    assert (D3 : only_drops (fun _ => True) (rs ++ x :: xs') (ac1 A ++ xs')).
    { replace (rs ++ x :: xs') with ((rs ++ [x]) ++ xs') by (now rewrite <- app_assoc). apply drops_tail, D2. }
    destruct ok1.
    + match goal with |- context[add_rules _ _ _ _ _ _ _ _ _ ?k1 _] => destruct (IH xs' k1 ac1 (tl (tl fs))) as (r & k' & ac' & fs' & E & EL & D) end; auto.
      { apply (drops_held _ _ _ D2). apply Forall_app. split; [exact H|]. constructor; [exact HX|constructor]. }
      { pose proof (drops_size _ _ _ D3). lia. }
      exists r, k', ac', fs'. split; [exact E|]. split; [eapply else_trans; eauto|]. eapply drops_trans; [exact D3|exact D].
    + rewrite (WF eq_refl) in *. exists (-1), k, ac, (tl (tl fs)). split; [reflexivity|]. split; [apply else_refl|].
      fold rs. clear. rewrite <- (app_nil_r rs) at 2. induction rs; cbn [app]; [apply drops_to_nil|now apply drops_keep].
Qed.

(** ** Checks *)
Lemma kept_pass kept : Forall (held K) kept -> kept <> [] -> (zlen (lines kept) >? 4) && is_prefix ($ "pass") (lines kept) = true.
Proof.
  intros F N. destruct kept as [|x kept]; [easy|]. pose proof (Forall_inv F) as (((e & U) & (r & PS) & _) & _). rewrite lines_cons.
  apply andb_true_iff. split.
  - apply Z.gtb_lt. rewrite PS, !zlen_app, zlen_cons. change (zlen ($ "pass")) with 4. pose proof (zlen_nonneg r). pose proof (zlen_nonneg (lines kept)). lia.
  - apply is_prefix_app. exists (r ++ x0a :: lines kept). rewrite PS at 1. now rewrite <- app_assoc.
Qed.
Lemma lines_mark x e rs : until x e -> chop_newline (lines (x :: rs)) = x ++ body rs /\ strstr (fun b => b) EXPIRE_COMMENT_PREFIX (x ++ body rs) <> None.
Proof.
  intros (p & ds & q & E & _). split.
  - apply lines_chop. rewrite E. destruct p; discriminate.
  - intro Q. apply (strstr_none _ _ _ Q p mark (ds ++ [""""%byte] ++ q ++ body rs)); [|reflexivity]. rewrite E, <- !app_assoc. reflexivity.
Qed.
Lemma without_same {B} (P : B -> Prop) l l' : without P l l' -> zlen l' = zlen l -> l' = l.
Proof.
  induction 1 as [|x l l' _ W IH|x l l' _ W IH]; intro Z; [reflexivity| |].
  - exfalso. pose proof (without_len _ _ _ W). rewrite zlen_cons in Z. lia.
  - rewrite !zlen_cons in Z. f_equal. apply IH. lia.
Qed.

(** One check: nothing but lapsed rules go, whatever fails; if nothing fails, and the time
    noted has come, exactly these go *)
Lemma check_pass now k ac fs : Forall (held K) (ac A) -> zlen (lines (ac A)) <= 4095 ->
  exists k' ac' fs', check_firewall_rules machine run feed cf now k (ac, fs) = Ok (k', (ac', fs')) /\
    elsewhere A ac ac' /\ only_drops (lapsed now) (ac A) (ac' A) /\
    (fs = [] -> fs' = []) /\
    (fs = [] -> agree (ac A) k -> without (lapsed now) (ac A) (ac' A) /\ agree (ac' A) k').
Proof.
  intros H L. set (rs := ac A) in *. destruct (held_lines K rs H) as (NN & NL & SH). unfold check_firewall_rules.
  assert (STAY : forall fs', (fs = [] -> fs' = []) ->
    (fs = [] -> agree rs k -> Forall (fun x => ~ lapsed now x) rs) ->
    exists k' ac' fs2, @Ok (counters * machine) (k, (ac, fs')) = Ok (k', (ac', fs2)) /\ elsewhere A ac ac' /\ only_drops (lapsed now) rs (ac' A) /\ (fs = [] -> fs2 = []) /\
      (fs = [] -> agree rs k -> without (lapsed now) rs (ac' A) /\ agree (ac' A) k')).
  { intros fs' NF HY. exists k, ac, fs'. split; [reflexivity|]. split; [apply else_refl|]. split; [apply drops_none|]. split; [exact NF|].
    intros N AG. split; [apply without_none; auto|exact AG]. }
  destruct ((k_next k =? 0) || (k_next k >? now)) eqn:DUE.
  { apply STAY; auto. intros _ (_ & [(-> & _)|((z & IZ & UZ) & M)]); [constructor|]. apply Forall_forall. intros x IX (f & UF & LF).
    pose proof (until_pos _ _ UZ). specialize (M x f IX UF). apply orb_true_iff in DUE as [D|D]; [apply Z.eqb_eq in D; lia|]. apply Z.gtb_lt in D. lia. }
  apply orb_false_iff in DUE as (D0 & D1). apply Z.eqb_neq in D0. assert (D2 : k_next k <= now) by (destruct (Z.gtb_spec (k_next k) now); [discriminate D1|lia]).
  destruct (list_run K cf CF ac fs (proj1 KO) NN L) as (ok & out & RE & RO & RR). rewrite RE. cbn [bind]. fold rs in RO, RR.
  assert (NFS : fs = [] -> tl fs = []) by (intros ->; reflexivity).
  destruct ok.
  2:{ cbn [negb]. apply STAY; auto. intros ->. destruct (RR eq_refl) as (Q & _). discriminate Q. }
  cbn [negb].
  assert (EMPTY : out = [] -> chop_newline out = []) by (intros ->; reflexivity).
  destruct rs as [|x rs'] eqn:ER.
  { assert (out = []) as -> by (destruct RO as [(_ & ->)|[->|(_ & ->)]]; reflexivity). rewrite EMPTY by reflexivity. cbn [strstr]. apply STAY; auto. }
  pose proof (Forall_inv H) as (((e & U) & _) & _).
  destruct (lines_mark x e rs' U) as (CH & SS).
  assert (OUT : out = [] \/ out = lines (x :: rs')) by (destruct RO as [(_ & ->)|[->|(_ & ->)]]; auto).
  destruct OUT as [->| ->].
  { cbn [chop_newline]. change (chop_newline []) with (@nil byte). cbn [strstr]. apply STAY; auto.
    intros ->. destruct (RR eq_refl) as (_ & Q). rewrite lines_cons in Q. destruct x; discriminate Q. }
  rewrite CH. destruct (strstr (fun b => b) EXPIRE_COMMENT_PREFIX (x ++ body rs')) as [pos|]; [|easy]. clear SS pos RE RO STAY.
  set (all := x :: rs') in *.
  destruct (loop_lines now all [] [] false 0 (k_active k) (x ++ body rs')) as (kept & mn & act & WO & FE & LE & AC).
  { eapply Forall_impl; [|exact H]. intros z (O & _). exact O. }
  { change (zlen (lines [])) with 0. fold all in L. lia. }
  { left. auto. }
  { right. exists x, rs'. split; [reflexivity|]. split; [reflexivity|]. now left. }
  cbn [app orb] in LE, FE. change (lines []) with (@nil byte) in LE. rewrite LE. cbn [bind c_copy c_del c_min c_act].
  pose proof (without_len _ _ _ WO) as KL. pose proof (without_drops _ _ _ WO) as DR.
  assert (KH : Forall (held K) kept) by (eapply drops_held; eauto).
  destruct (held_lines K kept KH) as (KN & KNL & KSH).
  assert (AGREE : agree all k -> agree kept (mkCnt act (if act <? 1 then 0 else if negb (mn =? 0) then mn else k_next k))).
  { intros (A1 & _). rewrite A1 in AC. specialize (AC ltac:(lia)). assert (AK : act = zlen kept) by lia. split; [exact AK|]. cbn [k_next].
    destruct FE as [(E1 & E2)|(EX & MM)].
    - rewrite E1 in AK. change (zlen (@nil bytes)) with 0 in AK. rewrite AK. left. auto.
    - destruct EX as (z & IZ & UZ). pose proof (until_pos _ _ UZ). assert (KP : 0 < zlen kept).
      { destruct kept as [|? kk]; [destruct IZ|]. rewrite zlen_cons. pose proof (zlen_nonneg kk). lia. }
      destruct (Z.ltb_spec act 1); [lia|]. destruct (Z.eqb_spec mn 0); [lia|]. cbn [negb]. right. split; [exists z; auto|exact MM]. }
  destruct (zlen kept <? zlen all) eqn:DEL.
  - apply Z.ltb_lt in DEL.
    destruct (Z.geb_spec (zlen (lines kept)) STANDARD_CMD_OUT_BUFSIZE) as [B|_].
    { pose proof (drops_size _ _ _ DR). unfold STANDARD_CMD_OUT_BUFSIZE in B. fold all in L. lia. }
    destruct kept as [|y kept'] eqn:EK.
    + change (lines []) with (@nil byte). change (zlen (@nil byte) >? 4) with false. cbn [andb].
      destruct (flush_run K cf CF ac (tl fs)) as (ac1 & FR & FA & FF).
      match goal with |- context[delete_all_anchor_rules ?a ?b ?c ?d] => replace (delete_all_anchor_rules a b c d) with (@Ok machine (ac1, tl (tl fs))) by (symmetry; exact FR) end. cbn [bind].
      eexists _, ac1, _. split; [reflexivity|]. split; [destruct FA as [->| ->]; [apply else_refl|apply put_else]|].
      split; [destruct FA as [->| ->]; [fold rs; rewrite ER; apply drops_none|rewrite put_same; exact DR]|].
      split; [intros ->; reflexivity|]. intros -> AG. specialize (FF eq_refl). subst ac1. rewrite put_same. split; [exact WO|apply AGREE, AG].
    + rewrite <- EK in *. rewrite kept_pass by (auto; rewrite EK; discriminate).
      destruct (write_run K cf CF ac (tl fs) (lines kept) kept) as (ok1 & ac1 & WE & WA & WR & WF).
      { rewrite lines_of_lines by exact KNL. exact KSH. }
      match goal with |- context[run_extcmd_write machine feed ?m ?c ?t] => replace (run_extcmd_write machine feed m c t) with (@Ok (bool * machine) (ok1, (ac1, tl (tl fs)))) by (symmetry; exact WE) end. cbn [bind].
      assert (EL : elsewhere A ac ac1) by (destruct WA as [->| ->]; [apply else_refl|apply put_else]).
      assert (DD : only_drops (lapsed now) all (ac1 A)) by (destruct WA as [->| ->]; [fold rs; rewrite ER; apply drops_none|rewrite put_same; exact DR]).
      destruct ok1; (eexists _, ac1, _; split; [reflexivity|]; split; [exact EL|]; split; [exact DD|]; split; [intros ->; reflexivity|]); intros -> AG;
        destruct (WR eq_refl) as (Q & ->); [|discriminate Q]. rewrite put_same. split; [exact WO|apply AGREE, AG].
  - apply Z.ltb_ge in DEL. assert (KE : kept = all) by (eapply without_same; eauto; lia).
    eexists _, ac, _. split; [reflexivity|]. split; [apply else_refl|]. split; [fold rs; rewrite ER; apply drops_none|].
    split; [exact NFS|]. intros _ AG. fold rs. rewrite ER. rewrite KE in *. split; [exact WO|apply AGREE, AG].
Qed.

(** ** Histories *)
Lemma serve_granted now rs h rs' : granted K cf now rs h rs' -> forall k ac, 0 < now ->
  ac A = rs -> Forall (held K) rs -> agree rs k -> zlen (lines rs) <= 3956 ->
  exists k' ac', serve K cf h (k, (ac, [])) = Ok (k', (ac', [])) /\ ac' A = rs' /\ elsewhere A ac ac' /\ agree rs' k' /\ Forall (held K) rs'.
Proof.
  induction 1 as [now rs|now t rs rs1 h rs' T W G IH|now t d rs h rs' T N1 N3 G IH|now t d dst e pl xs rs h rs' T AR F DUE ROOM G IH]; intros k ac NP EA H AG L.
  - exists k, ac. cbn [serve]. split; [reflexivity|]. split; [exact EA|]. split; [apply else_refl|]. split; [exact AG|exact H].
  - cbn [serve serve_one fst snd]. destruct (check_pass t k ac []) as (k1 & ac1 & fs1 & E & EL & DR & NF & WA); [now rewrite EA|rewrite EA; lia|].
    rewrite (NF eq_refl) in E. rewrite E. cbn [bind]. rewrite EA in *. destruct (WA eq_refl AG) as (W1 & AG1).
    assert (E1 : ac1 A = rs1) by (eapply without_fun; eauto). 
    destruct (IH k1 ac1) as (k' & ac' & E2 & EA2 & EL2 & AG2 & H2); auto; try lia.
    { eapply drops_held; [apply (without_drops _ _ _ W)|exact H]. } { now rewrite <- E1. }
    { pose proof (drops_size _ _ _ (without_drops _ _ _ W)). lia. }
    exists k', ac'. split; [exact E2|]. split; [exact EA2|]. split; [eapply else_trans; eauto|]. split; [exact AG2|exact H2].
  - cbn [serve serve_one fst snd]. unfold process_spa_request.
    assert (B : (d_type d =? FKO_ACCESS_MSG) || (d_type d =? FKO_CLIENT_TIMEOUT_ACCESS_MSG) = false).
    { apply orb_false_iff. split; apply Z.eqb_neq; assumption. }
    rewrite B. cbn [bind]. destruct (IH k ac) as (k' & ac' & R); auto; try lia. exists k', ac'. exact R.
  - cbn [serve serve_one fst snd]. destruct AR as (TY & RQ & SRC & DST & EE & TP & TEN). unfold process_spa_request.
    assert (B : (d_type d =? FKO_ACCESS_MSG) || (d_type d =? FKO_CLIENT_TIMEOUT_ACCESS_MSG) = true).
    { apply orb_true_iff. destruct TY as [->| ->]; [left|right]; reflexivity. }
    rewrite B, (entries_requested _ _ RQ). destruct (entries_ok _ _ RQ) as (_ & PP).
    rewrite u32_small by (destruct TEN; lia). rewrite <- EE.
    assert (DE : (if p_use_dst cf then d_pkt_dst d else PF_ANY_IP) = dst) by (destruct (p_use_dst cf); [destruct DST as (-> & _)|subst dst]; reflexivity).
    rewrite DE.
    destruct (add_all K cf CF KO (d_use d) dst e t SRC) with (pl := pl) (xs := xs) (k := k) (ac := ac) (rs := rs)
      as (k1 & ac1 & E1 & EA1 & EL1 & H1 & AG1); auto; try lia.
    { destruct (p_use_dst cf); [right; apply DST|left; exact DST]. }
    specialize (AG1 AG DUE ltac:(lia) ltac:(lia)).
    rewrite E1. cbn [bind]. destruct (IH k1 ac1) as (k' & ac' & E2 & EA2 & EL2 & AG2 & H2); auto; try lia.
    exists k', ac'. split; [exact E2|]. split; [exact EA2|]. split; [eapply else_trans; eauto|]. split; [exact AG2|exact H2].
Qed.

(** ** The start and the end *)
Lemma anchor_line l : A <> [] -> ~ In x0a A -> ~ In x0a l -> plain_line l -> found (A ++ [x0a]) (l ++ [x0a]) = true <-> exists a, l = a ++ A.
Proof.
  intros NE NA NL (_ & N0 & PL). unfold found.
  rewrite cstr_id. 2:{ apply no_nul_app. split; [exact N0|]. apply no_nul_cons. split; [discriminate|apply no_nul_nil]. }
  rewrite andb_true_iff, strstr_holds. split.
  - intros (_ & a & b & E). exists a. destruct b as [|b0 b1] using rev_ind.
    + rewrite app_nil_r, app_assoc in E. now apply app_inj_tail in E as (-> & _).
    + exfalso. rewrite !app_assoc in E. apply app_inj_tail in E as (E & _). apply NL. rewrite E. apply in_app_iff. left. rewrite !in_app_iff. right. left. reflexivity.
  - intros (a & ->). split; [|exists a, []; rewrite app_nil_r, app_assoc; reflexivity].
    destruct (a ++ A) as [|c r] eqn:E; [exfalso; apply NE; destruct a; [exact E|discriminate E]|]. cbn [app empty_line].
    destruct PL as (P1 & P2 & P3). apply negb_true_iff. rewrite !orb_false_iff. repeat split; apply beq_neq; auto; intros ->; [apply NL|apply N0]; left; reflexivity.
Qed.
Lemma search_anchor ls : A <> [] -> ~ In x0a A -> Forall (fun l => ~ In x0a l) ls -> Forall plain_line ls ->
  forall n last, 0 <= n -> exists buf r, search_lines (A ++ [x0a]) 0 (lines ls) [] n last = (r, buf) /\
    ((exists k, r = Some k /\ 0 < k) /\ (exists l a, In l ls /\ l = a ++ A) \/ r = None /\ ~ exists l a, In l ls /\ l = a ++ A).
Proof.
  intros NE NA. induction ls as [|l ls IH]; intros F1 F2 n last NN.
  - cbn. do 2 eexists. split; [reflexivity|]. right. split; [reflexivity|]. intros (? & ? & [] & _).
  - inversion F1 as [|? ? N1 F1']. inversion F2 as [|? ? P1 F2']. subst. rewrite lines_cons. change (l ++ x0a :: lines ls) with (l ++ [x0a] ++ lines ls).
    rewrite search_line by (auto; apply P1). cbn [app].
    destruct (found (A ++ [x0a]) (l ++ [x0a])) eqn:F.
    + apply anchor_line in F as (a & E); auto. do 2 eexists. split; [reflexivity|]. left. split; [exists (n + 1); split; [reflexivity|lia]|]. exists l, a. split; [left; reflexivity|exact E].
    + assert (NF : ~ exists a, l = a ++ A) by (intro Q; apply anchor_line in Q; auto; congruence).
      destruct (IH F1' F2' (n + 1) (ztake (0 - 1) (cstr (l ++ [x0a]))) ltac:(lia)) as (buf & r & E & R). exists buf, r. split; [exact E|].
      destruct R as [(R1 & l' & a & I & E')|(R1 & R2)]; [left|right]; (split; [exact R1|]).
      * exists l', a. split; [right; exact I|exact E'].
      * intros (l' & a & [<-|I] & E'); [apply NF; exists a; exact E'|apply R2; exists l', a; auto].
Qed.
Lemma initialize ac ls : text_lines (linked K) ls -> Forall plain_line ls -> zlen A <= 63 ->
  exists b ac', fw_initialize machine run cf (ac, []) = Ok (b, (ac', [])) /\ elsewhere A ac ac' /\
  (b = true <-> exists l a, In l ls /\ l = a ++ A) /\ ac' A = (if b then [] else ac A).
Proof.
  intros (E & F1) F2 LA. destruct CF as (_ & (NE & WA) & _).
  assert (NA : ~ In x0a A). { intro I. rewrite Forall_forall in WA. destruct (WA _ I) as (B & _). apply B. right. vm_compute. split; discriminate. }
  unfold fw_initialize, anchor_active, search_extcmd. rewrite anchors_argv by exact CF. cbn [bind]. unfold run_pfctl. cbn [pfctl hd].
  change (bseq ($ "-s") ($ "-s") && bseq ($ "Anchor") ($ "Anchor")) with true. cbn iota beta.
  assert (SN : snprintf (MAX_PF_ANCHOR_SEARCH_LEN - 1) (A ++ [x0a]) = A ++ [x0a]).
  { unfold snprintf, MAX_PF_ANCHOR_SEARCH_LEN. apply ztake_all. rewrite zlen_app. change (zlen [x0a]) with 1. lia. }
  rewrite SN. fold (lines ls) in E. rewrite E. unfold search_output.
  destruct (search_anchor ls NE NA F1 F2 0 [] ltac:(lia)) as (buf & r & -> & R). cbn [fst bind].
  destruct R as [((k & -> & KP) & X)|(-> & X)].
  - destruct (Z.gtb_spec k 0) as [_|Q]; [|lia]. destruct (flush_run K cf CF ac []) as (ac1 & FR & _ & FF). specialize (FF eq_refl). subst ac1.
    match goal with |- context[delete_all_anchor_rules ?a ?b ?c ?d] => replace (delete_all_anchor_rules a b c d) with (@Ok machine (put_anchor ac A [], [])) by (symmetry; exact FR) end.
    cbn [bind]. exists true, (put_anchor ac A []). split; [reflexivity|]. split; [apply put_else|]. split; [tauto|apply put_same].
  - change (0 >? 0) with false. cbn iota. exists false, ac. split; [reflexivity|]. split; [apply else_refl|]. split; [|reflexivity]. split; [discriminate|intro Q; destruct (X Q)].
Qed.
End Pf.
