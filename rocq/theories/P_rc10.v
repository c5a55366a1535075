(** Proofs about the configuration of the client: the loop that saves a stanza. *)
From Verif Require Import Bytes M_accfile M_base64 M_util M_message M_codec M_cipher M_ctx M_access M_replay M_cycle M_incoming M_conf M_codec M_client M_send
  S_base64 S_text S_conf S_accfile S_client S_send P_bytes P_base64 P_util P_util2 P_access P_replay P_conf P_accfile P_accfile2 P_accfile3 P_accfile4 P_accfile6 P_message P_codec P_ctx2 P_client P_client4 M_rc S_rc P_rc P_rc2 P_rc9.
From Coq Require Import Init.Byte List ZArith Bool Lia.
Import ListNotations.
Open Scope Z_scope.

Local Ltac ands := repeat match goal with |- _ /\ _ => split end.

(** ** Variables that are taken out *)
Lemma lookup_in l n x : lookup l n = Some x -> In (n, x) l.
Proof. induction l as [|[k y] l IH]; cbn [lookup]; [discriminate|]. destruct (bseq n k) eqn:B; [apply bseq_eq in B; intros E; injection E as ->; subst; now left|intros; right; auto]. Qed.
Lemma array_injective : forallb (fun '(n, x) => forallb (fun '(n', x') => Bool.eqb (bseq n n') (var_beq x x')) var_array) var_array = true.
Proof. vm_compute. reflexivity. Qed.
Lemma array_same n x n' x' : In (n, x) var_array -> In (n', x') var_array -> bseq n n' = var_beq x x'.
Proof. intros A B. pose proof array_injective as F. rewrite forallb_forall in F. apply F in A. rewrite forallb_forall in A. apply A in B. now apply Bool.eqb_prop in B. Qed.
Lemma mem_filter x y m : mem_var y (filter (fun z => negb (var_beq x z)) m) = mem_var y m && negb (var_beq x y).
Proof.
  unfold mem_var. induction m as [|z m IH]; [reflexivity|]. cbn [filter existsb]. destruct (var_beq x z) eqn:B; cbn [negb existsb]; rewrite IH.
  - apply internal_var_dec_bl in B. subst z. destruct (var_beq y x) eqn:C; [|reflexivity]. apply internal_var_dec_bl in C. subst y. rewrite (internal_var_dec_lb x x eq_refl).
    cbn. now rewrite andb_false_r.
  - destruct (var_beq y z) eqn:C; [|reflexivity]. apply internal_var_dec_bl in C. subst z. rewrite B. reflexivity.
Qed.
Lemma saved_without o m n x : lookup var_array n = Some x -> saved o (filter (fun z => negb (var_beq x z)) m) = filter (fun e => negb (bseq (fst e) n)) (saved o m).
Proof.
  intros L. apply lookup_in in L. unfold saved. assert (Q : forall n' x', In (n', x') var_array -> bseq n' n = var_beq x x').
  { intros n' x' I. rewrite (array_same _ _ _ _ I L). destruct (var_beq x' x) eqn:A, (var_beq x x') eqn:B; try reflexivity.
    - apply internal_var_dec_bl in A. subst. rewrite (internal_var_dec_lb x x eq_refl) in B. discriminate.
    - apply internal_var_dec_bl in B. subst. rewrite (internal_var_dec_lb x' x' eq_refl) in A. discriminate. }
  clear L. induction var_array as [|[n' x'] l IH]; [reflexivity|]. cbn [flat_map]. rewrite filter_app, <- IH by (intros; apply Q; now right). f_equal.
  rewrite mem_filter. specialize (Q n' x' (or_introl eq_refl)). destruct (mem_var x' m); cbn [andb]; [|reflexivity].
  destruct (var_beq x x') eqn:B; cbn [negb]; destruct (var_text x' o); cbn [filter fst]; rewrite ?Q; reflexivity.
Qed.
Lemma critical_secrets : forallb (fun '(n, x) => Bool.eqb (critical x) (memb_bytes n secrets)) var_array = true.
Proof. vm_compute. reflexivity. Qed.
Lemma critical_secret n x : lookup var_array n = Some x -> critical x = memb_bytes n secrets.
Proof. intros L. apply lookup_in in L. pose proof critical_secrets as F. rewrite forallb_forall in F. apply F in L. now apply Bool.eqb_prop in L. Qed.
Lemma secrets_known : forallb (fun n => match lookup var_array n with Some _ => true | None => false end) secrets = true.
Proof. vm_compute. reflexivity. Qed.
Lemma unknown_secret n : lookup var_array n = None -> memb_bytes n secrets = false.
Proof.
  intros L. apply not_true_is_false. unfold memb_bytes. rewrite existsb_exists. intros (k & I & B). apply bseq_eq in B. subst k.
  pose proof secrets_known as F. rewrite forallb_forall in F. apply F in I. now rewrite L in I.
Qed.

Section Save.
Variables (ask : nat -> bool) (o : copts).
Let name := txt o t_stanza.

Lemma save_app a b s : save_lines ask o (a ++ b) s = let '(s1, go) := save_lines ask o a s in if go then save_lines ask o b s1 else (s1, false).
Proof.
  revert s. induction a as [|l a IH]; intros s; [reflexivity|]. cbn [app save_lines]. destruct (save_line ask o l s) as [s1 go]. destruct go; [apply IH|reflexivity].
Qed.
Definition nl (ls : list bytes) : list bytes := map (fun l => l ++ [x0a]) ls.
Lemma empty_nl l : is_empty_line (hd x00 (l ++ [x0a])) = is_empty_line (hd x00 l).
Proof. destruct l; reflexivity. Qed.
(** Lines outside of the stanza *)
Definition other (ls : list bytes) : Prop := Forall (fun l => forall n, is_empty_line (hd x00 l) = false -> rc_section l = Some n -> strcaseeq n name = false) ls.
Lemma save_other ls : other ls -> forall s, sv_found s = false ->
  save_lines ask o (nl ls) s = (mkSaving false (sv_done s) (sv_mask s) (sv_out s ++ term (nc ls)) (sv_asked s), true).
Proof.
  induction 1 as [|l ls E F IH]; intros s FO.
  - cbn. rewrite app_nil_r. destruct s; cbn in *; now subst.
  - cbn [nl map save_lines]. unfold save_line. rewrite empty_nl, rc_section_nl. cbn [nc filter]. fold (nc ls) (nl ls). destruct (is_empty_line (hd x00 l)) eqn:EL; cbn [negb].
    + now apply IH.
    + rewrite FO. unfold term. cbn [map concat]. fold (term (nc ls)). destruct (rc_section l) as [n|] eqn:R.
      * change (txt o t_stanza) with name. rewrite (E n) by auto. rewrite IH by reflexivity. cbn [sv_done sv_mask sv_out sv_asked]. now rewrite <- !app_assoc.
      * rewrite IH by reflexivity. cbn [sv_done sv_mask sv_out sv_asked]. now rewrite <- !app_assoc.
Qed.
(** Lines of the stanza *)
Lemma save_body ls : flat ls -> forall s s', sv_found s = true -> save_lines ask o (nl ls) s = (s', true) ->
  exists kl kept, entries_of kl kept /\ incl kl ls /\ sv_found s' = true /\ sv_done s' = sv_done s /\ sv_out s' = sv_out s ++ term kl /\
    saved o (sv_mask s') = besides (map fst kept) (saved o (sv_mask s)) /\
    (if is_set o q_force then kept = [] else exists es, scan name true ls = Some (es, true) /\ kept = keep ask (sv_asked s) es).
Proof.
  induction 1 as [|l ls E F IH]; intros s s' FO.
  - cbn [nl map save_lines]. intros X. injection X as <-. exists [], []. ands; auto; [constructor|intros ? []|cbn; now rewrite app_nil_r| |].
    + unfold besides. cbn [map memb_bytes existsb negb]. induction (saved o (sv_mask s)) as [|e l IH]; cbn; [reflexivity|f_equal; exact IH].
    + destruct (is_set o q_force); [reflexivity|]. exists []. auto.
  - cbn [nl map save_lines]. unfold save_line. rewrite empty_nl, rc_section_nl, rc_param_nl, FO. fold (nl ls). cbn [scan].
    assert (WK : forall kl : list bytes, incl kl ls -> incl kl (l :: ls)) by (intros kl I x J; right; auto).
    destruct (is_empty_line (hd x00 l)) eqn:EL.
    { intros X. destruct (IH s s' FO X) as (kl & kept & A & B & R). exists kl, kept. ands; try apply R; auto. }
    rewrite (E eq_refl). destruct (is_set o q_force) eqn:FS.
    { intros X. destruct (IH s s' FO X) as (kl & kept & A & B & R). exists kl, kept. ands; try apply R; auto. }
    destruct (rc_param l) as [[n v]|] eqn:P; [|discriminate].
    assert (SKIP : forall s1, sv_found s1 = true -> sv_done s1 = sv_done s -> sv_mask s1 = sv_mask s -> sv_out s1 = sv_out s ->
      (forall es, keep ask (sv_asked s) ((n, v) :: es) = keep ask (sv_asked s1) es) -> save_lines ask o (nl ls) s1 = (s', true) ->
      exists kl kept, entries_of kl kept /\ incl kl (l :: ls) /\ sv_found s' = true /\ sv_done s' = sv_done s /\ sv_out s' = sv_out s ++ term kl /\
        saved o (sv_mask s') = besides (map fst kept) (saved o (sv_mask s)) /\
        (exists es, match scan name true ls with Some (es0, h') => Some ((n, v) :: es0, h') | None => None end = Some (es, true) /\ kept = keep ask (sv_asked s) es)).
    { intros s1 F1 D1 M1 O1 K X. destruct (IH s1 s' F1 X) as (kl & kept & A & B & C & D & G & H & es & SC & KE). rewrite M1, O1, D1 in *.
      exists kl, kept. ands; auto. exists ((n, v) :: es). rewrite SC, K. auto. }
    destruct (lookup var_array n) as [x|] eqn:L.
    + pose proof (critical_secret _ _ L) as CS. destruct (critical x).
      * destruct (ask (sv_asked s)) eqn:AS.
        -- apply SKIP; auto. intros es. cbn [keep sv_asked]. now rewrite <- CS, AS.
        -- intros X. match type of X with save_lines _ _ _ ?s1 = _ => destruct (IH s1 s' eq_refl X) as (kl & kept & A & B & C & D & G & H & es & SC & KE) end.
           cbn [sv_done sv_mask sv_out sv_asked] in *. exists (l :: kl), ((n, v) :: kept). ands; auto.
           ++ constructor; auto.
           ++ intros z [->|J]; [now left|right; auto].
           ++ rewrite G. unfold term. cbn [map concat]. now rewrite <- !app_assoc.
           ++ rewrite H, (saved_without _ _ _ _ L). unfold besides. cbn [map fst]. clear. induction (saved o (sv_mask s)) as [|e r IH]; [reflexivity|]. cbn [filter].
              unfold memb_bytes at 2. cbn [existsb]. fold (memb_bytes (fst e) (map fst kept)). destruct (bseq (fst e) n); cbn [orb negb]; [exact IH|]. cbn [filter].
              now destruct (memb_bytes (fst e) (map fst kept)); cbn [negb]; rewrite IH.
           ++ exists ((n, v) :: es). rewrite SC. split; [reflexivity|]. cbn [keep]. rewrite <- CS, AS. now f_equal.
      * apply SKIP; auto. intros es. cbn [keep]. now rewrite <- CS.
    + pose proof (unknown_secret _ L) as US. apply SKIP; auto. intros es. cbn [keep]. now rewrite US.
Qed.

(** ** The parts of the file *)
Lemma parts ls : (~ twice name ls) -> Forall clean ls -> other ls \/
  exists pre l n body post, ls = pre ++ l :: body ++ post /\ other pre /\ is_empty_line (hd x00 l) = false /\ rc_section l = Some n /\ strcaseeq n name = true /\ flat body /\
    (post = [] \/ exists l2 n2 r, post = l2 :: r /\ is_empty_line (hd x00 l2) = false /\ rc_section l2 = Some n2) /\ other post.
Proof.
  intros T C. assert (SP : other ls \/ exists pre l n r, ls = pre ++ l :: r /\ other pre /\ is_empty_line (hd x00 l) = false /\ rc_section l = Some n /\ strcaseeq n name = true).
  { clear T C. induction ls as [|l ls IH]; [left; constructor|].
    destruct (is_empty_line (hd x00 l)) eqn:EL; [|destruct (rc_section l) as [n|] eqn:R; [destruct (strcaseeq n name) eqn:SN|]].
    2: { right. exists [], l, n, ls. ands; auto. constructor. }
    all: destruct IH as [IH|(pre & l1 & n1 & r & -> & A & B & D & G)]; [left; constructor; auto; intros; congruence|].
    all: right; exists (l :: pre), l1, n1, r; ands; auto; constructor; auto; intros; congruence. }
  destruct SP as [SP|(pre & l & n & r & -> & A & B & D & G)]; [now left|]. right.
  assert (SR : flat r \/ exists body l2 n2 r2, r = body ++ l2 :: r2 /\ flat body /\ is_empty_line (hd x00 l2) = false /\ rc_section l2 = Some n2).
  { clear - r. induction r as [|k r IH]; [left; constructor|].
    destruct (is_empty_line (hd x00 k)) eqn:EL; [|destruct (rc_section k) as [n|] eqn:R].
    2: { right. exists [], k, n, r. ands; auto. constructor. }
    all: destruct IH as [IH|(body & l1 & n1 & r1 & -> & A & B & D)]; [left; constructor; auto; intros; congruence|].
    all: right; exists (k :: body), l1, n1, r1; ands; auto; constructor; auto; intros; congruence. }
  apply Forall_app in C as [C0 C]. pose proof (Forall_inv C) as CL. apply Forall_inv_tail in C.
  destruct SR as [SR|(body & l2 & n2 & r2 & -> & FB & E2 & R2)].
  - exists pre, l, n, r, []. rewrite app_nil_r. ands; auto. constructor.
  - exists pre, l, n, body, (l2 :: r2). ands; auto; [right; eauto 10|].
    apply Forall_forall. intros l3 I n3 E3 R3. apply not_true_is_false. intros S3. apply T. apply in_split in I as (b & c & EQ).
    exists pre, l, n, (body ++ b), l3, n3, c. rewrite EQ, <- app_assoc. apply Forall_app in C as [_ C]. rewrite EQ in C. apply Forall_app in C as [_ C].
    ands; auto; try (apply same_name_eq; assumption); apply clean_heading; auto. now apply Forall_inv in C.
Qed.
Lemma clean_nc ls : Forall clean ls -> Forall clean (nc ls).
Proof. intros F. apply Forall_forall. intros l I. apply filter_In in I as [I _]. rewrite Forall_forall in F. auto. Qed.
Lemma scan_head nm l n r h : is_empty_line (hd x00 l) = false -> rc_section l = Some n -> scan nm h (l :: r) = scan nm (strcaseeq n nm) r.
Proof. intros E R. cbn [scan]. now rewrite E, R. Qed.
Lemma strcase_other n nm : strcaseeq n name = true -> ~ same_name nm name -> strcaseeq n nm = false.
Proof.
  intros A B. apply not_true_is_false. intros C. apply B. apply same_name_eq in A, C. unfold same_name in *. congruence.
Qed.

Definition name_ok (n : bytes) : Prop := ~ In "]"%byte n /\ clean n.
Theorem save_spec m lines new : Forall line_ok lines -> Forall simple lines -> ~ twice name lines -> name_ok name -> Forall (fun e => one_word (snd e)) (saved o m) ->
  save_text ask o m (file (lines ++ [[]])) = (new, true) ->
  exists newlines kept, new = file (newlines ++ [[]]) /\ Forall clean newlines /\
    (forall l, In l newlines -> In l lines \/ l = [] \/ l = $ "[" ++ name ++ $ "]" \/ exists e, In e (saved o m) /\ l = var_line1 e) /\
    (forall n es, ~ same_name n name -> stanza n false lines es -> stanza n false newlines es) /\
    stanza name false newlines (kept ++ besides (map fst kept) (saved o m)) /\
    (if is_set o q_force then kept = [] else exists es, stanza name false lines es /\ kept = keep ask 0 es) /\ got_heading newlines name.
Proof.
  intros LO SI T (NB & CN) OW E. unfold save_text in E. rewrite file_lines_nl in E.
  2: { apply Forall_app. split; [exact LO|]. constructor; [|constructor]. unfold line_ok. ands; [intros []|intros []|]. rewrite zlen_nil. lia. }
  rewrite nl_lines_term in E. fold (nl lines) in E.
  assert (C : Forall clean lines).
  { rewrite Forall_forall in *. intros l I. destruct (LO l I) as (A & B & _). unfold clean. auto. }
  assert (BE : forall (l : list (bytes * bytes)), besides [] l = l) by (unfold besides; induction l as [|e l IH]; cbn; [reflexivity|f_equal; exact IH]).
  destruct (parts lines T C) as [OT|(pre & l & n & body & post & EQ & OP & EL & R & SN & FB & PO & OPO)].
  - rewrite (save_other _ OT) in E by reflexivity. cbn [sv_done sv_mask sv_out sv_asked sv_found app andb negb] in E.
    destruct (saved_lines o m OW) as [EO CW]. set (hl := $ "[" ++ name ++ $ "]").
    assert (CH : clean hl).
    { unfold hl, clean, simple in *. destruct CN as (A & B & D & G). rewrite !in_app_iff. cbn [In app]. ands; intros [[Q|Q]|[Q|[Q|Q]]]; try discriminate Q; contradiction. }
    assert (RH : rc_section hl = Some name).
    { apply heading_rc_section. split; [intros [Q|Q]; [discriminate|vm_compute in Q; intuition discriminate]|]. exists [], []. rewrite app_nil_r. ands; auto. }
    assert (SO : scan name false lines = Some ([], false)) by (apply scan_none; exact OT).
    exists (nc lines ++ [] :: hl :: map var_line1 (saved o m)), []. cbn [map app]. ands.
    + injection E as <-. rewrite <- term_file, term_app, vars_text_lines. f_equal. unfold term, hl. cbn [map concat]. change (txt o t_stanza) with name. now rewrite <- !app_assoc.
    + apply Forall_app. split; [now apply clean_nc|]. constructor; [|constructor; auto]. unfold clean, simple. cbn. tauto.
    + intros k I. rewrite in_app_iff in I. destruct I as [I|[<-|[<-|I]]]; auto.
      * left. now apply filter_In in I.
      * right. right. right. apply in_map_iff in I as (e & <- & I). eauto.
    + intros nm es NS S. apply scan_stanza in S as (h & S); [|exact C]. apply scan_stanza.
      { apply Forall_app. split; [now apply clean_nc|]. constructor; [|constructor; auto]. unfold clean, simple. cbn. tauto. }
      rewrite scan_app, scan_nc, S. change (scan nm h ([] :: ?x)) with (scan nm h x). exists false. rewrite (scan_head nm hl name _ h eq_refl RH).
      rewrite strcase_other; [|now apply same_name_eq|exact NS]. rewrite (scan_flat_out _ _ (entries_flat _ _ EO)). now rewrite app_nil_r.
    + rewrite BE. apply scan_stanza.
      { apply Forall_app. split; [now apply clean_nc|]. constructor; [|constructor; auto]. unfold clean, simple. cbn. tauto. }
      rewrite scan_app, scan_nc, SO. change (scan name false ([] :: ?x)) with (scan name false x). exists true. rewrite (scan_head name hl name _ _ eq_refl RH).
      replace (strcaseeq name name) with true by (symmetry; now apply same_name_eq). now rewrite (entries_scan _ _ _ EO).
    + destruct (is_set o q_force); [reflexivity|]. exists []. split; [|reflexivity]. apply scan_stanza; eauto.
    + exists hl, name. ands; [apply in_or_app; right; right; now left|apply clean_heading; auto|reflexivity].
  - rewrite EQ in E. unfold nl in E. rewrite map_app in E. cbn [map] in E. rewrite map_app in E. fold (nl pre) (nl body) (nl post) in E.
    rewrite save_app, (save_other _ OP) in E by reflexivity. cbn [save_lines sv_done sv_mask sv_out sv_asked sv_found app] in E.
    unfold save_line in E at 1. rewrite empty_nl, rc_section_nl, EL, R in E. cbn [sv_found sv_done sv_mask sv_out sv_asked] in E. change (txt o t_stanza) with name in E. rewrite SN in E.
    rewrite save_app in E.
    match type of E with context [save_lines ask o (nl body) ?s0] => set (s1 := s0) in E; destruct (save_lines ask o (nl body) s1) as [s2 go] eqn:SB end.
    destruct go; [|injection E as _ Q; discriminate Q].
    destruct (save_body body FB s1 s2 eq_refl SB) as (kl & kept & EK & IK & F2 & D2 & O2 & M2 & K2). unfold s1 in D2, O2, M2, K2. cbn [sv_done sv_mask sv_out sv_asked] in *.
    assert (OW2 : Forall (fun e => one_word (snd e)) (saved o (sv_mask s2))).
    { rewrite M2. unfold besides. apply Forall_forall. intros e I. apply filter_In in I as [I _]. rewrite Forall_forall in OW. auto. }
    destruct (saved_lines o (sv_mask s2) OW2) as [EO CW]. rewrite M2 in EO, CW.
    pose proof C as C'. rewrite EQ in C'. apply Forall_app in C' as [CP C']. pose proof (Forall_inv C') as CL. apply Forall_inv_tail in C'. apply Forall_app in C' as [CB CPO].
    assert (CK : Forall clean kl) by (rewrite Forall_forall in *; auto).
    set (W := besides (map fst kept) (saved o m)) in *.
    (* the lines written behind the stanza *)
    set (gap := match post with [] => [] | _ => [[]] end : list bytes).
    assert (NEW : new = term (nc pre ++ l :: kl ++ map var_line1 W ++ gap ++ nc post)).
    { destruct PO as [-> | (l2 & n2 & r2 & EP & E2 & R2)].
      - cbn [nl map save_lines] in E. rewrite D2, F2 in E. cbn [andb negb app] in E. injection E as <-. rewrite vars_text_lines, M2, O2.
        unfold gap. cbn [nc filter]. rewrite !app_nil_r. rewrite term_app. change (term (l :: ?x)) with ((l ++ [x0a]) ++ term x). rewrite term_app, <- !app_assoc. reflexivity.
      - rewrite EP in E. cbn [nl map save_lines] in E. unfold save_line in E at 1. rewrite empty_nl, rc_section_nl, E2, R2, F2 in E. cbn [sv_found sv_done sv_mask sv_out sv_asked] in E.
        fold (nl r2) in E. rewrite save_other in E; [|rewrite EP in OPO; now apply Forall_inv_tail in OPO|reflexivity]. cbn [sv_found sv_done sv_mask sv_out sv_asked andb negb] in E.
        injection E as <-. rewrite vars_text_lines, M2, O2, EP. unfold gap. rewrite EP. cbn [nc filter]. rewrite E2. cbn [negb]. fold (nc r2).
        rewrite term_app. change (term (l :: ?x)) with ((l ++ [x0a]) ++ term x). rewrite !term_app. change (term (l2 :: nc r2)) with ((l2 ++ [x0a]) ++ term (nc r2)).
        change (term [[]]) with [x0a]. rewrite <- !app_assoc. cbn [app]. rewrite <- !app_assoc. reflexivity. }
    assert (CG : Forall clean gap). { unfold gap. destruct post; repeat constructor; unfold simple; cbn; tauto. }
    assert (CNEW : Forall clean (nc pre ++ l :: kl ++ map var_line1 W ++ gap ++ nc post)).
    { apply Forall_app. split; [now apply clean_nc|]. constructor; [exact CL|]. apply Forall_app. split; [exact CK|]. apply Forall_app. split; [exact CW|]. apply Forall_app. split; [exact CG|now apply clean_nc]. }
    assert (SG : forall nm h, scan nm h gap = Some ([], h)) by (intros; unfold gap; destruct post; reflexivity).
    exists (nc pre ++ l :: kl ++ map var_line1 W ++ gap ++ nc post), kept. ands; auto.
    + now rewrite <- term_file.
    + intros k I. rewrite EQ. rewrite !in_app_iff in *. cbn [In] in *. rewrite !in_app_iff in *. destruct I as [I|[I|[I|[I|[I|I]]]]]; auto.
      * apply filter_In in I as [I _]. auto.
      * left. right. right. left. apply IK, I.
      * right. right. right. apply in_map_iff in I as (e & <- & I). apply filter_In in I as [I _]. eauto.
      * right. left. unfold gap in I. destruct post; [destruct I|]. destruct I as [I|[]]. now subst.
      * apply filter_In in I as [I _]. auto.
    + intros nm es NS S. apply scan_stanza in S as (h & S); [|exact C]. apply scan_stanza; [exact CNEW|]. exists h. rewrite EQ, scan_app in S. rewrite scan_app, scan_nc.
      destruct (scan nm false pre) as [[es1 h1]|]; [|discriminate S]. rewrite (scan_head nm l n _ h1 EL R) in S. rewrite (scan_head nm l n _ h1 EL R). rewrite (strcase_other n nm SN NS) in *.
      rewrite scan_app, (scan_flat_out _ _ FB) in S. rewrite scan_app, (scan_flat_out _ _ (entries_flat _ _ EK)), scan_app, (scan_flat_out _ _ (entries_flat _ _ EO)), scan_app, SG, scan_nc.
      destruct (scan nm false post) as [[es3 h3]|]; [|discriminate S]. exact S.
    + apply scan_stanza; [exact CNEW|]. exists (match post with [] => true | _ => false end). rewrite scan_app, scan_nc, (scan_none _ _ OP), (scan_head name l n _ _ EL R), SN.
      rewrite scan_app, (entries_scan _ _ _ EK), scan_app, (entries_scan _ _ _ EO), scan_app, SG, scan_nc. destruct PO as [-> | (l2 & n2 & r2 & -> & E2 & R2)].
      * cbn [scan app]. now rewrite ?app_nil_r.
      * rewrite (scan_head name l2 n2 _ _ E2 R2), (Forall_inv OPO n2 E2 R2). rewrite (scan_none _ _ (Forall_inv_tail OPO)). cbn [app]. now rewrite ?app_nil_r.
    + destruct (is_set o q_force); [exact K2|]. destruct K2 as (es & SC & KE). exists es. split; [|exact KE]. apply scan_stanza; [exact C|].
      exists (match post with [] => true | _ => false end). rewrite EQ, scan_app, (scan_none _ _ OP), (scan_head name l n _ _ EL R), SN, scan_app, SC. destruct PO as [-> | (l2 & n2 & r2 & -> & E2 & R2)].
      * cbn [scan app]. now rewrite ?app_nil_r.
      * rewrite (scan_head name l2 n2 _ _ E2 R2), (Forall_inv OPO n2 E2 R2). rewrite (scan_none _ _ (Forall_inv_tail OPO)). cbn [app]. now rewrite ?app_nil_r.
    + exists l, n. ands; [apply in_or_app; right; now left|now apply clean_heading|now apply same_name_eq].
Qed.
End Save.
