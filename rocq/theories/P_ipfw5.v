(** Proofs about the ipfw back end: requests, checks and purges keep the books in agreement with
    the table. *)
From Verif Require Import Bytes M_util M_message M_codec M_access M_cycle M_incoming M_packet M_fw M_extcmd M_pf
  S_text S_access S_incoming S_fw S_pf P_bytes P_util P_util2 P_access P_fw P_fw2 P_fw3 P_fw5 P_fw8 P_fw9 P_fwinit3 P_incoming3 P_incoming5 P_pf P_pf2 M_ipfw S_ipfw P_ipfw P_ipfw2 P_ipfw3 P_ipfw4.
From Coq Require Import Init.Byte List ZArith Bool Lia Permutation.
Import ListNotations.
Open Scope Z_scope.

Section Ipfw.
Variable K : ipfw.
Variable cf : ipfwconf.
Hypothesis CF : conf_fits cf.
Hypothesis KO : ipfw_ok K.
Notation run := (exec_ipfw K).

Lemma sets_differ : i_active cf <> i_expire cf.
Proof. destruct CF as (_ & _ & _ & _ & D & _). exact D. Qed.

(** ** Requests *)
Lemma rules_exist d dst e n pl : 0 <= d_timeout d -> ten_digits e -> Forall (fun x : Z * Z => 0 <= fst x <= 255 /\ 0 <= snd x <= 65535) pl -> exists xs, Forall2 (grants cf d dst e n) pl xs.
Proof.
  intros _ TEN. induction 1 as [|pp pl (P & Q) _ (xs & IH)]; [exists []; constructor|].
  exists (mkRule n (i_active cf) [$ "pass"; dec (fst pp); $ "from"; d_use d; $ "to"; dst; $ "dst-port"; dec (snd pp); $ "setup"; $ "keep-state"; $ "//"; mark ++ dec e] :: xs).
  constructor; [|exact IH]. split; [reflexivity|]. split; [reflexivity|]. exists (dec (fst pp)), (dec (snd pp)), (dec e). destruct TEN.
  split; [apply dec_num; lia|]. split; [apply dec_num; lia|]. split; [apply dec_num; lia|reflexivity].
Qed.
Lemma free_number k : zlen (b_map k) = i_max cf ->
  first_free (i_start cf) 0 (b_map k) = 0 /\ (forall n, in_range cf n -> status cf k n <> Some 0) \/
  in_range cf (first_free (i_start cf) 0 (b_map k)) /\ status cf k (first_free (i_start cf) 0 (b_map k)) = Some 0 /\
  forall j, in_range cf j -> j < first_free (i_start cf) 0 (b_map k) -> status cf k j <> Some 0.
Proof.
  intro L. pose proof CF as (_ & _ & _ & _ & _ & S0 & M0 & SM). unfold status.
  destruct (first_free_spec (i_start cf) S0 (b_map k) 0) as [(E & N)|(j & E & N & F)]; [lia|lia| |].
  - left. split; [exact E|]. intros n (R1 & R2). destruct (Z.ltb_spec n (i_start cf)); [lia|]. intro Q. apply nth_error_In in Q. auto.
  - right. rewrite E. assert (JL : (j < List.length (b_map k))%nat) by (apply nth_error_Some; congruence). unfold zlen in L. split; [split; lia|].
    split. { destruct (Z.ltb_spec (i_start cf + 0 + Z.of_nat j) (i_start cf)); [lia|]. rewrite <- N. f_equal. lia. }
    intros n (R1 & R2) LT. destruct (Z.ltb_spec n (i_start cf)); [lia|]. intro Q. apply F.
    rewrite <- (firstn_skipn j (b_map k)) in Q. rewrite nth_error_app1 in Q; [now apply nth_error_In in Q|]. rewrite firstn_length. lia.
Qed.

(** A request that is granted with the number [n] *)
Record granted (now : Z) (k : books) (t : table) (d : spa_data) (dst : bytes) (e : Z) (pl : list (Z * Z)) (n : Z) (xs : list rule) (k' : books) (t' : table) : Prop := mkGranted {
  gr_range : in_range cf n;
  gr_free : status cf k n = Some 0;
  gr_low : forall j, in_range cf j -> j < n -> status cf k j <> Some 0;
  gr_xs : Forall2 (grants cf d dst e n) pl xs;
  gr_perm : Permutation (t_rules t') (t_rules t ++ xs);
  gr_off : t_off t' = t_off t;
  gr_dyn : t_dyn t' = t_dyn t;
  gr_map : zlen (b_map k') = i_max cf;
  gr_other : forall j, j <> n -> status cf k' j = status cf k j;
  gr_mine : status cf k' n = Some 1;
  gr_pos : 0 <= b_active k -> 0 <= b_active k';
  gr_active : 0 <= b_active k -> b_active k + zlen pl <= 65535 -> b_active k' = b_active k + zlen pl;
  gr_next : b_next k' = b_next k \/ b_next k' = e }.

Lemma ask_pass now k t d dst e pl : zlen (b_map k) = i_max cf -> access_request cf d now dst e pl ->
  process_spa_request machine run cf d now k (t, []) = Ok (None, k, (t, [])) /\ (forall n, in_range cf n -> status cf k n <> Some 0) \/
  exists n xs k' t', process_spa_request machine run cf d now k (t, []) = Ok (Some true, k', (t', [])) /\ granted now k t d dst e pl n xs k' t'.
Proof.
  intros ML (TY & RQ & SRC & DST & EE & TP & TEN). unfold process_spa_request.
  assert (B : (d_type d =? FKO_ACCESS_MSG) || (d_type d =? FKO_CLIENT_TIMEOUT_ACCESS_MSG) = true) by (apply orb_true_iff; destruct TY as [->| ->]; [left|right]; reflexivity).
  rewrite B, (entries_requested _ _ RQ). destruct (entries_ok _ _ RQ) as (NE & PP).
  destruct (free_number k ML) as [(Z0 & N)|(R & F0 & LO)].
  { left. rewrite Z0. split; [reflexivity|exact N]. }
  right. set (n := first_free (i_start cf) 0 (b_map k)) in *.
  assert (N0 : n =? 0 = false) by (apply Z.eqb_neq; destruct R as (R1 & _); destruct CF as (_ & _ & _ & _ & _ & S0 & _); lia). rewrite N0.
  rewrite u32_small by (destruct TEN; lia). rewrite <- EE.
  assert (DE : (if i_use_dst cf then d_pkt_dst d else IPFW_ANY_IP) = dst) by (destruct (i_use_dst cf); [destruct DST as (-> & _)|subst dst]; reflexivity). rewrite DE.
  destruct (rules_exist d dst e n pl TP TEN PP) as (xs & G).
  destruct (add_all K cf CF KO (d_use d) dst e now n SRC) with (pl := pl) (xs := xs) (k := k) (t := t)
    as (k' & t' & E & PM & OF & DY & LM & PU & ST & SN & A0 & AC & NX); auto; try lia.
  { destruct (i_use_dst cf); [right; apply DST|left; exact DST]. }
  rewrite E. cbn [bind]. exists n, xs, k', t'. split; [reflexivity|]. constructor; auto.
  rewrite NX. destruct pl; [now elim NE|]. destruct ((b_next k <? now) || (e <? b_next k)); auto.
Qed.
(** Whatever fails *)
Lemma ask_safe now k t d dst e pl fs : zlen (b_map k) = i_max cf -> access_request cf d now dst e pl ->
  exists n xs ys res k' t' fs', process_spa_request machine run cf d now k (t, fs) = Ok (res, k', (t', fs')) /\
    Forall2 (grants cf d dst e n) pl xs /\ only_drops (fun _ => True) xs ys /\ (ys <> [] -> in_range cf n /\ status cf k n = Some 0) /\ Permutation (t_rules t') (t_rules t ++ ys) /\ t_off t' = t_off t /\ t_dyn t' = t_dyn t.
Proof.
  intros ML (TY & RQ & SRC & DST & EE & TP & TEN). unfold process_spa_request.
  assert (B : (d_type d =? FKO_ACCESS_MSG) || (d_type d =? FKO_CLIENT_TIMEOUT_ACCESS_MSG) = true) by (apply orb_true_iff; destruct TY as [->| ->]; [left|right]; reflexivity).
  rewrite B, (entries_requested _ _ RQ). destruct (entries_ok _ _ RQ) as (NE & PP).
  set (n := first_free (i_start cf) 0 (b_map k)) in *. destruct (rules_exist d dst e n pl TP TEN PP) as (xs & G).
  destruct (free_number k ML) as [(Z0 & N)|(R & F0 & LO)].
  { fold n in Z0. rewrite Z0. exists n, xs, [], None, k, t, fs. split; [reflexivity|]. split; [exact G|]. split; [clear; induction xs; constructor; auto|]. split; [easy|]. rewrite app_nil_r. auto. }
  fold n in R, F0.
  assert (N0 : n =? 0 = false) by (apply Z.eqb_neq; destruct R as (R1 & _); destruct CF as (_ & _ & _ & _ & _ & S0 & _); lia). rewrite N0.
  rewrite u32_small by (destruct TEN; lia). rewrite <- EE.
  assert (DE : (if i_use_dst cf then d_pkt_dst d else IPFW_ANY_IP) = dst) by (destruct (i_use_dst cf); [destruct DST as (-> & _)|subst dst]; reflexivity). rewrite DE.
  destruct (add_safe K cf CF KO (d_use d) dst e now n SRC) with (pl := pl) (xs := xs) (res := true) (k := k) (t := t) (fs := fs)
    as (res' & k' & t' & fs' & ys & E & DR & PM & OF & DY); auto; try lia.
  { destruct (i_use_dst cf); [right; apply DST|left; exact DST]. }
  rewrite E. cbn [bind]. exists n, xs, ys, (Some res'), k', t', fs'. split; [reflexivity|]. split; [exact G|]. split; [exact DR|]. auto.
Qed.
Lemma ask_other now k w d : d_type d <> 1 -> d_type d <> 3 -> process_spa_request machine run cf d now k w = Ok (None, k, w).
Proof.
  intros A B. unfold process_spa_request. destruct (Z.eqb_spec (d_type d) FKO_ACCESS_MSG); [easy|]. destruct (Z.eqb_spec (d_type d) FKO_CLIENT_TIMEOUT_ACCESS_MSG); [easy|]. reflexivity.
Qed.

Lemma grants_end now d dst e pl n pp r : access_request cf d now dst e pl -> In pp pl -> grants cf d dst e n pp r -> ends_at K r e.
Proof.
  intros (TY & RQ & SRC & DST & EE & TP & TEN) I (_ & _ & AS). destruct KO as (_ & AC & _). destruct (entries_ok _ _ RQ) as (NE & PP). rewrite Forall_forall in PP. destruct (PP pp I).
  apply (AC (d_use d) dst e pp (r_body r)); auto. destruct (i_use_dst cf); [right; apply DST|left; exact DST].
Qed.
Lemma xs_in d dst e n pl xs r : Forall2 (grants cf d dst e n) pl xs -> In r xs -> exists pp, In pp pl /\ grants cf d dst e n pp r.
Proof.
  induction 1 as [|pp x pl xs G _ IH]; intros []; [subst; exists pp; split; [left; reflexivity|exact G]|]. destruct IH as (p & A & B); auto. exists p. split; [right; exact A|exact B].
Qed.
Lemma fresh_number k t n r : tidy K cf k t -> in_range cf n -> status cf k n = Some 0 -> In r (t_rules t) -> r_num r <> n.
Proof.
  intros TD R F I <-. destruct (tidy_else _ _ _ _ TD r I R) as [S1|S1].
  - destruct (tidy_active _ _ _ _ TD r I S1) as (_ & Q & _). congruence.
  - destruct (tidy_expire _ _ _ _ TD r I S1) as (_ & Q). congruence.
Qed.
Lemma granted_tidy now k t d dst e pl n xs k' t' : tidy K cf k t -> access_request cf d now dst e pl -> granted now k t d dst e pl n xs k' t' -> tidy K cf k' t'.
Proof.
  intros TD AR G. pose proof (gr_range _ _ _ _ _ _ _ _ _ _ _ G) as R. pose proof (gr_free _ _ _ _ _ _ _ _ _ _ _ G) as F.
  pose proof sets_differ as SD.
  assert (IN : forall r, In r (t_rules t') -> In r (t_rules t) /\ r_num r <> n \/ (r_num r = n /\ r_set r = i_active cf /\ ends_at K r e)).
  { intros r I. apply (Permutation_in _ (gr_perm _ _ _ _ _ _ _ _ _ _ _ G)) in I. apply in_app_iff in I as [I|I].
    - left. split; [exact I|]. exact (fresh_number k t n r TD R F I).
    - right. destruct (xs_in _ _ _ _ _ _ _ (gr_xs _ _ _ _ _ _ _ _ _ _ _ G) I) as (pp & P & GR). split; [apply GR|]. split; [apply GR|]. exact (grants_end now d dst e pl n pp r AR P GR). }
  constructor.
  - exact (gr_map _ _ _ _ _ _ _ _ _ _ _ G).
  - rewrite (gr_off _ _ _ _ _ _ _ _ _ _ _ G). apply (tidy_on _ _ _ _ TD).
  - rewrite (gr_off _ _ _ _ _ _ _ _ _ _ _ G). apply (tidy_off _ _ _ _ TD).
  - intros r I S1. destruct (IN r I) as [(I1 & NN)|(NN & _ & EN)].
    + rewrite (gr_other _ _ _ _ _ _ _ _ _ _ _ G) by exact NN. apply (tidy_active _ _ _ _ TD r I1 S1).
    + rewrite NN. split; [exact R|]. split; [exact (gr_mine _ _ _ _ _ _ _ _ _ _ _ G)|]. exists e. exact EN.
  - intros r I S1. destruct (IN r I) as [(I1 & NN)|(NN & SA & _)]; [|congruence].
    rewrite (gr_other _ _ _ _ _ _ _ _ _ _ _ G) by exact NN. apply (tidy_expire _ _ _ _ TD r I1 S1).
  - intros r I RR. destruct (IN r I) as [(I1 & NN)|(NN & SA & _)]; [|left; exact SA]. apply (tidy_else _ _ _ _ TD r I1 RR).
  - intros r r' f f' I I' S1 S1' EQ E1 E2. destruct (IN r I) as [(I1 & NN)|(NN & SA & EN)], (IN r' I') as [(I1' & NN')|(NN' & SA' & EN')]; try congruence.
    + exact (tidy_same _ _ _ _ TD r r' f f' I1 I1' S1 S1' EQ E1 E2).
    + rewrite (ends_fun _ _ _ _ E1 EN). symmetry. exact (ends_fun _ _ _ _ E2 EN').
  - rewrite (gr_dyn _ _ _ _ _ _ _ _ _ _ _ G). apply (tidy_dyn _ _ _ _ TD).
Qed.

(** ** Checks *)
Lemma moved_tidy k t r0 m act tot nx pu : tidy K cf k t -> In r0 (t_rules t) -> r_set r0 = i_active cf -> put_map (r_num r0 - i_start cf) 2 (b_map k) = Ok m ->
  tidy K cf (mkBooks act tot nx pu m) (with_rules t (map (moved (r_num r0) (i_expire cf)) (t_rules t))).
Proof.
  intros TD I0 S0 EM. destruct (tidy_active _ _ _ _ TD r0 I0 S0) as (R0 & ST0 & _). pose proof sets_differ as SD.
  destruct (put_look cf (r_num r0) 2 (b_map k) R0 (tidy_map _ _ _ _ TD)) as (m' & EM' & LM & SM & OM). rewrite EM in EM'. injection EM' as <-.
  assert (IN : forall r, In r (map (moved (r_num r0) (i_expire cf)) (t_rules t)) -> In r (t_rules t) /\ r_num r <> r_num r0 \/ (r_num r = r_num r0 /\ r_set r = i_expire cf)).
  { intros r I. apply in_map_iff in I as (x & <- & I). unfold moved. destruct (Z.eqb_spec (r_num x) (r_num r0)); [right; cbn; auto|left; auto]. }
  constructor; cbn [b_map with_rules t_rules t_off t_dyn].
  - exact LM.
  - apply (tidy_on _ _ _ _ TD).
  - apply (tidy_off _ _ _ _ TD).
  - intros r I S1. destruct (IN r I) as [(I1 & NN)|(NN & SE)]; [|congruence]. destruct (tidy_active _ _ _ _ TD r I1 S1) as (A & B & C).
    split; [exact A|]. split; [|exact C]. rewrite status_look. cbn [b_map]. rewrite OM by exact NN. exact B.
  - intros r I S1. destruct (IN r I) as [(I1 & NN)|(NN & _)].
    + destruct (tidy_expire _ _ _ _ TD r I1 S1) as (A & B). split; [exact A|]. rewrite status_look. cbn [b_map]. rewrite OM by exact NN. exact B.
    + rewrite NN. split; [exact R0|]. exact SM.
  - intros r I RR. destruct (IN r I) as [(I1 & NN)|(_ & SE)]; [|right; exact SE]. apply (tidy_else _ _ _ _ TD r I1 RR).
  - intros r r' f f' I I' S1 S1' EQ E1 E2. destruct (IN r I) as [(I1 & NN)|(NN & SA)], (IN r' I') as [(I1' & NN')|(NN' & SA')]; try congruence.
    exact (tidy_same _ _ _ _ TD r r' f f' I1 I1' S1 S1' EQ E1 E2).
  - apply (tidy_dyn _ _ _ _ TD).
Qed.
Lemma tidy_books k k' t : b_map k' = b_map k -> tidy K cf k t -> tidy K cf k' t.
Proof. intros E [A B C D F G H I]. unfold status in *. constructor; unfold status; rewrite ?E; auto. Qed.
Lemma last_in (l : list rule) r s rs : in_set s rs = l ++ [r] -> In r rs /\ r_set r = s.
Proof. intro E. apply in_set_In. rewrite E. apply in_app_iff. right. left. reflexivity. Qed.
Lemma checked_tidy now k t k' t' : tidy K cf k t -> checked K cf now k t k' t' -> tidy K cf k' t'.
Proof.
  intros TD C. destruct C as [C|C1 C2 C3|l r e C1 C2 C3 C4 C5|l r e m C1 C2 C3 C4 C5 C6].
  1,2,3: eapply tidy_books; [|exact TD]; reflexivity.
  destruct (last_in _ _ _ _ C3) as (I & S1). eapply moved_tidy; eauto.
Qed.

(** ** Purges *)
Lemma purged_tidy now k t k' t' : tidy K cf k t -> purged cf now k t k' t' -> tidy K cf k' t'.
Proof.
  intros TD P. destruct P as [|k' t' (OF & DY & _) ML BA BN PT PE PO]; [exact TD|]. pose proof sets_differ as SD.
  assert (LATER : forall r, In r (t_rules t) -> in_range cf (r_num r) -> r_set r = i_active cf -> status cf k' (r_num r) = Some 1).
  { intros r I R S1. destruct (tidy_active _ _ _ _ TD r I S1) as (_ & B & _). rewrite PO, B; [reflexivity|]. intros r' I' S1' EQ. destruct (tidy_expire _ _ _ _ TD r' I' S1') as (_ & B'). congruence. }
  constructor.
  - exact ML.
  - rewrite OF. apply (tidy_on _ _ _ _ TD).
  - rewrite OF. apply (tidy_off _ _ _ _ TD).
  - intros r I S1. apply PT in I as (I & _). destruct (tidy_active _ _ _ _ TD r I S1) as (A & B & C). split; [exact A|]. split; [now apply LATER|exact C].
  - intros r I S1. apply PT in I as (I & H). destruct (tidy_expire _ _ _ _ TD r I S1) as (A & B). split; [exact A|]. rewrite (PE r I S1). destruct (H S1) as (c & IC & X).
    assert (Y : existsb (fun c => fst c =? r_num r) (t_dyn t) = true) by (apply existsb_exists; exists c; split; [exact IC|now apply Z.eqb_eq]). now rewrite Y.
  - intros r I R. apply PT in I as (I & _). exact (tidy_else _ _ _ _ TD r I R).
  - intros r r' f f' I I' S1 S1'. apply PT in I as (I & _), I' as (I' & _). exact (tidy_same _ _ _ _ TD r r' f f' I I' S1 S1').
  - rewrite DY. apply (tidy_dyn _ _ _ _ TD).
Qed.
End Ipfw.
