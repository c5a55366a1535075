(** Proofs about the ipfw back end: histories. *)
From Verif Require Import Bytes M_util M_message M_codec M_access M_cycle M_incoming M_packet M_fw M_extcmd M_pf
  S_text S_access S_incoming S_fw S_pf P_bytes P_util P_util2 P_access P_fw P_fw2 P_fw3 P_fw5 P_fw8 P_fw9 P_fwinit3 P_incoming3 P_incoming5 P_pf P_pf2 M_ipfw S_ipfw P_ipfw P_ipfw2 P_ipfw3 P_ipfw4 P_ipfw5.
From Coq Require Import Init.Byte List ZArith Bool Lia Permutation.
Import ListNotations.
Open Scope Z_scope.

Section Ipfw.
Variable K : ipfw.
Variable cf : ipfwconf.
Hypothesis CF : conf_fits cf.
Hypothesis KO : ipfw_ok K.
Notation run := (exec_ipfw K).

(** ** One step *)
Definition stepped (now : Z) (o : op) (k : books) (t : table) (k' : books) (t' : table) : Prop :=
  match o with
  | Ask d => k' = k /\ t' = t \/ exists dst e pl n xs, access_request cf d now dst e pl /\ granted cf now k t d dst e pl n xs k' t'
  | Check => checked K cf now k t k' t'
  | Purge => purged cf now k t k' t'
  | Traffic c => k' = k /\ t' = mkTable (t_rules t) (t_off t) c
  end.
Lemma checked_pos now k t k' t' : 0 <= b_active k -> checked K cf now k t k' t' -> 0 <= b_active k'.
Proof.
  intros P C. assert (A : 0 <= now_active cf k) by (unfold now_active; destruct (b_active k >? i_max cf); lia).
  destruct C; cbn [b_active]; lia.
Qed.
Lemma step_pass now o k t : tidy K cf k t -> 0 <= b_active k -> proper cf now o -> listings_fit K cf t ->
  exists k' t', serve_one K cf now o (k, (t, [])) = Ok (k', (t', [])) /\ stepped now o k t k' t' /\ tidy K cf k' t' /\ 0 <= b_active k'.
Proof.
  intros TD P PR (L1 & L2). destruct o as [d| | |c]; cbn [serve_one fst snd stepped].
  - destruct PR as [(A & B)|(dst & e & pl & AR)].
    + rewrite ask_other by assumption. cbn [bind]. exists k, t. auto.
    + destruct (ask_pass K cf CF KO now k t d dst e pl (tidy_map _ _ _ _ TD) AR) as [(E & _)|(n & xs & k' & t' & E & G)]; rewrite E; cbn [bind].
      * exists k, t. auto.
      * exists k', t'. split; [reflexivity|]. split; [right; exists dst, e, pl, n, xs; auto|]. split; [exact (granted_tidy K cf CF KO _ _ _ _ _ _ _ _ _ _ _ TD AR G)|].
        exact (gr_pos _ _ _ _ _ _ _ _ _ _ _ _ G P).
  - destruct (check_pass K cf CF KO now k t [] TD L1) as (k' & t' & fs' & E & _ & Q). destruct (Q eq_refl P) as (-> & C). exists k', t'. split; [exact E|]. split; [exact C|].
    split; [exact (checked_tidy K cf CF _ _ _ _ _ TD C)|exact (checked_pos _ _ _ _ _ P C)].
  - destruct (purge_pass K cf CF KO now k t [] TD L2) as (k' & t' & fs' & E & _ & BA & _ & _ & Q). destruct (Q eq_refl) as (-> & C). exists k', t'. split; [exact E|]. split; [exact C|].
    split; [exact (purged_tidy K cf CF _ _ _ _ _ TD C)|lia].
  - exists k, (mkTable (t_rules t) (t_off t) c). split; [reflexivity|]. split; [auto|]. split; [|exact P]. destruct TD. constructor; auto.
Qed.

Lemma step_keep now o k t k' t' r e : tidy K cf k t -> stepped now o k t k' t' -> In r (t_rules t) -> r_set r = i_active cf -> ends_at K r e -> now < e -> In r (t_rules t').
Proof.
  intros TD ST I S1 EN LT. pose proof (sets_differ cf CF) as SD. destruct o as [d| | |c]; cbn [stepped] in ST.
  - destruct ST as [(_ & ->)|(dst & f & pl & n & xs & _ & G)]; [exact I|].
    apply (Permutation_in _ (Permutation_sym (gr_perm _ _ _ _ _ _ _ _ _ _ _ _ G))). apply in_app_iff. left. exact I.
  - destruct ST as [C|C1 C2 C3|l x f C1 C2 C3 C4 C5|l x f m C1 C2 C3 C4 C5 C6]; auto.
    destruct (last_in _ _ _ _ C3) as (IX & SX). cbn [t_rules with_rules]. apply in_map_iff. exists r. split; [|exact I].
    unfold moved. destruct (Z.eqb_spec (r_num r) (r_num x)) as [EQ|]; [|reflexivity]. exfalso. pose proof (tidy_same _ _ _ _ TD r x e f I IX S1 SX EQ EN C4). lia.
  - destruct ST as [|k' t' _ _ _ _ PT _ _]; [exact I|]. apply PT. split; [exact I|]. congruence.
  - destruct ST as (_ & ->). exact I.
Qed.
Lemma step_only now o k t k' t' r : tidy K cf k t -> stepped now o k t k' t' -> In r (t_rules t') -> r_set r = i_active cf ->
  In r (t_rules t) \/ exists d dst e pl n pp, o = Ask d /\ access_request cf d now dst e pl /\ In pp pl /\ grants cf d dst e n pp r.
Proof.
  intros TD ST I S1. pose proof (sets_differ cf CF) as SD. destruct o as [d| | |c]; cbn [stepped] in ST.
  - destruct ST as [(_ & ->)|(dst & f & pl & n & xs & AR & G)]; [left; exact I|].
    apply (Permutation_in _ (gr_perm _ _ _ _ _ _ _ _ _ _ _ _ G)) in I. apply in_app_iff in I as [I|I]; [left; exact I|right].
    destruct (xs_in cf _ _ _ _ _ _ _ (gr_xs _ _ _ _ _ _ _ _ _ _ _ _ G) I) as (pp & A & B). exists d, dst, f, pl, n, pp. auto.
  - left. destruct ST as [C|C1 C2 C3|l x f C1 C2 C3 C4 C5|l x f m C1 C2 C3 C4 C5 C6]; auto.
    cbn [t_rules with_rules] in I. apply in_map_iff in I as (y & <- & I). unfold moved in *. destruct (r_num y =? r_num x); [cbn in S1; congruence|exact I].
  - left. destruct ST as [|k' t' _ _ _ _ PT _ _]; [exact I|]. apply PT in I. apply I.
  - left. destruct ST as (_ & ->). exact I.
Qed.
Lemma step_others now o k t k' t' : tidy K cf k t -> stepped now o k t k' t' -> others_same cf t t'.
Proof.
  intros TD ST. destruct o as [d| | |c]; cbn [stepped] in ST.
  - destruct ST as [(_ & ->)|(dst & f & pl & n & xs & AR & G)]; [split; [reflexivity|tauto]|]. split; [exact (gr_off _ _ _ _ _ _ _ _ _ _ _ _ G)|].
    intros r (F1 & F2). split; intro I.
    + apply (Permutation_in _ (gr_perm _ _ _ _ _ _ _ _ _ _ _ _ G)) in I. apply in_app_iff in I as [I|I]; [exact I|].
      destruct (xs_in cf _ _ _ _ _ _ _ (gr_xs _ _ _ _ _ _ _ _ _ _ _ _ G) I) as (pp & A & B). destruct B as (_ & B & _). congruence.
    + apply (Permutation_in _ (Permutation_sym (gr_perm _ _ _ _ _ _ _ _ _ _ _ _ G))). apply in_app_iff. left. exact I.
  - destruct ST as [C|C1 C2 C3|l x f C1 C2 C3 C4 C5|l x f m C1 C2 C3 C4 C5 C6]; try (split; [reflexivity|tauto]).
    split; [reflexivity|]. intros r (F1 & F2). cbn [t_rules with_rules]. destruct (last_in _ _ _ _ C3) as (IX & SX). destruct (tidy_active _ _ _ _ TD x IX SX) as (RX & _). split; intro I.
    + apply in_map_iff in I as (y & <- & I). unfold moved in *. destruct (r_num y =? r_num x); [cbn in F2; congruence|exact I].
    + apply in_map_iff. exists r. split; [|exact I]. unfold moved. destruct (Z.eqb_spec (r_num r) (r_num x)) as [EQ|]; [|reflexivity]. exfalso.
      rewrite <- EQ in RX. destruct (tidy_else _ _ _ _ TD r I RX); auto.
  - destruct ST as [|k' t' (OF & _) _ _ _ PT _ _]; [split; [reflexivity|tauto]|]. split; [exact OF|]. intros r (F1 & F2). rewrite PT. tauto.
  - destruct ST as (_ & ->). split; [reflexivity|tauto].
Qed.

(** ** Histories *)
Lemma others_trans t1 t2 t3 : others_same cf t1 t2 -> others_same cf t2 t3 -> others_same cf t1 t3.
Proof. intros (A & B) (A' & B'). split; [congruence|]. intros r F. rewrite (B' r F). now apply B. Qed.
Lemma serve_pass h : forall now k t, tidy K cf k t -> 0 <= b_active k -> history cf now h -> fits_along K cf h (k, (t, [])) ->
  exists k' t', serve K cf h (k, (t, [])) = Ok (k', (t', [])) /\ tidy K cf k' t' /\ others_same cf t t' /\
    (forall r e, In r (t_rules t) -> r_set r = i_active cf -> ends_at K r e -> Forall (fun x => fst x < e) h -> In r (t_rules t')) /\
    (forall r, In r (t_rules t') -> r_set r = i_active cf -> In r (t_rules t) \/
       exists when d dst e pl n pp, In (when, Ask d) h /\ access_request cf d when dst e pl /\ In pp pl /\ grants cf d dst e n pp r).
Proof.
  induction h as [|(tm, o) h IH]; intros now k t TD P H F.
  - exists k, t. split; [reflexivity|]. split; [exact TD|]. split; [split; [reflexivity|tauto]|]. auto.
  - destruct H as (LE & PR & H). cbn [fits_along fst snd] in F. destruct F as (L & F).
    destruct (step_pass tm o k t TD P PR L) as (k1 & t1 & E & ST & TD1 & P1). rewrite E in F.
    destruct (IH tm k1 t1 TD1 P1 H F) as (k' & t' & E' & TD' & OS & KP & ON).
    exists k', t'. cbn [serve]. rewrite E. cbn [bind]. split; [exact E'|]. split; [exact TD'|]. split; [exact (others_trans _ _ _ (step_others _ _ _ _ _ _ TD ST) OS)|]. split.
    + intros r e I S1 EN FA. pose proof (Forall_inv FA) as LT. apply (KP r e); auto; [|exact (Forall_inv_tail FA)]. exact (step_keep tm o k t k1 t1 r e TD ST I S1 EN LT).
    + intros r I S1. destruct (ON r I S1) as [I1|(w & d & dst & e & pl & n & pp & A & B)].
      * destruct (step_only tm o k t k1 t1 r TD ST I1 S1) as [I0|(d & dst & e & pl & n & pp & -> & B)]; [left; exact I0|right].
        exists tm, d, dst, e, pl, n, pp. split; [left; reflexivity|exact B].
      * right. exists w, d, dst, e, pl, n, pp. split; [right; exact A|exact B].
Qed.

(** ** Counting *)
Lemma numbers_In t n : In n (active_numbers cf t) <-> exists r, In r (t_rules t) /\ r_set r = i_active cf /\ r_num r = n.
Proof.
  unfold active_numbers. rewrite nodup_In, in_map_iff. split.
  - intros (r & E & I). apply in_set_In in I as (I & S1). exists r. auto.
  - intros (r & I & S1 & E). exists r. split; [exact E|]. apply in_set_In. auto.
Qed.
Lemma numbers_incl t t' : (forall r, In r (t_rules t') -> r_set r = i_active cf -> In r (t_rules t)) -> (List.length (active_numbers cf t') <= List.length (active_numbers cf t))%nat.
Proof.
  intro H. apply NoDup_incl_length; [apply NoDup_nodup|]. intros n I. apply numbers_In in I as (r & I & S1 & E). apply numbers_In. exists r. auto.
Qed.
Lemma numbers_moved t x : In x (t_rules t) -> r_set x = i_active cf ->
  (S (List.length (active_numbers cf (with_rules t (map (moved (r_num x) (i_expire cf)) (t_rules t))))) <= List.length (active_numbers cf t))%nat.
Proof.
  intros I S1. pose proof (sets_differ cf CF) as SD. set (t' := with_rules t (map (moved (r_num x) (i_expire cf)) (t_rules t))).
  change (S (List.length (active_numbers cf t'))) with (List.length (r_num x :: active_numbers cf t')).
  assert (IN : forall r, In r (t_rules t') -> r_set r = i_active cf -> In r (t_rules t) /\ r_num r <> r_num x).
  { intros r J S2. apply in_map_iff in J as (y & <- & J). unfold moved in *. destruct (Z.eqb_spec (r_num y) (r_num x)); [cbn in S2; congruence|auto]. }
  apply NoDup_incl_length.
  - constructor; [|apply NoDup_nodup]. intro J. apply numbers_In in J as (r & J & S2 & E). destruct (IN r J S2). auto.
  - intros n [<-|J]; [apply numbers_In; exists x; auto|]. apply numbers_In in J as (r & J & S2 & E). apply numbers_In. exists r. destruct (IN r J S2). auto.
Qed.
Lemma sound_later now now' k t : now <= now' -> sound K cf now k t -> sound K cf now' k t.
Proof. intros L [A B C [D|D]]; constructor; auto. left. lia. Qed.
Lemma sound_pos now k t : sound K cf now k t -> 0 <= b_active k.
Proof. intros [_ B _ _]. lia. Qed.
Lemma step_sound now o k t k' t' : 0 <= now -> sound K cf now k t -> (forall d dst e pl, o = Ask d -> access_request cf d now dst e pl -> b_active k + zlen pl <= i_max cf) ->
  tidy K cf k' t' -> stepped now o k t k' t' -> sound K cf now k' t'.
Proof.
  intros N0 SO CN TD' ST. pose proof (sound_pos _ _ _ SO) as P. destruct SO as [TD CT MX NX]. pose proof CF as (_ & _ & _ & _ & _ & ST0 & M0 & SM).
  assert (NA : now_active cf k = b_active k) by (unfold now_active; destruct (Z.gtb_spec (b_active k) (i_max cf)); lia).
  destruct o as [d| | |c]; cbn [stepped] in ST.
  - destruct ST as [(-> & ->)|(dst & e & pl & n & xs & AR & G)]; [constructor; auto|].
    specialize (CN d dst e pl eq_refl AR). pose proof (gr_xs _ _ _ _ _ _ _ _ _ _ _ _ G) as XS. pose proof (gr_perm _ _ _ _ _ _ _ _ _ _ _ _ G) as PM.
    assert (NE : pl <> []) by (destruct AR as (_ & RQ & _); apply (entries_ok _ _ RQ)).
    assert (LP : 1 <= zlen pl) by (destruct pl; [easy|]; rewrite zlen_cons; pose proof (zlen_nonneg pl); lia).
    pose proof (gr_active _ _ _ _ _ _ _ _ _ _ _ _ G P ltac:(lia)) as BA.
    constructor; [exact TD'| |lia|].
    + enough (List.length (active_numbers cf t') <= S (List.length (active_numbers cf t)))%nat by lia.
      change (S (List.length (active_numbers cf t))) with (List.length (n :: active_numbers cf t)). apply NoDup_incl_length; [apply NoDup_nodup|].
      intros j J. apply numbers_In in J as (r & J & S1 & <-). apply (Permutation_in _ PM) in J. apply in_app_iff in J as [J|J].
      * right. apply numbers_In. exists r. auto.
      * left. destruct (xs_in cf _ _ _ _ _ _ _ XS J) as (pp & _ & (B & _)). congruence.
    + destruct (gr_next _ _ _ _ _ _ _ _ _ _ _ _ G) as [->| ->].
      * destruct NX as [NX|(r & I & S1 & EN)]; [left; exact NX|right]. exists r. split; [|auto]. apply (Permutation_in _ (Permutation_sym PM)). apply in_app_iff. left. exact I.
      * right. destruct pl as [|pp pl]; [easy|]. inversion XS as [|? x ? xs' G1 G2]; subst. exists x. split; [apply (Permutation_in _ (Permutation_sym PM)); apply in_app_iff; right; left; reflexivity|].
        split; [apply G1|]. eapply (grants_end K cf KO); [exact AR|left; reflexivity|exact G1].
  - destruct ST as [C|C1 C2 C3|l x f C1 C2 C3 C4 C5|l x f m C1 C2 C3 C4 C5 C6]; rewrite ?NA in *.
    + constructor; cbn [b_active b_next]; auto.
    + constructor; cbn [b_active b_next]; auto; [|lia]. unfold active_numbers. rewrite C3. cbn. lia.
    + constructor; cbn [b_active b_next]; auto.
    + destruct (last_in _ _ _ _ C3) as (IX & SX). pose proof (numbers_moved t x IX SX) as NM. constructor; cbn [b_active b_next]; auto; [lia|lia|].
      left. destruct (b_active k - 1 <? 1); lia.
  - destruct ST as [|k' t' PR ML BA BN PT _ _]; [constructor; auto|]. pose proof (sets_differ cf CF) as SD. constructor; [exact TD'| |lia|].
    + rewrite BA. enough (List.length (active_numbers cf t') <= List.length (active_numbers cf t))%nat by lia. apply numbers_incl. intros r I _. apply PT in I. apply I.
    + rewrite BN. destruct NX as [NX|(r & I & S1 & EN)]; [left; exact NX|right]. exists r. split; [|auto]. apply PT. split; [exact I|]. congruence.
  - destruct ST as (-> & ->). constructor; auto.
Qed.
Lemma last_time_le h : forall now, history cf now h -> now <= last_time now h.
Proof.
  induction h as [|(tm, o) h IH]; intros now H; [cbn; lia|]. destruct H as (LE & _ & H). specialize (IH tm H). unfold last_time in *. cbn [map fst last].
  destruct (map fst h) eqn:E; [exact LE|]. rewrite <- E in *.
  assert (Q : forall d1 d2, last (map fst h) d1 = last (map fst h) d2). { rewrite E. clear. intros d1 d2. revert z. induction l; intro z; cbn; [reflexivity|]. apply IHl. }
  rewrite (Q now tm). lia.
Qed.
Lemma last_time_cons tm o h now : last_time now ((tm, o) :: h) = last_time tm h.
Proof.
  unfold last_time. cbn [map fst last]. destruct (map fst h) eqn:E; [reflexivity|]. clear. revert z. induction l; intro z; cbn; [reflexivity|]. apply IHl.
Qed.
Lemma serve_sound h : forall now k t, 0 <= now -> sound K cf now k t -> history cf now h -> fits_along K cf h (k, (t, [])) -> counted_along K cf h (k, (t, [])) ->
  exists k' t', serve K cf h (k, (t, [])) = Ok (k', (t', [])) /\ sound K cf (last_time now h) k' t'.
Proof.
  induction h as [|(tm, o) h IH]; intros now k t N0 SO H F C.
  - exists k, t. split; [reflexivity|exact SO].
  - destruct H as (LE & PR & H). cbn [fits_along fst snd] in F. destruct F as (L & F). cbn [counted_along fst] in C. destruct C as (CN & C).
    destruct (step_pass tm o k t (sound_tidy _ _ _ _ _ SO) (sound_pos _ _ _ SO) PR L) as (k1 & t1 & E & ST & TD1 & P1). rewrite E in F, C.
    pose proof (step_sound tm o k t k1 t1 ltac:(lia) (sound_later _ _ _ _ LE SO) CN TD1 ST) as SO1.
    destruct (IH tm k1 t1 ltac:(lia) SO1 H F C) as (k' & t' & E' & SO'). exists k', t'. cbn [serve]. rewrite E. cbn [bind]. split; [exact E'|]. now rewrite last_time_cons.
Qed.

(** ** Closing *)
Lemma lines_filter (f : rule -> bool) l : zlen (lines (map (rule_line K) (filter f l))) <= zlen (lines (map (rule_line K) l)).
Proof.
  induction l as [|r l IH]; [cbn; lia|]. cbn [filter map]. rewrite lines_cons, zlen_app, zlen_cons. pose proof (zlen_nonneg (rule_line K r)).
  destruct (f r); cbn [map]; rewrite ?lines_cons, ?zlen_app, ?zlen_cons; lia.
Qed.
Lemma moved_set n l : in_set (i_active cf) (map (moved n (i_expire cf)) l) = filter (fun r => negb (r_num r =? n)) (in_set (i_active cf) l).
Proof.
  pose proof (sets_differ cf CF) as SD. induction l as [|r l IH]; [reflexivity|]. unfold in_set in *. cbn [map filter]. rewrite IH.
  assert (M : r_set (moved n (i_expire cf) r) = if r_num r =? n then i_expire cf else r_set r) by (unfold moved; destruct (r_num r =? n); reflexivity).
  rewrite M. destruct (r_num r =? n) eqn:B.
  - destruct (Z.eqb_spec (i_expire cf) (i_active cf)); [congruence|]. destruct (r_set r =? i_active cf); [|reflexivity]. cbn [filter]. now rewrite B.
  - assert (M2 : moved n (i_expire cf) r = r) by (unfold moved; now rewrite B). rewrite M2. destruct (r_set r =? i_active cf); [|reflexivity]. cbn [filter]. now rewrite B.
Qed.
Lemma checks_close now m : forall k t, 0 <= now -> sound K cf now k t -> zlen (lines (set_lines K (i_active cf) t)) <= 4095 ->
  (forall r e, In r (t_rules t) -> r_set r = i_active cf -> ends_at K r e -> e <= now) -> (List.length (active_numbers cf t) <= m)%nat ->
  exists k' t', serve K cf (repeat (now, Check) m) (k, (t, [])) = Ok (k', (t', [])) /\ in_set (i_active cf) (t_rules t') = [] /\ t_off t' = t_off t /\
    Permutation (map (fun r => (r_num r, r_body r)) (t_rules t')) (map (fun r => (r_num r, r_body r)) (t_rules t)).
Proof.
  induction m as [|m IH]; intros k t N0 SO L DUE LM.
  - exists k, t. split; [reflexivity|]. split; [|auto]. destruct (in_set (i_active cf) (t_rules t)) as [|r l] eqn:IS; [reflexivity|]. exfalso.
    assert (I : In (r_num r) (active_numbers cf t)). { apply numbers_In. assert (J : In r (in_set (i_active cf) (t_rules t))) by (rewrite IS; left; reflexivity). apply in_set_In in J as (J1 & J2). exists r. auto. }
    destruct (active_numbers cf t); [easy|cbn in LM; lia].
  - cbn [repeat serve serve_one fst snd]. pose proof (sound_tidy _ _ _ _ _ SO) as TD. pose proof (sound_pos _ _ _ SO) as P.
    destruct (check_pass K cf CF KO now k t [] TD L) as (k1 & t1 & fs' & E & _ & Q). destruct (Q eq_refl P) as (-> & C). rewrite E. cbn [bind].
    pose proof (checked_tidy K cf CF _ _ _ _ _ TD C) as TD1.
    assert (SO1 : sound K cf now k1 t1) by (apply (step_sound now Check k t k1 t1 N0 SO); [discriminate|exact TD1|exact C]).
    assert (NXT : b_next k <= now). { destruct (sound_next _ _ _ _ _ SO) as [X|(r & I & S1 & EN)]; [exact X|exact (DUE _ _ I S1 EN)]. }
    assert (NA : now_active cf k = b_active k) by (unfold now_active; pose proof (sound_max _ _ _ _ _ SO); destruct (Z.gtb_spec (b_active k) (i_max cf)); lia).
    (* the rest, once there is nothing to close *)
    assert (EMPTY : in_set (i_active cf) (t_rules t) = [] -> (List.length (active_numbers cf t) <= m)%nat) by (intro X; unfold active_numbers; rewrite X; cbn; lia).
    destruct C as [C|C1 C2 C3|l x f C1 C2 C3 C4 C5|l x f mm C1 C2 C3 C4 C5 C6].
    + apply IH; auto. apply EMPTY. destruct C as [C|C]; [|lia]. rewrite NA in C. pose proof (sound_count _ _ _ _ _ SO) as CT. rewrite C in CT.
      destruct (in_set (i_active cf) (t_rules t)) as [|r l] eqn:IS; [reflexivity|]. exfalso.
      assert (I : In (r_num r) (active_numbers cf t)). { apply numbers_In. assert (J : In r (in_set (i_active cf) (t_rules t))) by (rewrite IS; left; reflexivity). apply in_set_In in J as (J1 & J2). exists r. auto. }
      destruct (active_numbers cf t); [easy|cbn in CT; lia].
    + apply IH; auto.
    + exfalso. destruct (last_in _ _ _ _ C3) as (IX & SX). pose proof (DUE x f IX SX C4). lia.
    + destruct (last_in _ _ _ _ C3) as (IX & SX). pose proof (numbers_moved t x IX SX) as NM.
      match type of SO1 with sound _ _ _ ?k1 ?t1 => destruct (IH k1 t1 N0 SO1) as (k' & t' & E' & IS & OF & PM) end.
      * unfold set_lines in *. cbn [t_off with_rules t_rules]. destruct (memz (i_active cf) (t_off t)); [exact L|]. rewrite moved_set. pose proof (lines_filter (fun r => negb (r_num r =? r_num x)) (in_set (i_active cf) (t_rules t))). lia.
      * intros r e I S1 EN. cbn [with_rules t_rules] in I. apply in_map_iff in I as (y & <- & I). unfold moved in *. destruct (r_num y =? r_num x); [cbn in S1; pose proof (sets_differ cf CF); congruence|]. exact (DUE y e I S1 EN).
      * lia.
      * exists k', t'. split; [exact E'|]. split; [exact IS|]. split; [exact OF|]. etransitivity; [exact PM|]. cbn [with_rules t_rules]. rewrite map_map.
        erewrite map_ext; [reflexivity|]. intro r. unfold moved. destruct (r_num r =? r_num x); reflexivity.
Qed.
End Ipfw.
