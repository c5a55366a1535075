(** Property theorems: the back end for the firewall ipfw. *)
From Verif Require Import Bytes M_util M_message M_codec M_access M_cycle M_incoming M_packet M_fw M_extcmd
  S_text S_access S_incoming S_fw S_extcmd P_bytes P_util P_util2 P_access P_fw P_fw2 P_fw3 P_fw5 P_fw6 P_fw7 P_fw8 P_fw9 P_fwinit
  P_incoming3 P_incoming5 P_extcmd T_fw M_pf S_pf P_pf P_pf2 P_pf3 T_pf M_ipfw S_ipfw P_ipfw P_ipfw2 P_ipfw3 P_ipfw4 P_ipfw5 P_ipfw6 P_ipfw7.
From Coq Require Import Init.Byte List ZArith Bool Lia Permutation.
Import ListNotations.
Open Scope Z_scope.

(** ** C90 The firewall ipfw *)
(** *** Requests *)
(** A request for access adds its rules, one for each protocol and port, all with the lowest
    number that is free, and changes nothing else; they are open and end when they should.  If no
    number is free it is refused and changes nothing.  Partial: ipfw is assumed to work and the
    books to agree with the table (see [C90_start_partial]). *)
Theorem C90_open_partial : forall K cf d now dst e pl k t, conf_fits cf -> ipfw_ok K -> tidy K cf k t -> access_request cf d now dst e pl ->
  (process_spa_request machine (exec_ipfw K) cf d now k (t, []) = Ok (None, k, (t, [])) /\ (forall n, in_range cf n -> status cf k n <> Some 0)) \/
  exists n xs k' t', process_spa_request machine (exec_ipfw K) cf d now k (t, []) = Ok (Some true, k', (t', [])) /\
    in_range cf n /\ status cf k n = Some 0 /\ (forall j, in_range cf j -> j < n -> status cf k j <> Some 0) /\
    Forall2 (grants cf d dst e n) pl xs /\ Permutation (t_rules t') (t_rules t ++ xs) /\ t_off t' = t_off t /\ t_dyn t' = t_dyn t /\
    Forall (fun r => open t' r /\ ends_at K r e) xs /\ tidy K cf k' t'.
Proof.
  intros K cf d now dst e pl k t CF KO TD AR. destruct (ask_pass K cf CF KO now k t d dst e pl (tidy_map _ _ _ _ TD) AR) as [E|(n & xs & k' & t' & E & G)]; [left; exact E|right].
  exists n, xs, k', t'. split; [exact E|]. pose proof (granted_tidy K cf CF KO _ _ _ _ _ _ _ _ _ _ _ TD AR G) as TD'. pose proof G as [A B C D F OF DY _ _ _ _ _ _].
  split; [exact A|]. split; [exact B|]. split; [exact C|]. split; [exact D|]. split; [exact F|]. split; [exact OF|]. split; [exact DY|]. split; [|exact TD'].
  apply Forall_forall. intros r I. destruct (xs_in cf _ _ _ _ _ _ _ D I) as (pp & P & GR). split; [|exact (grants_end K cf KO now d dst e pl n pp r AR P GR)].
  split; [apply (Permutation_in _ (Permutation_sym F)); apply in_app_iff; right; exact I|]. destruct GR as (_ & -> & _). exact (tidy_on _ _ _ _ TD').
Qed.
Print Assumptions C90_open_partial.

(** Other messages (commands, NAT) run no program and are refused, on any machine *)
Theorem C90_other : forall W exec cf d now k (w : W), d_type d <> 1 -> d_type d <> 3 -> process_spa_request W exec cf d now k w = Ok (None, k, w).
Proof.
  intros W exec cf d now k w N1 N3. unfold process_spa_request.
  assert (B : (d_type d =? FKO_ACCESS_MSG) || (d_type d =? FKO_CLIENT_TIMEOUT_ACCESS_MSG) = false) by (apply orb_false_iff; split; apply Z.eqb_neq; assumption).
  now rewrite B.
Qed.
Print Assumptions C90_other.

(** Whatever fails, a request opens nothing that is not asked for, and closes nothing *)
Theorem C90_no_more_partial : forall K cf d now dst e pl k t fs, conf_fits cf -> ipfw_ok K -> zlen (b_map k) = i_max cf -> access_request cf d now dst e pl ->
  exists n xs ys res k' t' fs', process_spa_request machine (exec_ipfw K) cf d now k (t, fs) = Ok (res, k', (t', fs')) /\
    Forall2 (grants cf d dst e n) pl xs /\ only_drops (fun _ => True) xs ys /\ (ys <> [] -> in_range cf n /\ status cf k n = Some 0) /\
    Permutation (t_rules t') (t_rules t ++ ys) /\ t_off t' = t_off t /\ t_dyn t' = t_dyn t.
Proof. intros K cf d now dst e pl k t fs CF KO ML AR. exact (ask_safe K cf CF KO now k t d dst e pl fs ML AR). Qed.
Print Assumptions C90_no_more_partial.

(** *** Checks *)
(** Whatever fails, a check closes no rule before its time, opens nothing, and leaves the rules
    of others alone *)
Theorem C90_early_partial : forall K cf now k t fs, conf_fits cf -> ipfw_ok K -> tidy K cf k t -> listings_fit K cf t ->
  exists k' t' fs', check_firewall_rules machine (exec_ipfw K) cf now k (t, fs) = Ok (k', (t', fs')) /\ others_same cf t t' /\ t_dyn t' = t_dyn t /\
    (forall r e, In r (t_rules t) -> r_set r = i_active cf -> ends_at K r e -> now < e -> In r (t_rules t')) /\
    (forall r, In r (t_rules t') -> In r (t_rules t) \/ r_set r = i_expire cf).
Proof.
  intros K cf now k t fs CF KO TD (L & _). destruct (check_pass K cf CF KO now k t fs TD L) as (k' & t' & fs' & E & C & _). exists k', t', fs'. split; [exact E|].
  destruct C as [->|(x & f & IX & SX & EX & LE & ->)].
  { split; [split; [reflexivity|tauto]|]. split; [reflexivity|]. split; auto. }
  destruct (tidy_active _ _ _ _ TD x IX SX) as (RX & _). cbn [with_rules t_off t_rules t_dyn]. split; [|split; [reflexivity|split]].
  - split; [reflexivity|]. intros r (F1 & F2). cbn [with_rules t_rules]. split; intro I.
    + apply in_map_iff in I as (y & <- & I). unfold moved in *. destruct (r_num y =? r_num x); [cbn in F2; congruence|exact I].
    + apply in_map_iff. exists r. split; [|exact I]. unfold moved. destruct (Z.eqb_spec (r_num r) (r_num x)) as [EQ|]; [|reflexivity]. exfalso.
      rewrite <- EQ in RX. destruct (tidy_else _ _ _ _ TD r I RX); auto.
  - intros r e I S1 EN LT. apply in_map_iff. exists r. split; [|exact I]. unfold moved. destruct (Z.eqb_spec (r_num r) (r_num x)) as [EQ|]; [|reflexivity]. exfalso.
    pose proof (tidy_same _ _ _ _ TD r x e f I IX S1 SX EQ EN EX). lia.
  - intros r I. apply in_map_iff in I as (y & <- & I). unfold moved. destruct (r_num y =? r_num x); [right; reflexivity|left; exact I].
Qed.
Print Assumptions C90_early_partial.

(** If nothing fails, a check does something if rules are counted and the time of the next end
    has come: if the last rule listed has ended, the rules with its number go to the expire set,
    which is disabled, and the others stay as they are; otherwise the table stays as it is.
    Partial: see [C90_all_refuted] and [C90_order_refuted]. *)
Theorem C90_check_partial : forall K cf now k t l r e, conf_fits cf -> ipfw_ok K -> tidy K cf k t -> listings_fit K cf t ->
  0 < b_active k <= i_max cf -> in_set (i_active cf) (t_rules t) = l ++ [r] -> ends_at K r e ->
  exists k' t', check_firewall_rules machine (exec_ipfw K) cf now k (t, []) = Ok (k', (t', [])) /\ tidy K cf k' t' /\
    (b_next k <= now -> e <= now -> t_rules t' = map (fun x => if r_num x =? r_num r then mkRule (r_num x) (i_expire cf) (r_body x) else x) (t_rules t) /\
       t_off t' = t_off t /\ t_dyn t' = t_dyn t /\ status cf k' (r_num r) = Some 2 /\ forall x, open t' x -> r_num x <> r_num r) /\
    (now < b_next k \/ now < e -> t' = t /\ k' = k).
Proof.
  intros K cf now k t l r e CF KO TD (L & _) BA IS EN. destruct (check_pass K cf CF KO now k t [] TD L) as (k' & t' & fs' & E & _ & Q). destruct (Q eq_refl ltac:(lia)) as (-> & C).
  pose proof (checked_tidy K cf CF _ _ _ _ _ TD C) as TD'.
  assert (NA : now_active cf k = b_active k) by (unfold now_active; destruct (Z.gtb_spec (b_active k) (i_max cf)); lia).
  assert (KE : forall a, a = b_active k -> mkBooks a (b_total k) (b_next k) (b_purged k) (b_map k) = k) by (intros a ->; destruct k; reflexivity).
  exists k', t'. split; [exact E|]. split; [exact TD'|].
  assert (LAST : forall l' x f, in_set (i_active cf) (t_rules t) = l' ++ [x] -> ends_at K x f -> x = r /\ f = e).
  { intros l' x f IS' EX. rewrite IS in IS'. apply app_inj_tail in IS' as (_ & <-). split; [reflexivity|exact (ends_fun _ _ _ _ EX EN)]. }
  destruct C as [C|C1 C2 C3|l' x f C1 C2 C3 C4 C5|l' x f m C1 C2 C3 C4 C5 C6].
  - split; [intros A B; lia|]. intros _. split; [reflexivity|]. exact (KE _ NA).
  - exfalso. rewrite IS in C3. destruct l; discriminate C3.
  - destruct (LAST _ _ _ C3 C4) as (-> & ->). split; [intros; lia|]. intros _. split; [reflexivity|]. exact (KE _ NA).
  - destruct (LAST _ _ _ C3 C4) as (-> & ->). split; [|intros [A|A]; lia]. intros _ _. split; [reflexivity|]. split; [reflexivity|]. split; [reflexivity|].
    destruct (last_in _ _ _ _ C3) as (IX & SX). destruct (tidy_active _ _ _ _ TD r IX SX) as (RX & _). split.
    + destruct (put_look cf (r_num r) 2 (b_map k) RX (tidy_map _ _ _ _ TD)) as (m' & EM & _ & SM & _). rewrite C6 in EM. injection EM as <-. exact SM.
    + intros x (I & NO) EQ. cbn [with_rules t_rules t_off] in *. apply in_map_iff in I as (y & <- & I). unfold moved in *. destruct (Z.eqb_spec (r_num y) (r_num r)) as [|N]; [|auto].
      cbn [r_set] in NO. apply NO. exact (tidy_off _ _ _ _ TD).
Qed.
Print Assumptions C90_check_partial.

(** *** Purges *)
(** Whatever fails, a purge deletes only rules that have expired.  If nothing fails, and it is
    time for a purge, it deletes those without connections and frees their numbers; the others
    stay. *)
Theorem C90_purge_partial : forall K cf now k t fs, conf_fits cf -> ipfw_ok K -> tidy K cf k t -> listings_fit K cf t ->
  exists k' t' fs', purge_round machine (exec_ipfw K) cf now k (t, fs) = Ok (k', (t', fs')) /\ t_off t' = t_off t /\ t_dyn t' = t_dyn t /\
    (forall r, In r (t_rules t') -> In r (t_rules t)) /\ (forall r, In r (t_rules t) -> r_set r <> i_expire cf -> In r (t_rules t')) /\
    (fs = [] -> 0 < b_total k -> b_purged k < now - i_interval cf ->
       tidy K cf k' t' /\
       forall r, In r (t_rules t) -> r_set r = i_expire cf ->
         (if existsb (fun c => fst c =? r_num r) (t_dyn t) then In r (t_rules t') /\ status cf k' (r_num r) = Some 2
          else ~ In r (t_rules t') /\ status cf k' (r_num r) = Some 0)).
Proof.
  intros K cf now k t fs CF KO TD (_ & L). destruct (purge_pass K cf CF KO now k t fs TD L) as (k' & t' & fs' & E & (OF & DY & f & FE & FF) & _ & _ & _ & Q). exists k', t', fs'.
  split; [exact E|]. split; [exact OF|]. split; [exact DY|]. split; [intros r I; rewrite FE in I; apply filter_In in I; apply I|].
  split. { intros r I N. rewrite FE. apply filter_In. split; [exact I|]. destruct (f r) eqn:X; [reflexivity|]. now apply FF in X. }
  intros F T0 T1. destruct (Q F) as (_ & P). split; [exact (purged_tidy K cf CF _ _ _ _ _ TD P)|]. destruct P as [[X|X]|k' t' _ _ _ _ PT PE _]; [lia|lia|].
  intros r I S1. rewrite (PE r I S1). destruct (existsb (fun c => fst c =? r_num r) (t_dyn t)) eqn:X; (split; [|reflexivity]).
  - apply PT. split; [exact I|]. intros _. apply existsb_exists in X as (c & IC & X). apply Z.eqb_eq in X. exists c. auto.
  - intro J. apply PT in J as (_ & H). destruct (H S1) as (c & IC & Y). enough (Z : existsb (fun c => fst c =? r_num r) (t_dyn t) = true) by congruence.
    apply existsb_exists. exists c. split; [exact IC|now apply Z.eqb_eq].
Qed.
Print Assumptions C90_purge_partial.

(** *** Histories *)
(** From a state in which the books agree with the table, through any history in which nothing
    fails: the daemon never leaves its memory, and the books agree again; each rule that is open
    stays open until its time has come; each rule in the active set was there before or is asked
    for by a request; and the rules of others stay as they are. *)
Theorem C90_history_partial : forall K cf now h k t, conf_fits cf -> ipfw_ok K -> tidy K cf k t -> 0 <= b_active k -> history cf now h -> fits_along K cf h (k, (t, [])) ->
  exists k' t', serve K cf h (k, (t, [])) = Ok (k', (t', [])) /\ tidy K cf k' t' /\ others_same cf t t' /\
    (forall r e, In r (t_rules t) -> r_set r = i_active cf -> ends_at K r e -> (forall x, In x h -> fst x < e) -> open t' r) /\
    (forall r, In r (t_rules t') -> r_set r = i_active cf -> In r (t_rules t) \/
       exists when d dst e pl n pp, In (when, Ask d) h /\ access_request cf d when dst e pl /\ In pp pl /\ grants cf d dst e n pp r /\ ends_at K r e).
Proof.
  intros K cf now h k t CF KO TD P H F. destruct (serve_pass K cf CF KO h now k t TD P H F) as (k' & t' & E & TD' & OS & KP & ON). exists k', t'. split; [exact E|]. split; [exact TD'|]. split; [exact OS|]. split.
  - intros r e I S1 EN B. split; [apply (KP r e); auto; now apply Forall_forall|]. rewrite S1. exact (tidy_on _ _ _ _ TD').
  - intros r I S1. destruct (ON r I S1) as [A|(w & d & dst & e & pl & n & pp & A & B & C & D)]; [left; exact A|right]. exists w, d, dst, e, pl, n, pp.
    split; [exact A|]. split; [exact B|]. split; [exact C|]. split; [exact D|]. exact (grants_end K cf KO w d dst e pl n pp r B C D).
Qed.
Print Assumptions C90_history_partial.

(** Every rule is closed in the end: after any history from a sound state, in which the rules
    counted as active never number more than IPFW_MAX_RULES, when the time of each rule has come
    there will be no open rule of the daemon after as many checks as there are numbers in use *)
Theorem C90_closed_partial : forall K cf now h k t, conf_fits cf -> ipfw_ok K -> 0 <= now -> sound K cf now k t -> history cf now h ->
  fits_along K cf h (k, (t, [])) -> counted_along K cf h (k, (t, [])) ->
  exists k' t', serve K cf h (k, (t, [])) = Ok (k', (t', [])) /\ sound K cf (last_time now h) k' t' /\
    forall late m, last_time now h <= late -> (forall r e, In r (t_rules t') -> r_set r = i_active cf -> ends_at K r e -> e <= late) ->
      (List.length (active_numbers cf t') <= m)%nat -> zlen (lines (set_lines K (i_active cf) t')) <= 4095 ->
      exists k2 t2, serve K cf (repeat (late, Check) m) (k', (t', [])) = Ok (k2, (t2, [])) /\
        (forall r, open t2 r -> foreign cf r) /\
        Permutation (map (fun r => (r_num r, r_body r)) (t_rules t2)) (map (fun r => (r_num r, r_body r)) (t_rules t')).
Proof.
  intros K cf now h k t CF KO N0 SO H F C. destruct (serve_sound K cf CF KO h now k t N0 SO H F C) as (k' & t' & E & SO'). exists k', t'. split; [exact E|]. split; [exact SO'|].
  intros late m LE DUE LM L. pose proof (last_time_le cf h now H) as LT. assert (SL : sound K cf late k' t') by (apply (sound_later K cf (last_time now h)); assumption).
  destruct (checks_close K cf CF KO late m k' t' ltac:(lia) SL L DUE LM) as (k2 & t2 & E2 & IS & OF & PM). exists k2, t2. split; [exact E2|]. split; [|exact PM].
  intros r (I & NO). split; intro S1.
  - assert (J : In r (in_set (i_active cf) (t_rules t2))) by (apply in_set_In; auto). rewrite IS in J. exact J.
  - apply NO. rewrite S1, OF. exact (tidy_off _ _ _ _ (sound_tidy _ _ _ _ _ SO')).
Qed.
Print Assumptions C90_closed_partial.

(** *** Start and end *)
(** With FLUSH_IPFW_AT_INIT Y, and FLUSH_IPFW_AT_EXIT not N, the daemon empties its active set,
    disables its expire set, changes nothing else, and begins in a sound state in which each
    number is free that has no expired rule *)
Theorem C90_start_partial : forall K cf t, conf_fits cf -> ipfw_ok K -> startable K cf t -> says "y"%byte (i_flush_init cf) = true -> says "n"%byte (i_flush_exit cf) = false ->
  says "y"%byte (i_check_state cf) = false ->
  exists k t', fw_initialize machine (exec_ipfw K) cf (t, []) = Ok (Some k, (t', [])) /\
    t_rules t' = filter (fun r => negb (r_set r =? i_active cf)) (t_rules t) /\ t_off t' = i_expire cf :: t_off t /\ t_dyn t' = t_dyn t /\
    (forall now, 0 <= now -> sound K cf now k t') /\
    (forall n, in_range cf n -> (forall r, In r (t_rules t) -> r_set r = i_expire cf -> r_num r <> n) -> status cf k n = Some 0).
Proof. intros K cf t CF KO ST FI FE CS. exact (start_pass K cf CF KO t ST FI FE CS). Qed.
Print Assumptions C90_start_partial.

(** At its end, unless FLUSH_IPFW_AT_EXIT is N, the daemon empties its active set and changes
    nothing else *)
Theorem C90_end_partial : forall K cf t, conf_fits cf -> ipfw_ok K -> startable K cf t ->
  exists t', fw_cleanup machine (exec_ipfw K) cf (t, []) = Ok (true, (t', [])) /\
    t' = (if says "n"%byte (i_flush_exit cf) then t else mkTable (filter (fun r => negb (r_set r =? i_active cf)) (t_rules t)) (t_off t) (t_dyn t)).
Proof.
  intros K cf t CF KO ST. destruct (cleanup_pass K cf CF t [] (start_on _ _ _ ST) (start_active _ _ _ ST) (start_fit _ _ _ ST)) as (ok & t' & fs' & E & _ & Q1 & Q2). exists t'.
  destruct (says "n"%byte (i_flush_exit cf)).
  - destruct (Q1 eq_refl) as (-> & -> & ->). auto.
  - destruct (Q2 eq_refl eq_refl) as (-> & -> & ->). auto.
Qed.
Print Assumptions C90_end_partial.

(** *** An ipfw for examples *)
Definition ipfw0 : ipfw := mkIpfw dec (join [" "%byte]) (fun _ => true) ($ "## Dynamic rules (2):").
Definition cf1 : ipfwconf := mkIf ($ "/sbin/ipfw") 10000 100 1 2 600 false ($ "Y") ($ "Y") ($ "N").
Lemma ends_ten e n : ten_digits e -> numeral e n -> zlen n = 10.
Proof.
  intros TEN NN. assert (n = dec e) as -> by (eapply writes_unique; [exact NN|apply dec_num; destruct TEN; lia]). pose proof (dec_len10 e ltac:(destruct TEN; lia)).
  pose proof (dec_num e ltac:(destruct TEN; lia)) as (_ & AD & DE & _). pose proof (decimal_bound _ AD) as B. destruct TEN as [T1 _]. rewrite DE in B.
  destruct (Z.leb_spec (zlen (dec e)) 9) as [S9|S9]; [|lia]. exfalso. assert (10 ^ zlen (dec e) <= 10 ^ 9) by (apply Z.pow_le_mono_r; lia). lia.
Qed.
Lemma mark_alone pre n a b : plain pre -> plain n -> pre ++ mark ++ n = a ++ mark ++ b -> a = pre.
Proof.
  intros P Q E. assert (C : count_occ byte_eq_dec (pre ++ mark ++ n) "_"%byte = count_occ byte_eq_dec (a ++ mark ++ b) "_"%byte) by now rewrite E.
  rewrite !count_occ_app, (count_none _ P), (count_none _ Q) in C. change (count_occ byte_eq_dec mark "_"%byte) with 2%nat in C.
  assert (A : count_occ byte_eq_dec a "_"%byte = 0%nat) by lia. apply count_occ_not_In in A.
  change mark with ("_"%byte :: skipn 1 mark) in E. cbn [app] in E. symmetry. refine (first_same _ _ _ _ _ _ A E). exact (plain_not "_"%byte _ P eq_refl).
Qed.
Lemma ipfw0_ok : ipfw_ok ipfw0.
Proof.
  split; [|split].
  - intros n R. destruct (num_small n R) as (_ & L & D). destruct (dec_num n ltac:(lia)) as (N0 & AD & _). cbn [number ipfw0]. split; [exact N0|]. auto.
  - intros src dst e pp body SRC DST P Q TEN (p & q & n & NP & NQ & NN & ->). split; [reflexivity|]. cbn [show ipfw0].
    set (pre := $ "pass " ++ p ++ $ " from " ++ src ++ $ " to " ++ dst ++ $ " dst-port " ++ q ++ $ " setup keep-state // ").
    assert (Y : join [" "%byte] [$ "pass"; p; $ "from"; src; $ "to"; dst; $ "dst-port"; q; $ "setup"; $ "keep-state"; $ "//"; mark ++ n] = pre ++ mark ++ n).
    { unfold pre. cbn [join]. rewrite <- !app_assoc. reflexivity. }
    assert (PD : plain dst) by (destruct DST as [->|D]; [now apply plain_lit|now apply plain_addr]).
    assert (PP : plain pre).
    { unfold pre. repeat apply plain_app; try (apply plain_lit; reflexivity); [apply plain_digits, NP|now apply plain_addr|exact PD|apply plain_digits, NQ]. }
    assert (PN : plain n) by apply plain_digits, NN. rewrite Y. split.
    + exists pre, n. split; [reflexivity|]. split; [|split; [exact NN|exact (ends_ten e n TEN NN)]]. intros a b E. exact (mark_alone _ _ _ _ PP PN E).
    + assert (NI : forall c, plain_char c = false -> ~ In c mark -> ~ In c (pre ++ mark ++ n)).
      { intros c F NC J. apply in_app_or in J. destruct J as [J|J]; [exact (plain_not _ _ PP F J)|]. apply in_app_or in J. destruct J as [J|J]; [exact (NC J)|exact (plain_not _ _ PN F J)]. }
      split; apply NI; try reflexivity; intro J; vm_compute in J; intuition discriminate.
  - split; [split; intro J; vm_compute in J; intuition discriminate|]. exists [], ($ " (2):"). reflexivity.
Qed.
Lemma cf1_fits c : i_cmd c = $ "/sbin/ipfw" -> i_start c = 10000 -> 0 <= i_max c <= 100 -> i_active c = 1 -> i_expire c = 2 -> conf_fits c.
Proof.
  intros EC ES M EA EX. unfold conf_fits. rewrite EC, ES, EA, EX. split; [lit|]. split; [vm_compute; discriminate|]. lia.
Qed.
(** The rule for [src] to TCP port 22 until [e] *)
Definition rule1 (n : Z) (src : bytes) (e : Z) : rule :=
  mkRule n 1 [$ "pass"; $ "6"; $ "from"; src; $ "to"; $ "me"; $ "dst-port"; $ "22"; $ "setup"; $ "keep-state"; $ "//"; $ "_exp_" ++ dec e].
Definition past (r : rule) : rule := mkRule (r_num r) 2 (r_body r).
(** A rule of somebody else's *)
Definition other1 : rule := mkRule 65000 0 [$ "deny"; $ "ip"; $ "from"; $ "any"; $ "to"; $ "any"].
Lemma ten0 n : 0 <= n <= 100000 -> ten_digits (T0 + n).
Proof. unfold ten_digits, T0. lia. Qed.
Lemma rule1_asks n src e : ten_digits e -> asks src ($ "me") e (6, 22) (r_body (rule1 n src e)).
Proof.
  intro TEN. exists ($ "6"), ($ "22"), (dec e). split; [repeat split; try discriminate; repeat constructor; vm_compute; discriminate|].
  split; [repeat split; try discriminate; repeat constructor; vm_compute; discriminate|]. split; [apply dec_num; destruct TEN; lia|reflexivity].
Qed.
Lemma rule1_ends n src e : src = A1 \/ src = A2 -> ten_digits e -> ends_at ipfw0 (rule1 n src e) e.
Proof.
  intros AA TEN. assert (AT : address_text src) by (destruct AA as [->| ->]; [exact addr1|exact addr2]). destruct ipfw0_ok as (_ & AC & _).
  refine (proj2 (AC src ($ "me") e (6, 22) (r_body (rule1 n src e)) AT (or_introl eq_refl) _ _ TEN (rule1_asks n src e TEN))); cbn [fst snd]; lia.
Qed.
Lemma ssh_asks c a t timeout : i_use_dst c = false -> a = A1 \/ a = A2 -> 0 <= timeout -> ten_digits (t + timeout) -> access_request c (ssh a timeout) t ($ "me") (t + timeout) [(6, 22)].
Proof.
  intros UD AA P TEN. destruct (ssh_request a t timeout AA P TEN) as (A & B & C & _). split; [exact A|]. split; [exact B|]. split; [exact C|]. rewrite UD. auto.
Qed.

(** The start on a machine with a rule left in the active set, an expired one, and another *)
Definition left1 : table := mkTable [rule1 10003 A1 (T0 - 5); past (rule1 10007 A2 (T0 - 100)); other1] [] [(10007, $ " 3 300s tcp"); (65000, $ " 1 20s tcp")].
Definition books_of (r : outcome (option books * machine)) : option (list rule * list Z * list (Z * Z)) :=
  match r with
  | Ok (Some k, (t, [])) => Some (t_rules t, t_off t, filter (fun x => negb (snd x =? 0)) (combine (map Z.of_nat (seq 0 100)) (b_map k)))
  | _ => None
  end.
Lemma past_line n a e : a = A1 \/ a = A2 -> ten_digits e -> one_line (show ipfw0 (r_body (rule1 n a e))) /\ one_line (rule_line ipfw0 (rule1 10003 a e)) /\ ~ In "#"%byte (show ipfw0 (r_body (rule1 n a e))).
Proof.
  intros AA TEN. destruct (rule1_ends n a e AA TEN) as (_ & OL). split; [exact OL|]. split.
  - apply (line_of ipfw0 (proj1 ipfw0_ok) (rule1 10003 a e) e); [cbn; lia|now apply rule1_ends].
  - cbn [show ipfw0 rule1 r_body join]. intro I.
    assert (NA : ~ In "#"%byte a) by (destruct AA as [->| ->]; vm_compute; intuition discriminate).
    assert (ND : ~ In "#"%byte (dec e)) by (apply digits_no_star; [apply dec_num; destruct TEN; lia|unfold digit; vm_compute; intuition]).
    repeat (apply in_app_or in I; destruct I as [I|I]; [try (vm_compute in I; intuition discriminate); try (exact (NA I))|]). exact (ND I).
Qed.
Lemma left1_ok : startable ipfw0 cf1 left1.
Proof.
  assert (T1 : ten_digits (T0 - 5)) by (vm_compute; split; [discriminate|reflexivity]). assert (T2 : ten_digits (T0 - 100)) by (vm_compute; split; [discriminate|reflexivity]).
  constructor.
  - intros [].
  - intros r [<-|[<-|[<-|[]]]] S1; try (vm_compute in S1; discriminate S1). split; [split; vm_compute; congruence|].
    destruct (past_line 10007 A2 (T0 - 100) (or_intror eq_refl) T2) as (A & _ & B). split; [exact A|exact B].
  - intros r [<-|[<-|[<-|[]]]] S1; try (vm_compute in S1; discriminate S1). apply (past_line 10003 A1 (T0 - 5) (or_introl eq_refl) T1).
  - intros r [<-|[<-|[<-|[]]]] (R1 & R2); [left; reflexivity|right; reflexivity|]. vm_compute in R2. discriminate R2.
  - repeat (apply Forall_cons; [split; [split; intro J; vm_compute in J; intuition discriminate|unfold digit; vm_compute; intuition]|]). apply Forall_nil.
  - vm_compute. discriminate.
  - vm_compute. discriminate.
Qed.
Example C90_start_ex : conf_fits cf1 /\ ipfw_ok ipfw0 /\ startable ipfw0 cf1 left1 /\
  books_of (fw_initialize machine (exec_ipfw ipfw0) cf1 (left1, [])) = Some ([past (rule1 10007 A2 (T0 - 100)); other1], [2], [(7, 2)]).
Proof. split; [apply cf1_fits; try reflexivity; cbn; lia|]. split; [exact ipfw0_ok|]. split; [exact left1_ok|]. vm_compute. reflexivity. Qed.

(** The state after such a start *)
Definition map0 : list Z := repeat 0 7 ++ [2] ++ repeat 0 92.
Definition begin1 : state := (mkBooks 0 1 0 0 map0, (mkTable [past (rule1 10007 A2 (T0 - 100)); other1] [2] [(10007, $ " 3 300s tcp"); (65000, $ " 1 20s tcp")], [])).
Lemma begin1_sound : forall now, 0 <= now -> sound ipfw0 cf1 now (fst begin1) (fst (snd begin1)).
Proof.
  assert (CF : conf_fits cf1) by (apply cf1_fits; try reflexivity; cbn; lia).
  destruct (C90_start_partial ipfw0 cf1 left1 CF ipfw0_ok left1_ok eq_refl eq_refl eq_refl) as (k & t' & E & _ & _ & _ & SO & _).
  assert (E' : fw_initialize machine (exec_ipfw ipfw0) cf1 (left1, []) = Ok (Some (fst begin1), (fst (snd begin1), []))) by (vm_compute; reflexivity).
  rewrite E in E'. injection E' as -> ->. exact SO.
Qed.
Definition seen1 (r : outcome state) : option (Z * Z * list rule * list (Z * Z)) :=
  match r with
  | Ok (k, (t, [])) => Some (b_active k, b_next k, t_rules t, filter (fun x => negb (snd x =? 0)) (combine (map Z.of_nat (seq 0 100)) (b_map k)))
  | _ => None
  end.
(** A request, another, checks that close the second and then the first, a purge that deletes
    what has no connections *)
Definition story1 : list (Z * op) := [(T0, Ask (ssh A1 60)); (T0 + 10, Ask (ssh A2 30)); (T0 + 20, Check); (T0 + 40, Check)].
Definition story2 : list (Z * op) := story1 ++ [(T0 + 50, Traffic [(10001, $ " 7 70s tcp")]); (T0 + 60, Check); (T0 + 61, Purge)].
Lemma story2_history : history cf1 T0 story2.
Proof.
  cbn [story2 story1 history app]. repeat split; try lia.
  - right. exists ($ "me"), (T0 + 60), [(6, 22)]. apply ssh_asks; auto; [lia|apply ten0; lia].
  - right. exists ($ "me"), (T0 + 10 + 30), [(6, 22)]. apply ssh_asks; auto; [lia|rewrite <- Z.add_assoc; apply ten0; lia].
  - cbn [proper]. repeat (apply Forall_cons; [split; [split; intro J; vm_compute in J; intuition discriminate|unfold digit; vm_compute; intuition]|]). apply Forall_nil.
Qed.
Lemma story2_fits : fits_along ipfw0 cf1 story2 begin1.
Proof. vm_compute. repeat split; discriminate. Qed.
Lemma story2_counted : counted_along ipfw0 cf1 story2 begin1.
Proof.
  assert (ONE : forall a t tm dst e pl, access_request cf1 (ssh a tm) t dst e pl -> pl = [(6, 22)]).
  { intros a t tm dst e pl (_ & RQ & _). apply entries_requested in RQ. rewrite <- RQ. reflexivity. }
  unfold story2, story1. cbn [app counted_along].
  split; [intros d dst e pl E AR; injection E as <-; rewrite (ONE _ _ _ _ _ _ AR); vm_compute; discriminate|].
  match goal with |- context[serve_one ?K ?c ?t ?o ?s] => let r := eval vm_compute in (serve_one K c t o s) in assert (E1 : serve_one K c t o s = r) by (vm_compute; reflexivity); rewrite E1; clear E1 end.
  split; [intros d dst e pl E AR; injection E as <-; rewrite (ONE _ _ _ _ _ _ AR); vm_compute; discriminate|].
  match goal with |- context[serve_one ?K ?c ?t ?o ?s] => let r := eval vm_compute in (serve_one K c t o s) in assert (E1 : serve_one K c t o s = r) by (vm_compute; reflexivity); rewrite E1; clear E1 end.
  repeat (split; [discriminate|]; match goal with |- context[serve_one ?K ?c ?t ?o ?s] => let r := eval vm_compute in (serve_one K c t o s) in assert (E1 : serve_one K c t o s = r) by (vm_compute; reflexivity); rewrite E1; clear E1 end).
  exact I.
Qed.
Example C90_history_ex : tidy ipfw0 cf1 (fst begin1) (fst (snd begin1)) /\ history cf1 T0 story2 /\ fits_along ipfw0 cf1 story2 begin1 /\ counted_along ipfw0 cf1 story2 begin1 /\
  seen1 (serve ipfw0 cf1 [(T0, Ask (ssh A1 60)); (T0 + 10, Ask (ssh A2 30)); (T0 + 20, Check)] begin1) =
    Some (2, T0 + 40, [rule1 10000 A1 (T0 + 60); rule1 10001 A2 (T0 + 40); past (rule1 10007 A2 (T0 - 100)); other1], [(0, 1); (1, 1); (7, 2)]) /\
  seen1 (serve ipfw0 cf1 story1 begin1) =
    Some (1, T0 + 40, [rule1 10000 A1 (T0 + 60); past (rule1 10001 A2 (T0 + 40)); past (rule1 10007 A2 (T0 - 100)); other1], [(0, 1); (1, 2); (7, 2)]) /\
  seen1 (serve ipfw0 cf1 story2 begin1) = Some (0, 0, [past (rule1 10001 A2 (T0 + 40)); other1], [(1, 2)]).
Proof.
  split; [apply (begin1_sound 0); lia|]. split; [exact story2_history|]. split; [exact story2_fits|]. split; [exact story2_counted|].
  split; [vm_compute; reflexivity|]. split; vm_compute; reflexivity.
Qed.
Example C90_open_ex : access_request cf1 (ssh A1 60) T0 ($ "me") (T0 + 60) [(6, 22)] /\ status cf1 (fst begin1) 10000 = Some 0 /\ status cf1 (fst begin1) 10007 = Some 2 /\
  grants cf1 (ssh A1 60) ($ "me") (T0 + 60) 10000 (6, 22) (rule1 10000 A1 (T0 + 60)).
Proof.
  split; [apply ssh_asks; auto; [lia|apply ten0; lia]|]. split; [vm_compute; reflexivity|]. split; [vm_compute; reflexivity|].
  split; [reflexivity|]. split; [reflexivity|]. apply rule1_asks, ten0. lia.
Qed.

(** *** What does not hold *)
(** A check does not close all rules whose time has come: only one number in a check *)
Theorem C90_all_refuted : exists K cf h now r e, conf_fits cf /\ ipfw_ok K /\ history cf now h /\ 
  match serve K cf (h ++ [(now + 60, Check)]) (mkBooks 0 0 0 0 (repeat 0 100), (mkTable [] [2] [], [])) with
  | Ok (_, (t, fs)) => fs = [] /\ open t r /\ ends_at K r e /\ e + 30 <= now + 60
  | Fault => False
  end.
Proof.
  exists ipfw0, cf1, [(T0, Ask (ssh A1 30)); (T0 + 1, Ask (ssh A2 30))], T0, (rule1 10000 A1 (T0 + 30)), (T0 + 30).
  split; [apply cf1_fits; try reflexivity; cbn; lia|]. split; [exact ipfw0_ok|]. split.
  - cbn [history]. repeat split; try lia; right.
    + exists ($ "me"), (T0 + 30), [(6, 22)]. apply ssh_asks; auto; [lia|apply ten0; lia].
    + exists ($ "me"), (T0 + 1 + 30), [(6, 22)]. apply ssh_asks; auto; [lia|rewrite <- Z.add_assoc; apply ten0; lia].
  - assert (R : ends_at ipfw0 (rule1 10000 A1 (T0 + 30)) (T0 + 30)) by (apply rule1_ends; [now left|apply ten0; lia]).
    set (r := serve _ _ _ _). assert (E : match r with Ok (_, (t, fs)) => fs = [] /\ t_rules t = [rule1 10000 A1 (T0 + 30); past (rule1 10001 A2 (T0 + 31))] /\ t_off t = [2] | Fault => False end) by (vm_compute; repeat split).
    destruct r as [(k & t & fs)|]; [|exact E]. destruct E as (A & B & C). split; [exact A|]. split; [|split; [exact R|unfold T0; lia]]. split; [rewrite B; left; reflexivity|rewrite C; intros [X|[]]; discriminate X].
Qed.
Print Assumptions C90_all_refuted.

(** A rule for 30 seconds stays open for an hour, through any number of checks, when a rule with a
    higher number ends later: of the listing only the time in the last line is understood, since
    in the others a line feed follows *)
Theorem C90_order_refuted : exists K cf s r e1 e2, conf_fits cf /\ ipfw_ok K /\
  (exists h now, history cf now h /\ serve K cf h (mkBooks 0 0 0 0 (repeat 0 100), (mkTable [] [2] [], [])) = Ok s) /\
  open (fst (snd s)) r /\ ends_at K r e1 /\ e1 + 3600 <= e2 /\
  forall times, (forall t, In t times -> t < e2) -> serve K cf (map (fun t => (t, Check)) times) s = Ok s.
Proof.
  assert (CF : conf_fits cf1) by (apply cf1_fits; try reflexivity; cbn; lia).
  set (h := [(T0, Ask (ssh A1 30)); (T0 + 1, Ask (ssh A2 3630))]). set (s0 := (mkBooks 0 0 0 0 (repeat 0 100), (mkTable [] [2] [], []) : machine)).
  assert (HI : history cf1 T0 h).
  { cbn [history h]. repeat split; try lia; right.
    + exists ($ "me"), (T0 + 30), [(6, 22)]. apply ssh_asks; auto; [lia|apply ten0; lia].
    + exists ($ "me"), (T0 + 1 + 3630), [(6, 22)]. apply ssh_asks; auto; [lia|rewrite <- Z.add_assoc; apply ten0; lia]. }
  set (k1 := mkBooks 2 2 (T0 + 30) 0 ([1; 1] ++ repeat 0 98)). set (t1 := mkTable [rule1 10000 A1 (T0 + 30); rule1 10001 A2 (T0 + 3631)] [2] []).
  assert (E : serve ipfw0 cf1 h s0 = Ok (k1, (t1, []))) by (vm_compute; reflexivity).
  assert (R1 : ends_at ipfw0 (rule1 10000 A1 (T0 + 30)) (T0 + 30)) by (apply rule1_ends; [now left|apply ten0; lia]).
  assert (R2 : ends_at ipfw0 (rule1 10001 A2 (T0 + 3631)) (T0 + 3631)) by (apply rule1_ends; [now right|apply ten0; lia]).
  assert (S0 : tidy ipfw0 cf1 (fst s0) (mkTable [] [2] [])).
  { constructor; try (intros r []); try reflexivity; [intros [X|[]]; discriminate X|left; reflexivity|intros r' e e' []|constructor]. }
  assert (F : fits_along ipfw0 cf1 h s0) by (vm_compute; repeat split; discriminate).
  destruct (C90_history_partial ipfw0 cf1 T0 h (fst s0) (mkTable [] [2] []) CF ipfw0_ok S0 ltac:(cbn; lia) HI F) as (k' & t' & E' & TD & _).
  change (fst s0, (mkTable [] [2] [], [])) with s0 in E'. rewrite E in E'. injection E' as <- <-.
  exists ipfw0, cf1, (k1, (t1, [])), (rule1 10000 A1 (T0 + 30)), (T0 + 30), (T0 + 3631). split; [exact CF|]. split; [exact ipfw0_ok|].
  split; [exists h, T0; split; assumption|]. split; [split; [left; reflexivity|intros [X|[]]; discriminate X]|]. split; [exact R1|]. split; [lia|].
  induction times as [|t times IH]; intro B; [reflexivity|]. cbn [map serve serve_one fst snd].
  destruct (C90_check_partial ipfw0 cf1 t k1 t1 [rule1 10000 A1 (T0 + 30)] (rule1 10001 A2 (T0 + 3631)) (T0 + 3631) CF ipfw0_ok TD) as (k2 & t2 & E2 & _ & _ & KEEP).
  { split; vm_compute; discriminate. } { cbn; lia. } { reflexivity. } { exact R2. }
  rewrite E2. cbn [bind]. destruct KEEP as (-> & ->); [right; apply B; left; reflexivity|]. apply IH. intros x I. apply B. right. exact I.
Qed.
Print Assumptions C90_order_refuted.

(** A rule whose time has come outlives the checks when a request was served between that time
    and the check: until the end of the new rule a check does nothing, not even list the rules *)
Theorem C90_overdue_refuted : exists K cf h now k t r, conf_fits cf /\ ipfw_ok K /\ history cf now h /\
  serve K cf h (mkBooks 0 0 0 0 (repeat 0 100), (mkTable [] [2] [], [])) = Ok (k, (t, [])) /\ open t r /\ ends_at K r (now + 30) /\
  forall W exec (w : W) u, u < now + 3631 -> check_firewall_rules W exec cf u k w = Ok (k, w).
Proof.
  exists ipfw0, cf1, [(T0, Ask (ssh A1 30)); (T0 + 31, Ask (ssh A2 3600))], T0, (mkBooks 2 2 (T0 + 3631) 0 ([1; 1] ++ repeat 0 98)),
    (mkTable [rule1 10000 A1 (T0 + 30); rule1 10001 A2 (T0 + 3631)] [2] []), (rule1 10000 A1 (T0 + 30)).
  split; [apply cf1_fits; try reflexivity; cbn; lia|]. split; [exact ipfw0_ok|]. split.
  { cbn [history]. repeat split; try lia; right.
    + exists ($ "me"), (T0 + 30), [(6, 22)]. apply ssh_asks; auto; [lia|apply ten0; lia].
    + exists ($ "me"), (T0 + 31 + 3600), [(6, 22)]. apply ssh_asks; auto; [lia|rewrite <- Z.add_assoc; apply ten0; lia]. }
  split; [vm_compute; reflexivity|]. split; [split; [left; reflexivity|intros [X|[]]; discriminate X]|].
  split; [apply rule1_ends; [now left|apply ten0; lia]|]. intros W exec w u LT. unfold check_firewall_rules. cbn [b_active b_next b_total b_purged b_map].
  change (2 >? i_max cf1) with false. cbn iota. assert (B : T0 + 3631 >? u = true) by (apply Z.gtb_lt; lia). rewrite B. reflexivity.
Qed.
Print Assumptions C90_overdue_refuted.

(** Rules stay open for ever when a request brings the count of the active rules above
    IPFW_MAX_RULES, which counts ports while the limit is on numbers: the count is set to zero,
    and from then on no check does anything *)
Definition two_ports : spa_data := req A1 ($ "tcp/22,tcp/80") 30.
Lemma two_asks c t : i_use_dst c = false -> ten_digits (t + 30) -> access_request c two_ports t ($ "me") (t + 30) [(6, 22); (6, 80)].
Proof.
  intros UD TEN. split; [left; reflexivity|]. split.
  - exists [$ "tcp/22"; $ "tcp/80"]. split.
    + exists [$ "tcp/22"; $ "tcp/80"]. split; [reflexivity|]. split; [discriminate|]. split; [repeat (constructor; [apply no_byte; reflexivity|]); constructor|].
      repeat (constructor; [exists []; split; [reflexivity|]; split; [constructor|]; intro X; rewrite <- isspace_blank in X; discriminate X|]). constructor.
    + repeat (constructor; [split; [apply entry_short; [discriminate|reflexivity]|discriminate]|]). constructor.
  - split; [exact addr1|]. rewrite UD. split; [reflexivity|]. split; [reflexivity|]. split; [cbn; lia|exact TEN].
Qed.
Theorem C90_count_refuted : exists K cf d now dst e pl k t r, conf_fits cf /\ ipfw_ok K /\ access_request cf d now dst e pl /\
  process_spa_request machine (exec_ipfw K) cf d now (mkBooks 0 0 0 0 [0]) (mkTable [] [2] [], []) = Ok (Some true, k, (t, [])) /\
  open t r /\ ends_at K r e /\
  forall u, exists k', check_firewall_rules machine (exec_ipfw K) cf u k (t, []) = Ok (k', (t, [])) /\
    forall v, check_firewall_rules machine (exec_ipfw K) cf v k' (t, []) = Ok (k', (t, [])).
Proof.
  exists ipfw0, (mkIf ($ "/sbin/ipfw") 10000 1 1 2 600 false ($ "Y") ($ "Y") ($ "N")), two_ports, T0, ($ "me"), (T0 + 30), [(6, 22); (6, 80)], (mkBooks 2 2 (T0 + 30) 0 [1]).
  eexists (mkTable [rule1 10000 A1 (T0 + 30); _] [2] []). exists (rule1 10000 A1 (T0 + 30)).
  split; [apply cf1_fits; try reflexivity; cbn; lia|]. split; [exact ipfw0_ok|]. split; [apply two_asks; [reflexivity|apply ten0; lia]|].
  split; [vm_compute; reflexivity|]. split; [split; [left; reflexivity|intros [X|[]]; discriminate X]|].
  split; [apply rule1_ends; [now left|apply ten0; lia]|]. intro u. exists (mkBooks 0 2 (T0 + 30) 0 [1]). split; reflexivity.
Qed.
Print Assumptions C90_count_refuted.

(** With FLUSH_IPFW_AT_INIT N the expire set is not disabled: a rule whose time has come is moved
    to it and stays open.  And a purge then finds no heading of dynamic rules in the listing:
    nothing is deleted, and the number is never used again, here the only one. *)
Theorem C90_expire_set_refuted : exists K cf k0 t0 h now k t r, conf_fits cf /\ ipfw_ok K /\
  fw_initialize machine (exec_ipfw K) cf (mkTable [] [] [], []) = Ok (Some k0, (t0, [])) /\ history cf now h /\
  serve K cf (h ++ [(now + 60, Check); (now + 4000, Purge)]) (k0, (t0, [])) = Ok (k, (t, [])) /\ open t r /\ ends_at K r (now + 30) /\
  forall d u, exists x, process_spa_request machine (exec_ipfw K) cf d u k (t, []) = Ok (x, k, (t, [])).
Proof.
  exists ipfw0, (mkIf ($ "/sbin/ipfw") 10000 1 1 2 600 false ($ "N") ($ "Y") ($ "N")), (mkBooks 0 0 0 0 [0]), (mkTable [] [] []), [(T0, Ask (ssh A1 30))], T0,
    (mkBooks 0 1 0 (T0 + 4000) [2]), (mkTable [past (rule1 10000 A1 (T0 + 30))] [] []), (past (rule1 10000 A1 (T0 + 30))).
  split; [apply cf1_fits; try reflexivity; cbn; lia|]. split; [exact ipfw0_ok|]. split; [vm_compute; reflexivity|]. split.
  { cbn [history]. split; [lia|]. split; [|exact I]. right. exists ($ "me"), (T0 + 30), [(6, 22)]. apply ssh_asks; auto; [lia|apply ten0; lia]. }
  split; [vm_compute; reflexivity|]. split; [split; [left; reflexivity|intros []]|]. split; [apply (rule1_ends 10000); [now left|apply ten0; lia]|].
  intros d u. exists None. unfold process_spa_request. destruct ((d_type d =? FKO_ACCESS_MSG) || (d_type d =? FKO_CLIENT_TIMEOUT_ACCESS_MSG)); reflexivity.
Qed.
Print Assumptions C90_expire_set_refuted.

(** When ipfw fails to move a rule once (it exits with an error, which is not looked at), the rule
    stays open for ever *)
Theorem C90_failed_move_refuted : exists K cf h now k t r, conf_fits cf /\ ipfw_ok K /\ history cf now h /\
  serve K cf h (mkBooks 0 0 0 0 (repeat 0 100), (mkTable [] [2] [], [Runs; Runs; Refuses])) = Ok (k, (t, [])) /\ open t r /\ ends_at K r (now + 30) /\
  forall u, check_firewall_rules machine (exec_ipfw K) cf u k (t, []) = Ok (k, (t, [])).
Proof.
  exists ipfw0, cf1, [(T0, Ask (ssh A1 30)); (T0 + 30, Check)], T0, (mkBooks 0 1 0 0 ([2] ++ repeat 0 99)), (mkTable [rule1 10000 A1 (T0 + 30)] [2] []), (rule1 10000 A1 (T0 + 30)).
  split; [apply cf1_fits; try reflexivity; cbn; lia|]. split; [exact ipfw0_ok|]. split.
  { cbn [history]. repeat split; try lia. right. exists ($ "me"), (T0 + 30), [(6, 22)]. apply ssh_asks; auto; [lia|apply ten0; lia]. }
  split; [vm_compute; reflexivity|]. split; [split; [left; reflexivity|intros [X|[]]; discriminate X]|]. split; [apply rule1_ends; [now left|apply ten0; lia]|]. intro u. reflexivity.
Qed.
Print Assumptions C90_failed_move_refuted.

(** With FLUSH_IPFW_AT_EXIT N, FLUSH_IPFW_AT_INIT Y does not flush either: rules of an earlier run
    stay, their numbers are taken for free, and a rule is closed long before its time when a new
    one with the same number ends *)
Theorem C90_restart_refuted : exists K cf k0 t0 h now k t r, conf_fits cf /\ ipfw_ok K /\
  says "y"%byte (i_flush_init cf) = true /\ In r (t_rules t0) /\ r_set r = i_active cf /\ ends_at K r (now + 3600) /\
  fw_initialize machine (exec_ipfw K) cf (mkTable (t_rules t0) [] [], []) = Ok (Some k0, (t0, [])) /\ history cf now h /\
  serve K cf (h ++ [(now + 60, Check)]) (k0, (t0, [])) = Ok (k, (t, [])) /\ ~ In r (t_rules t).
Proof.
  exists ipfw0, (mkIf ($ "/sbin/ipfw") 10000 100 1 2 600 false ($ "Y") ($ "N") ($ "N")), (mkBooks 0 0 0 0 (repeat 0 100)), (mkTable [rule1 10000 A2 (T0 + 3600)] [2] []), [(T0, Ask (ssh A1 30))], T0,
    (mkBooks 0 1 0 0 ([2] ++ repeat 0 99)), (mkTable [past (rule1 10000 A2 (T0 + 3600)); past (rule1 10000 A1 (T0 + 30))] [2] []), (rule1 10000 A2 (T0 + 3600)).
  split; [apply cf1_fits; try reflexivity; cbn; lia|]. split; [exact ipfw0_ok|]. split; [reflexivity|]. split; [left; reflexivity|]. split; [reflexivity|].
  split; [apply rule1_ends; [now right|apply ten0; lia]|]. split; [vm_compute; reflexivity|]. split.
  { cbn [history]. split; [lia|]. split; [|exact I]. right. exists ($ "me"), (T0 + 30), [(6, 22)]. apply ssh_asks; auto; [lia|apply ten0; lia]. }
  split; [vm_compute; reflexivity|]. intros [X|[X|[]]]; discriminate X.
Qed.
Print Assumptions C90_restart_refuted.

(** A rule left in the active set by an earlier run with other numbers makes the daemon write
    outside its map of numbers *)
Theorem C90_memory_refuted : exists K cf k t now r, conf_fits cf /\ ipfw_ok K /\ zlen (b_map k) = i_max cf /\ t_rules t = [r] /\ r_set r = i_active cf /\
  r_num r < i_start cf /\ ends_at K r now /\ check_firewall_rules machine (exec_ipfw K) cf now k (t, []) = Fault.
Proof.
  exists ipfw0, cf1, (mkBooks 1 1 T0 0 ([1] ++ repeat 0 99)), (mkTable [rule1 5000 A1 (T0 + 0)] [2] []), (T0 + 0), (rule1 5000 A1 (T0 + 0)).
  split; [apply cf1_fits; try reflexivity; cbn; lia|]. split; [exact ipfw0_ok|]. split; [reflexivity|]. split; [reflexivity|]. split; [reflexivity|]. split; [cbn; lia|].
  split; [apply rule1_ends; [now left|apply ten0; lia]|]. vm_compute. reflexivity.
Qed.
Print Assumptions C90_memory_refuted.

(** The settings mean what they say: numbers in their range are those used, each for its purpose,
    and a set number above 63 is refused.  Missing for the full property: numbers above 65535,
    which are accepted (see below). *)
Theorem C90_settings_partial : forall exe start max act exp interval dst finit fexit chk s m a e i,
  integer_text start s -> integer_text max m -> integer_text act a -> integer_text exp e -> integer_text interval i ->
  0 <= s <= 65535 -> 0 <= m <= 65535 -> 0 <= a <= 65535 -> 0 <= e <= 65535 -> 0 <= i <= 65535 -> zlen exe < 1024 ->
  (a <= 63 /\ e <= 63 -> exists c, fw_config_init exe start max act exp interval dst finit fexit chk = Some c /\
     i_cmd c = exe /\ i_start c = s /\ i_max c = m /\ i_active c = a /\ i_expire c = e /\ i_interval c = i /\
     (i_use_dst c = true <-> exists r, dst = "y"%byte :: r \/ dst = "Y"%byte :: r) /\
     i_flush_init c = finit /\ i_flush_exit c = fexit /\ i_check_state c = chk) /\
  (63 < a \/ 63 < e -> fw_config_init exe start max act exp interval dst finit fexit chk = None).
Proof.
  intros exe start max act exp interval dst finit fexit chk s m a e i IS IM IA IE II RS RM RA RE RI LX.
  assert (SM : forall n, 0 <= n <= 65535 -> u16 n = n) by (intros n R; apply Z.mod_small; lia).
  pose proof (fun hi (B : 0 <= hi) => strtol_wrapper_iff start 0 hi s IS ltac:(lia) B) as WS.
  pose proof (fun hi (B : 0 <= hi) => strtol_wrapper_iff max 0 hi m IM ltac:(lia) B) as WM.
  pose proof (fun hi (B : 0 <= hi) => strtol_wrapper_iff act 0 hi a IA ltac:(lia) B) as WA.
  pose proof (fun hi (B : 0 <= hi) => strtol_wrapper_iff exp 0 hi e IE ltac:(lia) B) as WE.
  pose proof (fun hi (B : 0 <= hi) => strtol_wrapper_iff interval 0 hi i II ltac:(lia) B) as WI.
  unfold fw_config_init, RCHK_MAX_IPFW_MAX_RULES, RCHK_MAX_IPFW_SET_NUM, RCHK_MAX_IPFW_PURGE_INTERVAL.
  rewrite (proj2 (WS 131071 ltac:(lia) s) ltac:(lia)), (proj2 (WM 131071 ltac:(lia) m) ltac:(lia)), (proj2 (WI 131071 ltac:(lia) i) ltac:(lia)). split.
  - intros [LA LE]. rewrite (proj2 (WA 63 ltac:(lia) a) ltac:(lia)), (proj2 (WE 63 ltac:(lia) e) ltac:(lia)). eexists. split; [reflexivity|].
    cbn [i_cmd i_start i_max i_active i_expire i_interval i_use_dst i_flush_init i_flush_exit i_check_state]. rewrite !SM by lia.
    split; [apply ztake_all; unfold MAX_PATH_LEN; lia|]. repeat (split; [reflexivity|]). split; [|auto].
    unfold says. split.
    + destruct dst as [|c r]; [discriminate|]. intro Q. exists r. destruct c; (left; reflexivity) || (right; reflexivity) || discriminate Q.
    + intros (r & [->| ->]); reflexivity.
  - intro B. destruct (strtol_wrapper act 0 63) as [a' ea] eqn:EA, (strtol_wrapper exp 0 63) as [e' ee] eqn:EE.
    destruct ea; try reflexivity. destruct ee; try reflexivity. apply WA in EA; [|lia]. apply WE in EE; [|lia]. lia.
Qed.
Print Assumptions C90_settings_partial.
Example C90_settings_ex : integer_text ($ "10000") 10000 /\ integer_text ($ "1") 1 /\ integer_text ($ "64") 64.
Proof.
  assert (K : forall t n, all_digits t -> ~ blank (hd x00 t) -> hd x00 t <> "-"%byte -> hd x00 t <> "+"%byte -> n = decimal t -> integer_text t n).
  { intros t n D B N1 N2 E. exists [], t. split; [reflexivity|]. split; [constructor|]. split; [exact B|]. right. right. split; [exact N1|]. split; [exact N2|].
    exists t, []. split; [rewrite app_nil_r; reflexivity|]. auto. }
  split; [|split]; (apply K; [repeat constructor; vm_compute; congruence|vm_compute; intuition congruence|discriminate|discriminate|reflexivity]).
Qed.

(** IPFW_START_RULE_NUM 0 is accepted, but then no request is ever served: the number 0 stands for
    no number.  IPFW_MAX_RULES 65536 is accepted, too, and becomes 0. *)
Theorem C90_settings_refuted :
  (exists cf, fw_config_init ($ "/sbin/ipfw") ($ "0") ($ "1000") ($ "1") ($ "2") ($ "30") ($ "N") ($ "Y") ($ "Y") ($ "N") = Some cf /\
     forall W exec d now k (w : W), hd 0 (b_map k) = 0 -> process_spa_request W exec cf d now k w = Ok (None, k, w)) /\
  (exists cf, fw_config_init ($ "/sbin/ipfw") ($ "10000") ($ "65536") ($ "1") ($ "2") ($ "30") ($ "N") ($ "Y") ($ "Y") ($ "N") = Some cf /\ i_max cf = 0).
Proof.
  split; eexists; (split; [reflexivity|]); [|reflexivity]. intros W exec d now k w H. unfold process_spa_request.
  assert (E : first_free 0 0 (b_map k) = 0) by (destruct (b_map k) as [|x l]; [reflexivity|]; cbn in H; subst x; reflexivity). cbn [i_start]. change (u16 0) with 0.
  match goal with |- context[first_free ?a 0 (b_map k)] => change a with 0 end. rewrite E. destruct ((d_type d =? FKO_ACCESS_MSG) || (d_type d =? FKO_CLIENT_TIMEOUT_ACCESS_MSG)); reflexivity.
Qed.
Print Assumptions C90_settings_refuted.
