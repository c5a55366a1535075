(** Proofs about the configuration of the client: settings before the checks. *)
From Verif Require Import Bytes M_accfile M_base64 M_util M_message M_codec M_cipher M_ctx M_access M_replay M_cycle M_incoming M_conf M_codec M_client M_send
  S_base64 S_text S_conf S_accfile P_bytes P_base64 P_util P_util2 P_access P_replay P_conf P_accfile P_accfile2 P_accfile3 P_accfile4 P_accfile6 P_message P_codec P_client P_client4 M_rc S_rc P_rc P_rc2 P_rc3.
From Coq Require Import Init.Byte List ZArith Bool Lia.
Import ListNotations.
Open Scope Z_scope.

Local Ltac ands := repeat match goal with |- _ /\ _ => split end.
Ltac isnt ps := rewrite ?(is_not _ _ ps) by (solve [cbn [In]; tauto] || assumption).
Ltac which I := cbn [In] in I; repeat (destruct I as [<-|I]); try contradiction.

(** ** Texts *)
Lemma text_decided ps f k b : In (ps, f, k) text_vars -> decided b ps (fun _ v x => x = ztake k v) [] (run (touch_t f) b []).
Proof.
  intros I. unfold text_vars in I. cbn [In] in I.
  repeat (destruct I as [I|I]; [injection I; clear I; intros <- <- <-;
    match goal with |- decided _ ?ps _ _ _ => apply run_decided;
      [intros n v N; cbn [touch_t]; isnt ps; reflexivity
      |intros n v _ I; which I; (eexists; split; [reflexivity|reflexivity])] end|]).
  contradiction.
Qed.
Ltac text_one := match goal with |- decided _ ?ps _ _ _ => apply run_decided;
      [intros n v N; cbn [touch_t]; isnt ps; reflexivity
      |intros n v _ I; which I; (eexists; split; [reflexivity|reflexivity])] end.
Lemma url_decided b : decided b [$ "RESOLVE_URL"] (fun _ v x => x = v) [] (run (touch_t t_url) b []).
Proof. text_one. Qed.
Lemma wget_decided b : decided b [$ "WGET_CMD"] (fun _ v x => x = v) [] (run (touch_t t_wget) b []).
Proof. text_one. Qed.
Lemma agent_decided b : decided b [$ "HTTP_USER_AGENT"] (fun _ v x => x = ztake 99 v) [] (run (touch_t t_agent) b []).
Proof. text_one. Qed.
Lemma hmac_file_decided b : decided b [$ "--get-hmac-key"] (fun _ v x => x = ztake 1023 v) [] (run (touch_t t_hmac_file) b []).
Proof. text_one. Qed.
Lemma run_ext {X} (t u : bytes -> bytes -> option X) b : (forall n v, In (n, v) b -> t n v = u n v) -> forall d, run t b d = run u b d.
Proof.
  intros H. induction b as [|[n v] b IH]; intros d; [reflexivity|]. unfold run in *. cbn [fold_left fst snd].
  rewrite (H n v) by now left. apply IH. intros m w I. apply H. now right.
Qed.
Lemma run_none {X} (t : bytes -> bytes -> option X) b d : (forall n v, In (n, v) b -> t n v = None) -> run t b d = d.
Proof. intros H. rewrite (run_ext t (fun _ _ => None) b H). clear. induction b as [|e b IH]; [reflexivity|exact IH]. Qed.
Lemma run_app {X} (t : bytes -> bytes -> option X) b c d : run t (b ++ c) d = run t c (run t b d).
Proof. unfold run. apply fold_left_app. Qed.
Lemma key_file_decided b : ~ mentioned b ($ "HMAC_KEY_FILE") -> decided b [$ "KEY_FILE"] (fun _ v x => x = ztake 1023 v) [] (run (touch_t t_key_file) b []).
Proof.
  intros NM. rewrite (run_ext _ (fun n v => if is n ($ "KEY_FILE") then Some (fit t_key_file v) else None)).
  - apply run_decided; [intros n v N; isnt [$ "KEY_FILE"]; reflexivity|]. intros n v _ I; which I. eexists; split; reflexivity.
  - intros n v I. cbn [touch_t]. destruct (is n ($ "KEY_FILE")); [reflexivity|]. destruct (is n ($ "HMAC_KEY_FILE")) eqn:Q; [|reflexivity].
    unfold is in Q. apply bseq_eq in Q. subst n. exfalso. apply NM. now exists v.
Qed.
Lemma chop_slash_spec v : chop_slash v = without_slash v.
Proof.
  unfold chop_slash, without_slash. destruct v as [|c v] using rev_ind; [reflexivity|]. clear IHv.
  rewrite rev_app_distr, last_last, removelast_last. cbn [rev app]. destruct v as [|d v] using rev_ind; [cbn; reflexivity|]. clear IHv.
  rewrite rev_app_distr. cbn [rev app].
  assert (L : (1 <? zlen ((v ++ [d]) ++ [c])) = true). { rewrite !zlen_app, !zlen_cons, zlen_nil. pose proof (zlen_nonneg v). lia. }
  rewrite L. cbn [andb]. destruct (beq c "/"%byte); [|reflexivity]. rewrite rev_involutive. reflexivity.
Qed.
Lemma ztake_all n (v : bytes) : zlen v <= n -> ztake n v = v.
Proof. intros L. unfold ztake. apply firstn_all2. unfold zlen in L. lia. Qed.
Lemma without_slash_len v : zlen (without_slash v) <= zlen v.
Proof.
  rewrite <- chop_slash_spec. unfold chop_slash. destruct v as [|c v] using rev_ind; [reflexivity|]. clear IHv.
  destruct (_ && _); [rewrite removelast_last, zlen_app; pose proof (zlen_nonneg [c]); lia|lia].
Qed.
Lemma gpg_home_decided b : decided b [$ "GPG_HOMEDIR"; $ "--gpg-home-dir"]
    (fun p v x => (p = $ "GPG_HOMEDIR" -> x = ztake 1023 v) /\
                  (p <> $ "GPG_HOMEDIR" -> zlen v <= 1023 -> x = without_slash v)) [] (run (touch_t t_gpg_home) b []).
Proof.
  apply run_decided.
  - intros n v N. cbn [touch_t]. isnt [$ "GPG_HOMEDIR"; $ "--gpg-home-dir"]. reflexivity.
  - intros n v _ I. which I; (eexists; split; [reflexivity|]).
    + split; [reflexivity|]. intros Q. exfalso. now apply Q.
    + split; [intros Q; discriminate Q|]. intros _ L. rewrite chop_slash_spec. unfold fit. cbn [size]. change (1024 - 1) with 1023.
      rewrite (ztake_all 1023 v L). apply ztake_all. pose proof (without_slash_len v). lia.
Qed.
(** An entry that does not count can be left out, one can be read under another name. *)
Lemma run_filter {X} (t : bytes -> bytes -> option X) (p : bytes * bytes -> bool) b :
  (forall e, p e = false -> t (fst e) (snd e) = None) -> forall d, run t b d = run t (filter p b) d.
Proof.
  intros H. induction b as [|e b IH]; intros d; [reflexivity|]. cbn [filter]. destruct (p e) eqn:P; unfold run in *; cbn [fold_left].
  - apply IH.
  - rewrite (H e P). apply IH.
Qed.
Lemma run_map {X} (t u : bytes -> bytes -> option X) (g : bytes * bytes -> bytes * bytes) b :
  (forall e, t (fst e) (snd e) = u (fst (g e)) (snd (g e))) -> forall d, run t b d = run u (map g b) d.
Proof. intros H. induction b as [|e b IH]; intros d; [reflexivity|]. unfold run in *. cbn [map fold_left]. rewrite H. apply IH. Qed.
Lemma strcaseeq_iff a b : strcaseeq a b = bseq (map lower a) (map lower b).
Proof. unfold strcaseeq. now rewrite (map_ext _ _ tolower_lower a), (map_ext _ _ tolower_lower b). Qed.
Lemma ip_decided b : decided (filter names_ip b) [$ "ALLOW_IP"; $ "-a"; $ "-s"] address [] (run (touch_t t_ip) b []).
Proof.
  rewrite (run_filter _ names_ip).
  - apply run_decided.
    + intros n v N. cbn [touch_t]. isnt [$ "ALLOW_IP"; $ "-a"; $ "-s"]. reflexivity.
    + intros n v B I. apply filter_In in B as [_ B]. unfold address. which I.
      * cbn [touch_t]. change (is ($ "ALLOW_IP") ($ "-s")) with false. change (is ($ "ALLOW_IP") ($ "-a")) with false. change (is ($ "ALLOW_IP") ($ "ALLOW_IP")) with true.
        change (bseq ($ "ALLOW_IP") ($ "-s")) with false. change (bseq ($ "ALLOW_IP") ($ "ALLOW_IP")) with true. cbv iota. cbn [andb].
        unfold names_ip in B. cbn [fst snd] in B. change (bseq ($ "ALLOW_IP") ($ "ALLOW_IP")) with true in B. cbn [andb] in B. apply negb_true_iff in B.
        rewrite !strcaseeq_iff. change (map lower ($ "source")) with ($ "source"). change (map lower ($ "resolve")) with ($ "resolve"). rewrite B.
        destruct (bseq (map lower v) ($ "source")); eexists; split; reflexivity.
      * eexists; split; reflexivity.
      * eexists; split; reflexivity.
  - intros [n v] P. cbn [fst snd]. unfold names_ip in P. cbn [fst snd] in P. apply negb_false_iff, andb_true_iff in P as [P Q]. apply bseq_eq in P. subst n.
    cbn [touch_t]. change (is ($ "ALLOW_IP") ($ "-s")) with false. change (is ($ "ALLOW_IP") ($ "-a")) with false. change (is ($ "ALLOW_IP") ($ "ALLOW_IP")) with true. cbv iota.
    rewrite !strcaseeq_iff. change (map lower ($ "source")) with ($ "source"). change (map lower ($ "resolve")) with ($ "resolve"). rewrite Q.
    apply bseq_eq in Q. rewrite Q. reflexivity.
Qed.

(** ** Numbers *)
Lemma ok_num_in hi v : 0 <= hi -> ok_num hi v = true -> number_in hi v (nv v).
Proof.
  unfold ok_num. intros H. destruct (strtol_wrapper v 0 hi) as [x e] eqn:W. cbn [snd]. intros K. destruct e; try discriminate K.
  pose proof (nv_wrapper _ _ _ _ _ W) as <-. pose proof (strtol_wrapper_range _ _ _ _ W) as (A & B & C).
  split; [lia|]. intros n T R. destruct (strtol_wrapper_reads _ 0 hi _ T R _ _ W) as [V _]. exact V.
Qed.
Lemma proto_one_of v : 0 <= name_value protos v -> one_of protocols v (name_value protos v).
Proof.
  unfold protos, one_of, protocols. cbn [name_value]. rewrite !strcaseeq_iff.
  repeat (match goal with |- context [bseq (map lower v) (map lower ?n)] =>
    destruct (bseq (map lower v) (map lower n)) eqn:?E; [intros _; exists n; split; [cbn [In]; tauto|now apply bseq_eq]|] end). lia.
Qed.
Lemma number_decided ps f R d b : Forall good b -> In (ps, f, R, d) number_vars -> decided b ps R d (run (touch_n f) b d).
Proof.
  intros G I. rewrite Forall_forall in G. unfold number_vars in I. cbn [In] in I.
  repeat (destruct I as [I|I]; [injection I; clear I; intros <- <- <- <-;
    match goal with |- decided _ ?ps _ _ _ => apply run_decided;
      [intros n v N; cbn [touch_n]; isnt ps; reflexivity
      |intros n v B I; apply G in B; unfold good in B; cbn [fst snd] in B; which I; (eexists; split; [reflexivity|])] end|]);
  try contradiction; cbv beta.
  - change (0 <=? hmac_digest_strtoint v = true) in B. apply digest_one_of. lia.
  - change (0 <=? name_value protos v = true) in B. apply proto_one_of. lia.
  - apply ok_num_in; [lia|exact B].
  - apply ok_num_in; [lia|exact B].
  - change (bseq ($ "FW_TIMEOUT") ($ "-f")) with false. apply ok_num_in; [lia|exact B].
  - change (bseq ($ "-f") ($ "-f")) with true. apply ok_num_in; [lia|exact B].
  - change (0 <=? enc_mode_strtoint v = true) in B. apply mode_one_of. lia.
  - apply ok_num_in; [lia|exact B].
  - apply ok_num_in; [lia|exact B].
  - apply ok_num_in; [lia|exact B].
Qed.
Lemma hmac_type_decided b : Forall good b -> decided b [$ "HMAC_DIGEST_TYPE"] (fun _ v x => one_of digests v x) 0 (run (touch_n q_hmac_type) b 0).
Proof.
  intros G. rewrite Forall_forall in G. apply run_decided; [intros n v N; cbn [touch_n]; isnt [$ "HMAC_DIGEST_TYPE"]; reflexivity|].
  intros n v B I. apply G in B. unfold good in B; cbn [fst snd] in B. which I. eexists; split; [reflexivity|].
  change (0 <=? hmac_digest_strtoint v = true) in B. apply digest_one_of. lia.
Qed.
Lemma is_yes_iff v : is_yes v = true <-> v = $ "Y" \/ v = $ "y".
Proof.
  unfold is_yes. rewrite strcaseeq_iff. change (map lower ($ "Y")) with ($ "y"). split.
  - intros E. apply bseq_eq in E. destruct v as [|c [|]]; try discriminate E. injection E as E. destruct c; try discriminate E; auto.
  - intros [->| ->]; reflexivity.
Qed.
Lemma verbose_decided b d : Forall good b -> decided b [$ "VERBOSE"]
    (fun _ v x => (v = $ "Y" \/ v = $ "y" -> x = 1) /\ (v <> $ "Y" -> v <> $ "y" -> number_in 4 v x)) d (run (touch_n q_verbose) b d).
Proof.
  intros G. rewrite Forall_forall in G. apply run_decided; [intros n v N; cbn [touch_n]; isnt [$ "VERBOSE"]; reflexivity|].
  intros n v B I. apply G in B. unfold good in B; cbn [fst snd] in B. which I. change (is_yes v || ok_num 4 v = true) in B.
  cbn [touch_n]. change (is ($ "VERBOSE") ($ "VERBOSE")) with true. cbv iota. destruct (is_yes v) eqn:Y.
  - eexists; split; [reflexivity|]. apply is_yes_iff in Y. tauto.
  - eexists; split; [reflexivity|]. split.
    + intros Q. apply is_yes_iff in Q. congruence.
    + intros _ _. apply ok_num_in; [lia|exact B].
Qed.
(** ** Offsets *)
Lemma offset_digits_read ds u k : In (u, k) units -> all_digits ds -> forall d, zlen d + zlen ds <= 8 -> offset_digits (ds ++ u) d = Some (d ++ ds, k).
Proof.
  intros U. induction ds as [|c ds IH]; intros D d L.
  - rewrite app_nil_r. cbn [app]. unfold units in U. cbn [In] in U. repeat (destruct U as [U|U]; [injection U as <- <-; reflexivity|]). contradiction.
  - rewrite zlen_cons in L. pose proof (Forall_inv D) as DC. apply Forall_inv_tail in D. cbn [app offset_digits].
    assert (C : isdigit c = true). { unfold digit in DC. unfold isdigit. lia. }
    rewrite C. pose proof (zlen_nonneg ds). destruct (9 <=? zlen d + 1) eqn:Q; [lia|]. rewrite IH by (auto; rewrite zlen_app, zlen_cons, zlen_nil; lia).
    now rewrite <- app_assoc.
Qed.
Lemma offset_digits_long ds u : all_digits ds -> forall d, zlen d <= 8 -> 8 < zlen d + zlen ds -> offset_digits (ds ++ u) d = None.
Proof.
  induction ds as [|c ds IH]; intros D d L1 L2.
  - rewrite zlen_nil in L2. lia.
  - rewrite zlen_cons in L2. pose proof (Forall_inv D) as DC. apply Forall_inv_tail in D. cbn [app offset_digits].
    assert (C : isdigit c = true). { unfold digit in DC. unfold isdigit. lia. }
    rewrite C. destruct (9 <=? zlen d + 1) eqn:Q; [reflexivity|]. apply IH; auto; rewrite zlen_app, zlen_cons, zlen_nil; lia.
Qed.
Lemma digits_integer ds : all_digits ds -> ds <> [] -> integer_text ds (decimal ds).
Proof.
  intros D N. destruct ds as [|c r]; [contradiction|]. pose proof (Forall_inv D) as DC. unfold digit in DC.
  exists [], (c :: r). split; [auto|]. split; [constructor|]. cbn [hd]. unfold blank. split; [lia|].
  right; right. split; [intros ->; change (bv "-"%byte) with 45 in DC; lia|].
  split; [intros ->; change (bv "+"%byte) with 43 in DC; lia|]. exists (c :: r), []. rewrite app_nil_r. auto.
Qed.
Lemma off_seconds v : ok_off v = true -> exists z, off_value v = Some z /\ seconds v z.
Proof.
  unfold ok_off, off_value. destruct (time_offset v) as [[[z ok]|]|] eqn:T; try discriminate. intros _. exists z. split; [reflexivity|].
  intros ds u k -> U D L. unfold time_offset in T.
  destruct (Z_le_gt_dec (zlen ds) 8) as [S|S].
  - rewrite (offset_digits_read ds u k U D []) in T by (rewrite zlen_nil; lia). cbn [app] in T. destruct ds as [|c r]; [rewrite zlen_nil in L; lia|].
    destruct (strtol_wrapper (c :: r) 0 65536) as [n e] eqn:W.
    pose proof (decimal_bound _ D) as B. assert (B8 : 10 ^ zlen (c :: r) <= 10 ^ 8) by (apply Z.pow_le_mono_r; lia). change (10 ^ 8) with 100000000 in B8.
    destruct (strtol_wrapper_reads _ 0 65536 _ (digits_integer _ D ltac:(discriminate)) ltac:(lia) _ _ W) as [-> _].
    destruct (_ || _); [discriminate T|]. injection T as <- _. reflexivity.
  - rewrite (offset_digits_long ds u D []) in T by (rewrite zlen_nil; lia). discriminate T.
Qed.
Lemma minus_hd v : beq (hd x00 v) "-"%byte = minus_value v.
Proof. destruct v; reflexivity. Qed.
Lemma offset_value_seconds p v b : Forall good b -> In (p, v) (map offsets b) -> p = $ "--time-offset-plus" \/ p = $ "--time-offset-minus" ->
  exists z, off_value v = Some z /\ seconds v z.
Proof.
  intros G I P. rewrite Forall_forall in G. apply in_map_iff in I as ([n u] & E & I). apply G in I. unfold good in I. cbn [fst snd] in I.
  apply off_seconds. unfold offsets in E. cbn [fst snd] in E. destruct (bseq n ($ "TIME_OFFSET")) eqn:Q.
  - apply bseq_eq in Q. subst n. change (ok_off (if minus_value u then tl u else u) = true) in I. rewrite minus_hd in E. destruct (minus_value u); injection E as <- <-; exact I.
  - injection E as -> ->. destruct P as [->| ->]; exact I.
Qed.
Definition off_touch (p n v : bytes) : option Z := if is n p then off_value v else None.
Lemma plus_decided b : Forall good b -> decided (map offsets b) [$ "--time-offset-plus"] (fun _ v x => seconds v x) 0 (run (touch_n q_plus) b 0).
Proof.
  intros G. rewrite (run_map _ (off_touch ($ "--time-offset-plus")) offsets).
  - apply run_decided; [intros n v N; unfold off_touch; isnt [$ "--time-offset-plus"]; reflexivity|]. intros n v B I. which I.
    apply (offset_value_seconds _ _ _ G) in B; auto.
  - intros [n v]. unfold offsets, off_touch. cbn [fst snd touch_n]. rewrite minus_hd. destruct (bseq n ($ "TIME_OFFSET")) eqn:Q.
    + apply bseq_eq in Q. subst n. destruct (minus_value v); reflexivity.
    + cbn [fst snd]. unfold is in *. rewrite Q. reflexivity.
Qed.
Lemma minus_decided b : Forall good b -> decided (map offsets b) [$ "--time-offset-minus"] (fun _ v x => seconds v x) 0 (run (touch_n q_minus) b 0).
Proof.
  intros G. rewrite (run_map _ (off_touch ($ "--time-offset-minus")) offsets).
  - apply run_decided; [intros n v N; unfold off_touch; isnt [$ "--time-offset-minus"]; reflexivity|]. intros n v B I. which I.
    apply (offset_value_seconds _ _ _ G) in B; auto.
  - intros [n v]. unfold offsets, off_touch. cbn [fst snd touch_n]. rewrite minus_hd. destruct (bseq n ($ "TIME_OFFSET")) eqn:Q.
    + apply bseq_eq in Q. subst n. destruct (minus_value v); reflexivity.
    + cbn [fst snd]. unfold is in *. rewrite Q. reflexivity.
Qed.
(** ** Switches *)
Lemma run_on (t : bytes -> bytes -> option Z) (P : bytes -> bytes -> Prop) b d :
  (forall n v, (P n v /\ t n v = Some 1) \/ (~ P n v /\ t n v = None)) -> d = 0 \/ (d = 1 /\ exists n v, In (n, v) b /\ P n v) ->
  switch (exists n v, In (n, v) b /\ P n v) (run t b d).
Proof.
  intros H [->|[-> E]]; [now apply run_switch|]. left. split; [exact E|].
  clear E. induction b as [|[n v] b IH] using rev_ind; [reflexivity|]. rewrite run_snoc, IH. destruct (H n v) as [[_ ->]|[_ ->]]; reflexivity.
Qed.
Lemma switch_decided p f b d : In (p, f) switches -> d = 0 \/ (d = 1 /\ turned_on b p) -> switch (turned_on b p) (run (touch_n f) b d).
Proof.
  intros I D. assert (Q : (exists n v, In (n, v) b /\ n = p /\ is_yes v = true) <-> turned_on b p).
  { unfold turned_on. split.
    - intros (n & v & J & -> & Y). apply is_yes_iff in Y as [->| ->]; auto.
    - intros [J|J]; eexists; eexists; (split; [exact J|split; [reflexivity|reflexivity]]). }
  apply (switch_iff _ _ _ Q). apply run_on; [|destruct D as [D|[D1 D2]]; [now left|right; split; [exact D1|now apply Q]]].
  intros n v. assert (T : touch_n f n v = if is n p then if is_yes v then Some 1 else None else None).
  { unfold switches in I. cbn [In] in I. repeat (destruct I as [I|I]; [injection I as <- <-; reflexivity|]). contradiction. }
  rewrite T. unfold is. destruct (bseq n p) eqn:E.
  - apply bseq_eq in E. subst n. destruct (is_yes v); [left|right]; intuition congruence.
  - right. split; [|reflexivity]. intros [-> _]. rewrite (proj2 (bseq_eq p p) eq_refl) in E. discriminate E.
Qed.
Lemma given_decided ps f b : In (ps, f) given_vars -> switch (exists p, In p ps /\ mentioned b p) (run (touch_n f) b 0).
Proof.
  intros I. assert (Q : (exists n v, In (n, v) b /\ In n ps) <-> exists p, In p ps /\ mentioned b p).
  { unfold mentioned. split; [intros (n & v & J & K); eauto|intros (p & K & v & J); eauto]. }
  apply (switch_iff _ _ _ Q). apply run_switch; [|reflexivity].
  intros n v. unfold given_vars in I. cbn [In] in I.
  assert (R : forall p, {n = p} + {n <> p}) by (intro p; apply (list_eq_dec Byte.byte_eq_dec)).
  repeat (destruct I as [I|I]; [injection I; clear I; intros <- <-;
    match goal with |- (In _ ?ps /\ _) \/ _ => destruct (in_dec (list_eq_dec Byte.byte_eq_dec) n ps) as [J|J];
      [left; split; [exact J|]; which J; reflexivity|right; split; [exact J|]; cbn [touch_n]; isnt ps; reflexivity] end|]).
  contradiction.
Qed.
Lemma use_hmac_decided b : switch (turned_on b ($ "USE_HMAC") \/ mentioned b ($ "HMAC_KEY") \/ mentioned b ($ "HMAC_KEY_BASE64")) (run (touch_n q_use_hmac) b 0).
Proof.
  set (P n v := n = $ "USE_HMAC" /\ is_yes v = true \/ n = $ "HMAC_KEY" \/ n = $ "HMAC_KEY_BASE64").
  apply (switch_iff (exists n v, In (n, v) b /\ P n v)).
  - unfold turned_on, mentioned, P. split.
    + intros (n & v & I & [[-> Y]|[->| ->]]); [apply is_yes_iff in Y as [->| ->]; auto|eauto|eauto].
    + intros [[I|I]|[(v & I)|(v & I)]]; eexists; eexists; (split; [exact I|auto]).
  - apply run_switch; [|reflexivity]. intros n v. unfold P. cbn [touch_n]. unfold is.
    destruct (bseq n ($ "HMAC_KEY")) eqn:E1; [apply bseq_eq in E1; left; cbn [orb]; auto|].
    destruct (bseq n ($ "HMAC_KEY_BASE64")) eqn:E2; [apply bseq_eq in E2; left; cbn [orb]; auto|]. cbn [orb].
    assert (N1 : n <> $ "HMAC_KEY") by (intros ->; discriminate E1). assert (N2 : n <> $ "HMAC_KEY_BASE64") by (intros ->; discriminate E2).
    destruct (bseq n ($ "USE_HMAC")) eqn:E3.
    + apply bseq_eq in E3. subst n. destruct (is_yes v); [left; auto|right]. split; [|reflexivity]. intuition congruence.
    + right. split; [|reflexivity]. intros [[-> _]|[?|?]]; [discriminate E3|auto|auto].
Qed.
Lemma resolve_bool b d : d = 0 \/ d = 1 -> run (touch_n q_resolve) b d = 0 \/ run (touch_n q_resolve) b d = 1.
Proof.
  intros D. induction b as [|[n v] b IH] using rev_ind; [exact D|]. rewrite run_snoc. cbn [touch_n].
  destruct (is n _); [destruct (is_yes v); cbn [upd]; auto|]. destruct (is n _); [destruct (is_yes v); cbn [upd]; auto|].
  destruct (is n _); [|exact IH]. destruct (strcaseeq v _); [cbn [upd]; auto|]. destruct (strcaseeq v _); cbn [upd]; auto.
Qed.
