(** Proofs: the checks of a message, and what it may cause. *)
From Verif Require Import Bytes P_bytes M_base64 S_base64 S_text S_codec S_cipher S_ctx S_access S_cycle M_util M_message M_codec M_cipher M_ctx M_access
  M_replay M_cycle M_incoming S_incoming P_util P_util2 P_message P_codec P_access P_replay P_cycle P_ctx P_ctx2 P_ctx3 P_ctx4 P_ctx6 P_incoming P_incoming2.
From Coq Require Import Init.Byte List ZArith Bool Lia.
Import ListNotations.
Open Scope Z_scope.

(** ** Numbers and addresses as text *)
Lemma same_digits s : forall s', all_digits s -> all_digits s' -> zlen s = zlen s' -> decimal s = decimal s' -> s = s'.
Proof.
  induction s as [|c s IH]; intros [|c' s'] D D' L E; try reflexivity.
  - rewrite zlen_cons in L. pose proof (zlen_nonneg s'). change (zlen (@nil byte)) with 0 in L. lia.
  - rewrite zlen_cons in L. pose proof (zlen_nonneg s). change (zlen (@nil byte)) with 0 in L. lia.
  - inversion D as [|? ? C1 D1]; subst. inversion D' as [|? ? C2 D2]; subst. rewrite !decimal_cons in E. rewrite !zlen_cons in L.
    assert (LS : zlen s = zlen s') by lia. rewrite <- LS in E.
    pose proof (decimal_bound s D1). pose proof (decimal_bound s' D2). rewrite <- LS in *. unfold digit in *.
    assert (bv c = bv c') by nia. assert (c = c') by (apply bv_inj; auto). subst c'.
    f_equal. apply IH; auto. lia.
Qed.
Lemma writes_low s n : writes s n -> (s = ["0"%byte] /\ n = 0) \/ (1 <= n /\ 10 ^ (zlen s - 1) <= n < 10 ^ zlen s).
Proof.
  intros (NE & D & E & LZ). destruct s as [|c s]; [congruence|]. pose proof (decimal_bound _ D) as B. rewrite E in B.
  inversion D as [|? ? C1 D1]; subst. pose proof (decimal_bound s D1). rewrite decimal_cons in *. rewrite zlen_cons in *. unfold digit in C1.
  pose proof (zlen_nonneg s). replace (1 + zlen s - 1) with (zlen s) by lia.
  destruct (Z.eq_dec (bv c) 48) as [Q|Q].
  - left. assert (c = "0"%byte) by (apply bv_inj; rewrite Q; reflexivity). subst c. specialize (LZ eq_refl). inversion LZ; subst s. split; reflexivity.
  - right. assert (0 < 10 ^ zlen s) by (apply Z.pow_pos_nonneg; lia). split; nia.
Qed.
Lemma writes_unique s s' n : writes s n -> writes s' n -> s = s'.
Proof.
  intros W W'. destruct (writes_low s n W) as [[-> Z0]|[P B]]; destruct (writes_low s' n W') as [[-> Z1]|[P' B']]; auto; try lia.
  destruct W as (NE & D & E & _), W' as (NE' & D' & E' & _). apply same_digits; auto; [|congruence].
  assert (N : forall x : bytes, x <> [] -> 1 <= zlen x) by (intros [|c x] Q; [congruence|rewrite zlen_cons; pose proof (zlen_nonneg x); lia]).
  specialize (N s NE) as N1. specialize (N s' NE') as N2.
  destruct (Z.lt_trichotomy (zlen s) (zlen s')) as [Q|[Q|Q]]; [|auto|]; exfalso.
  - assert (10 ^ zlen s <= 10 ^ (zlen s' - 1)) by (apply Z.pow_le_mono_r; lia). lia.
  - assert (10 ^ zlen s' <= 10 ^ (zlen s - 1)) by (apply Z.pow_le_mono_r; lia). lia.
Qed.
Lemma octets x : 0 <= x < 4294967296 ->
  addr (x / 16777216 mod 256) (x / 65536 mod 256) (x / 256 mod 256) (x mod 256) = x /\
  0 <= x / 16777216 mod 256 < 256 /\ 0 <= x / 65536 mod 256 < 256 /\ 0 <= x / 256 mod 256 < 256 /\ 0 <= x mod 256 < 256.
Proof. intro R. unfold addr. repeat split; try (apply Z.mod_pos_bound; lia). Z.div_mod_to_equations. lia. Qed.
Lemma ntop_dotted x : 0 <= x < 4294967296 -> dotted (inet_ntop x) x.
Proof.
  intro R. destruct (octets x R) as (E & A & B & C & D). unfold inet_ntop.
  set (a := x / 16777216 mod 256) in *. set (b := x / 65536 mod 256) in *. set (c := x / 256 mod 256) in *. set (d := x mod 256) in *.
  exists (dec a), (dec b), (dec c), (dec d), a, b, c, d.
  split; [cbn [join]; reflexivity|].
  do 4 (split; [apply dec_writes; lia|]). repeat split; lia.
Qed.
Lemma dotted_unique s x : dotted s x -> s = inet_ntop x.
Proof.
  intros (sa & sb & sc & sd & a & b & c & d & -> & WA & WB & WC & WD & RA & RB & RC & RD & E). unfold inet_ntop, addr in *.
  assert (EA : x / 16777216 mod 256 = a) by (Z.div_mod_to_equations; lia).
  assert (EB : x / 65536 mod 256 = b) by (Z.div_mod_to_equations; lia).
  assert (EC : x / 256 mod 256 = c) by (Z.div_mod_to_equations; lia).
  assert (ED : x mod 256 = d) by (Z.div_mod_to_equations; lia).
  rewrite EA, EB, EC, ED. cbn [join].
  rewrite (writes_unique sa (dec a) a), (writes_unique sb (dec b) b), (writes_unique sc (dec c) c), (writes_unique sd (dec d) d);
    auto; try (apply dec_writes; lia).
Qed.

(** ** The fields of a context *)
Lemma shows_fields c m : shows (Live c) m ->
  c_user c = Some (s_user m) /\ c_time c = s_time m /\ c_version c = Some (s_version m) /\ c_type c = s_type m /\
  c_msg c = Some (s_msg m) /\ c_nat c = s_nat m /\ c_auth c = s_auth m /\ c_timeout c = s_timeout m.
Proof.
  unfold shows, reads, get, fetch, fko_get_rand_value, fko_get_username, fko_get_timestamp, fko_get_version,
    fko_get_spa_message_type, fko_get_spa_message, fko_get_spa_nat_access, fko_get_spa_server_auth, fko_get_spa_client_timeout, getter.
  intros (A1 & A2 & A3 & A4 & A5 & A6 & A7 & A8 & A9). cbn [option_map] in *.
  repeat split; congruence.
Qed.
Lemma ip_comma ip a b c d : ipv4_text ip a b c d -> ~ In ","%byte ip.
Proof.
  intros (A & B & C & D & -> & (_ & HA & _) & (_ & HB & _) & (_ & HC & _) & (_ & HD & _) & _).
  assert (Q : forall s, all_digits s -> ~ In ","%byte s).
  { intros s DS I. unfold all_digits in DS. rewrite Forall_forall in DS. apply DS in I. vm_compute in I. destruct I as [I _]. apply I. reflexivity. }
  rewrite !in_app_iff. cbn [In]. intros [I|[[I|[]]|[I|[[I|[]]|[I|[[I|[]]|I]]]]]]; try discriminate; revert I; apply Q; assumption.
Qed.
Lemma received_split m : received m -> exists ip rest, s_msg m = ip ++ [","%byte] ++ rest /\ (exists i, text_of_addr ip i) /\
  ~ In ","%byte ip /\ 7 <= zlen ip <= 15 /\ is_valid_ipv4_addr ip (zlen ip) = true /\ zlen rest <= 192 /\
  (s_type m <> 0 -> exists items, items <> [] /\ Forall proto_port items /\ rest = join [","%byte] items).
Proof.
  intro R. destruct (rc_msg m R) as (M & NN & L).
  assert (X : exists ip rest a b c d, s_msg m = ip ++ [","%byte] ++ rest /\ ipv4_text ip a b c d /\ zlen ip <= 15 /\
     (s_type m <> 0 -> exists items, items <> [] /\ Forall proto_port items /\ rest = join [","%byte] items)).
  { destruct (s_type m =? 0) eqn:T.
    - destruct M as (ip & cmd & a & b & c & d & E & I & LI & _). exists ip, cmd, a, b, c, d. repeat split; auto. intro. lia.
    - destruct M as (ip & items & a & b & c & d & E & NI & I & LI & F). exists ip, (join [","%byte] items), a, b, c, d.
      repeat split; auto; [|intros _; exists items; auto]. rewrite E. destruct items; [congruence|reflexivity]. }
  destruct X as (ip & rest & a & b & c & d & E & I & LI & IT). exists ip, rest.
  assert (L7 : 7 <= zlen ip).
  { destruct I as (A & B & C & D & -> & (NA & _) & (NB & _) & (NC & _) & (ND & _) & _). rewrite !zlen_app.
    change (zlen ["."%byte]) with 1. destruct A, B, C, D; try congruence. rewrite !zlen_cons.
    repeat match goal with |- context [zlen ?l] => lazymatch goal with Q : 0 <= zlen l |- _ => fail | _ => pose proof (zlen_nonneg l) end end. lia. }
  split; [exact E|]. split. { exists (addr a b c d), a, b, c, d. auto. } split; [eapply ip_comma; eauto|]. split; [lia|].
  split. { apply is_valid_ipv4_iff; [lia|]. split; [lia|]. rewrite ztake_all by lia. eauto. }
  split; [|exact IT]. rewrite E, !zlen_app in L. change (zlen [","%byte]) with 1 in L. lia.
Qed.

(** ** The checks *)
Lemma cut_at ip rest ip' rest' : ~ In ","%byte ip -> ~ In ","%byte ip' ->
  ip ++ [","%byte] ++ rest = ip' ++ [","%byte] ++ rest' -> ip = ip' /\ rest = rest'.
Proof.
  revert ip'. induction ip as [|x ip IH]; intros [|y ip'] N N' E; cbn in *.
  - injection E as E. auto.
  - injection E as E1 E2. subst y. tauto.
  - injection E as E1 E2. subst x. tauto.
  - injection E as E1 E2. subst y. destruct (IH ip') as [-> ->]; auto.
Qed.
Lemma strchr_cut ip rest : ~ In ","%byte ip -> strchr ","%byte (ip ++ [","%byte] ++ rest) = Some (","%byte :: rest).
Proof.
  induction ip as [|x ip IH]; intro N; cbn [app strchr].
  - rewrite beq_refl. reflexivity.
  - replace (beq x ","%byte) with false by (symmetry; apply beq_neq; intro Q; apply N; left; auto). apply IH. intro Q. apply N. right. auto.
Qed.
Lemma age_iff cf now t : check_pkt_age cf now t = true <-> fresh_wrapped cf now t.
Proof.
  unfold check_pkt_age, fresh_wrapped. rewrite <- yes_on. destruct (yes (cf_aging cf)).
  - rewrite negb_true_iff, Z.gtb_ltb, Z.ltb_ge. tauto.
  - split; auto. intros _ Q. discriminate.
Qed.
Lemma user_iff a u : check_username a u = true <-> (forall v, a_require_user a = Some v -> u = v).
Proof.
  unfold check_username. destruct (a_require_user a) as [v|].
  - rewrite bseq_eq. split; [intros -> w Q; congruence|auto].
  - split; auto. intros _ v Q. discriminate.
Qed.
Lemma type_iff cf t : check_nat_access_types cf t = true <-> type_allowed cf t.
Proof.
  unfold check_nat_access_types, type_allowed. rewrite <- !yes_on.
  destruct (Z.eqb_spec t 2), (Z.eqb_spec t 4), (Z.eqb_spec t 5), (Z.eqb_spec t 6); cbn [orb]; try lia; intuition lia.
Qed.
Lemma src_iff a src fwd ps use : check_src_access a src fwd ps = Some use <-> opened_for a src fwd ps use.
Proof.
  unfold check_src_access, opened_for. destruct (bseq src ($ "0.0.0.0")) eqn:E.
  - apply bseq_eq in E. subst src. destruct (a_require_src a).
    + split; [discriminate|]. intros [[Q _]|(_ & Q & _)]; [congruence|discriminate].
    + split.
      * intro Q. injection Q as <-. right. split; auto. split; auto. destruct fwd; [auto|left; split; [discriminate|auto]].
      * intros [[Q _]|(_ & _ & [[Q ->]|[-> ->]])]; [congruence| |reflexivity]. destruct fwd; [congruence|reflexivity].
  - apply bseq_neq in E. split; [intro Q; injection Q as <-; auto|intros [[_ ->]|[Q _]]; [auto|contradiction]].
Qed.
Lemma duration_iff a c t : duration a c t <-> t = set_timeout a c.
Proof.
  unfold duration, set_timeout, DEF_FW_ACCESS_TIMEOUT.
  destruct (c >? 0) eqn:E; rewrite Z.gtb_ltb in E; [apply Z.ltb_lt in E|apply Z.ltb_ge in E].
  - destruct (u32 (a_max_timeout a) <? c) eqn:L; [apply Z.ltb_lt in L|apply Z.ltb_ge in L]; lia.
  - destruct (a_fw_timeout a >? 0) eqn:F; rewrite Z.gtb_ltb in F; [apply Z.ltb_lt in F|apply Z.ltb_ge in F]; lia.
Qed.

Lemma checks_cases cf now p fwd a c m : shows (Live c) m -> received m -> packet_ok p ->
  exists src rest, s_msg m = src ++ [","%byte] ++ rest /\ (exists i, text_of_addr src i) /\ ~ In ","%byte src /\
  checks cf now (k_info p) fwd a c = Ok (if check_pkt_age cf now (s_time m) then
      match check_src_access a src fwd (inet_ntop (p_src (k_info p))) with
      | None => Refuse
      | Some use => if check_username a (s_user m) && check_nat_access_types cf (s_type m) then
          Pass (M_cycle.mkSpa (s_user m) (s_time m) (s_version m) (s_type m) (s_msg m) src (inet_ntop (p_src (k_info p))) fwd
                  (inet_ntop (p_dst (k_info p))) rest (s_nat m) (s_auth m) (s_timeout m) (set_timeout a (s_timeout m)) use)
          else Refuse
      end else Refuse).
Proof.
  intros SH R PO. destruct (received_split m R) as (ip & rest & E & TA & NC & LI & V & LR & _). exists ip, rest.
  split; [exact E|]. split; [exact TA|]. split; [exact NC|].
  destruct (shows_fields c m SH) as (F1 & F2 & F3 & F4 & F5 & F6 & F7 & F8).
  destruct (rc_timeout m R) as [TO _].
  unfold checks. rewrite F1, F2, F3, F4, F5, F6, F7, F8.
  destruct (check_pkt_age cf now (s_time m)); cbn [negb]; [|reflexivity].
  rewrite E, strchr_cut by auto.
  assert (D : zlen (ip ++ [","%byte] ++ rest) - zlen (","%byte :: rest) = zlen ip) by (rewrite !zlen_app, !zlen_cons; change (zlen (@nil byte)) with 0; lia).
  rewrite D. rewrite ztake_app by reflexivity. unfold MIN_IPV4_STR_LEN, MAX_IPV4_STR_LEN, MAX_DECRYPTED_SPA_LEN.
  replace (zlen ip <? 7 - 1) with false by (symmetry; apply Z.ltb_ge; lia).
  replace (zlen ip >? 16) with false by (symmetry; rewrite Z.gtb_ltb; apply Z.ltb_ge; lia).
  replace (zlen ip + 1 >? 16) with false by (symmetry; rewrite Z.gtb_ltb; apply Z.ltb_ge; lia).
  cbn [orb]. rewrite V. cbn [negb].
  change (zdrop 1 (","%byte :: rest)) with rest. rewrite ztake_all by lia.
  assert (U : u32 (s_timeout m) = s_timeout m) by (unfold u32; apply Z.mod_small; lia). rewrite U.
  destruct (check_src_access a ip fwd (inet_ntop (p_src (k_info p)))); [|reflexivity].
  destruct (check_username a (s_user m)); cbn [negb andb]; [|reflexivity].
  destruct (check_nat_access_types cf (s_type m)); reflexivity.
Qed.
Lemma check_iff cf now p fwd a c m d : shows (Live c) m -> received m -> packet_ok p ->
  (checks cf now (k_info p) fwd a c = Ok (Pass d) <-> passes cf now a m /\ asks a p fwd m d).
Proof.
  intros SH R PO. destruct (checks_cases cf now p fwd a c m SH R PO) as (src & rest & E & TA & NC & ->).
  unfold passes. rewrite <- age_iff, <- user_iff, <- type_iff.
  assert (UN : forall src' rest', s_msg m = src' ++ [","%byte] ++ rest' -> (exists i, text_of_addr src' i) -> src' = src /\ rest' = rest).
  { intros src' rest' E' (i & x & y & z & w & T & _). apply cut_at; [eapply ip_comma; eauto|auto|congruence]. }
  split.
  - destruct (check_pkt_age cf now (s_time m)) eqn:CA; [|discriminate].
    destruct (check_src_access a src fwd (inet_ntop (p_src (k_info p)))) as [use|] eqn:CS; [|discriminate].
    destruct (check_username a (s_user m) && check_nat_access_types cf (s_type m)) eqn:CU; [|discriminate].
    intro K. injection K as <-. apply andb_true_iff in CU as [CU CT]. split; [auto|].
    apply src_iff in CS. split; cbn [d_user d_time d_version d_type d_msg d_src d_pkt_src d_xff d_pkt_dst d_remain d_nat d_auth d_client_timeout d_timeout d_use]; auto.
    + apply ntop_dotted, PO.
    + apply ntop_dotted, PO.
    + apply duration_iff. reflexivity.
  - intros ((CA & CU & CT) & AS). rewrite CA, CU, CT. destruct AS as [A1 A2 A3 A4 A5 [A6 A6'] A7 A8 A9 A10 A11 A12 A13 A14].
    destruct (UN _ _ A6 A6') as [Q1 Q2]. apply dotted_unique in A7. apply dotted_unique in A8. apply duration_iff in A13. apply src_iff in A14.
    rewrite A7, Q1 in A14. rewrite A14. cbn [andb]. destruct d as [x1 x2 x3 x4 x5 x6 x7 x8 x9 x10 x11 x12 x13 x14 x15]; cbn [d_user d_time d_version d_type d_msg d_src d_pkt_src d_xff d_pkt_dst d_remain d_nat d_auth d_client_timeout d_timeout d_use] in *. subst. reflexivity.
Qed.
Lemma check_refuse cf now p fwd a c m : shows (Live c) m -> received m -> packet_ok p ->
  (checks cf now (k_info p) fwd a c = Ok Refuse /\ (forall d, ~ (passes cf now a m /\ asks a p fwd m d))) \/
  exists d, checks cf now (k_info p) fwd a c = Ok (Pass d) /\ passes cf now a m /\ asks a p fwd m d.
Proof.
  intros SH R PO. assert (C : checks cf now (k_info p) fwd a c = Ok Refuse \/ exists d, checks cf now (k_info p) fwd a c = Ok (Pass d)).
  { destruct (checks_cases cf now p fwd a c m SH R PO) as (src & rest & E & TA & NC & ->).
    destruct (check_pkt_age cf now (s_time m)); [|auto].
    destruct (check_src_access a src fwd (inet_ntop (p_src (k_info p)))); [|auto].
    destruct (check_username a (s_user m) && check_nat_access_types cf (s_type m)); eauto. }
  destruct C as [C|[d C]].
  - left. split; auto. intros d Q. apply (check_iff cf now p fwd a c m d SH R PO) in Q. congruence.
  - right. exists d. split; auto. apply (check_iff cf now p fwd a c m d SH R PO). auto.
Qed.

(** ** Actions *)
Lemma root_iff u : is_root u = true <-> rootish u.
Proof.
  unfold is_root, rootish. rewrite bseq_eq. split.
  - intro E. exists (ztake 4 u), (zdrop 4 u). rewrite ztake_zdrop, lower_tolower. auto.
  - intros (q & r & -> & L). assert (Q : zlen q = 4).
    { pose proof (f_equal zlen L) as K. rewrite lower_tolower in K. unfold zlen in *. rewrite map_length in K. exact K. }
    rewrite (ztake_app 4 q r) by lia. rewrite <- lower_tolower. exact L.
Qed.
Lemma cat_cat x s t : cat1400 (cat1400 x s) t = cat1400 x (s ++ t).
Proof.
  unfold cat1400, ztake. change (Z.to_nat (MAX_SPA_CMD_LEN - 1)) with (Z.to_nat 1399). generalize (Z.to_nat 1399). intro n.
  rewrite app_assoc. rewrite (firstn_app n (x ++ s) t), (firstn_app n (firstn n (x ++ s)) t), firstn_firstn, Nat.min_id, firstn_length.
  f_equal. destruct (Nat.le_ge_cases n (length (x ++ s))) as [L|L].
  - rewrite Nat.min_l by lia. replace (n - length (x ++ s))%nat with 0%nat by lia. rewrite Nat.sub_diag. reflexivity.
  - rewrite Nat.min_r by lia. reflexivity.
Qed.
Lemma sudo_part_fun fl n t t' : sudo_part fl n t -> sudo_part fl n t' -> t = t'.
Proof. unfold sudo_part. destruct n; [intros [[? ->]|[? ->]] [[? ->]|[? ->]]; tauto|congruence]. Qed.
Lemma command_line_fun cf a x c c' : command_line cf a x c -> command_line cf a x c' -> c = c'.
Proof.
  unfold command_line. intros [[S1 ->]|[S1 (u & g & U & GG & ->)]] [[S2 ->]|[S2 (u' & g' & U' & GG' & ->)]]; try congruence.
  rewrite (sudo_part_fun _ _ _ _ U U'). f_equal. f_equal. f_equal. f_equal.
  destruct GG as [[A ->]|(A & B & C)], GG' as [[A' ->]|(A' & B' & C')]; try congruence. eapply sudo_part_fun; eauto.
Qed.
Lemma runs_as_fun a w w' : runs_as a w -> runs_as a w' -> w = w'.
Proof.
  unfold runs_as. intros [(u & A & B & ->)|[A ->]] [(u' & A' & B' & ->)|[A' ->]]; auto.
  - exfalso. apply B. auto.
  - exfalso. apply B'. auto.
Qed.
Lemma may_fun cf a k m d e e' : may cf a k m d e -> may cf a k m d e' -> e = e'.
Proof.
  destruct e, e'; cbn [may]; intros M M'; repeat match goal with Q : _ /\ _ |- _ => destruct Q | Q : exists _, _ |- _ => destruct Q end; subst; try congruence.
  - f_equal; [eapply command_line_fun; eauto|eapply runs_as_fun; eauto].
Qed.
Lemma cmd_line_model cf a k d e : zlen (d_remain d) <= 1399 -> a_cmd a = true -> cf_test cf = false ->
  (process_cmd_msg cf a k d = Ok (Some e) <->
   exists cmd who, e = Command k cmd who /\ command_line cf a (d_remain d) cmd /\ runs_as a who).
Proof.
  intros L C T. unfold process_cmd_msg. rewrite C, T. cbn [negb].
  assert (W : runs_as a (match a_cmd_user a with Some u => if is_root u then None else Some (a_uid a, a_gid a) | None => None end)).
  { unfold runs_as. destruct (a_cmd_user a) as [u|]; [|right; split; [congruence|auto]].
    destruct (is_root u) eqn:R.
    - right. split; auto. intros v Q. injection Q as <-. apply root_iff; auto.
    - left. exists u. split; auto. split; auto. intro Q. apply root_iff in Q. congruence. }
  assert (SP : forall fl n b, sudo_part fl n (match n with Some u => if is_root u then [] else fl ++ u | None => [] end) /\
      (match n with Some u => if is_root u then cat1400 [] b else cat1400 (cat1400 (cat1400 [] b) fl) u | None => cat1400 [] b end) =
      cat1400 [] (b ++ match n with Some u => if is_root u then [] else fl ++ u | None => [] end)).
  { intros fl n b. unfold sudo_part. destruct n as [u|]; [|rewrite app_nil_r; auto].
    destruct (is_root u) eqn:R.
    - rewrite app_nil_r. split; auto. left. split; auto. apply root_iff; auto.
    - rewrite !cat_cat, !app_assoc. split; auto. right. split; auto. intro Q. apply root_iff in Q. congruence. }
  destruct (a_sudo a) eqn:S1.
  - destruct (SP ($ " -u ") (a_sudo_user a) (cf_sudo_exe cf)) as [SU SE].
    rewrite SE. clear SE. set (u := match a_sudo_user a with Some u => if is_root u then [] else $ " -u " ++ u | None => [] end) in *.
    destruct (a_cmd_group a) as [cg|] eqn:CG.
    + destruct (a_sudo_group a) as [g|] eqn:SG.
      * destruct (SP ($ " -g ") (Some g) (cf_sudo_exe cf ++ u)) as [SU2 SE2]. cbn iota in SE2.
        assert (X : (if is_root g then Ok (cat1400 [] (cf_sudo_exe cf ++ u)) else Ok (cat1400 (cat1400 (cat1400 [] (cf_sudo_exe cf ++ u)) ($ " -g ")) g)) =
                    Ok (cat1400 [] ((cf_sudo_exe cf ++ u) ++ (if is_root g then [] else $ " -g " ++ g)))).
        { rewrite <- SE2. destruct (is_root g); reflexivity. }
        rewrite X. clear X. rewrite !cat_cat.
        assert (CL : command_line cf a (d_remain d) (cat1400 [] ((cf_sudo_exe cf ++ u) ++ (if is_root g then [] else $ " -g " ++ g) ++ $ " " ++ d_remain d))).
        { right. split; auto. exists u, (if is_root g then [] else $ " -g " ++ g). split; auto.
          split; [right; rewrite CG, SG; repeat split; congruence||auto|]. unfold cat1400. rewrite !app_assoc. reflexivity. }
        rewrite !app_assoc in *. split.
        -- intro Q. injection Q as <-. eauto.
        -- intros (cmd & who & -> & C1 & C2). rewrite (command_line_fun _ _ _ _ _ CL C1), (runs_as_fun _ _ _ W C2). reflexivity.
      * split; [discriminate|]. intros (cmd & who & _ & [[Q _]|[_ (? & ? & _ & [[Q _]|(_ & Q & _)] & _)]] & _); congruence.
    + rewrite !cat_cat.
      assert (CL : command_line cf a (d_remain d) (cat1400 [] ((cf_sudo_exe cf ++ u) ++ $ " " ++ d_remain d))).
      { right. split; auto. exists u, []. split; auto. split; [auto|]. unfold cat1400. rewrite !app_assoc, app_nil_r. reflexivity. }
      rewrite !app_assoc in *. split.
      * intro Q. injection Q as <-. eauto.
      * intros (cmd & who & -> & C1 & C2). rewrite (command_line_fun _ _ _ _ _ CL C1), (runs_as_fun _ _ _ W C2). reflexivity.
  - assert (CL : command_line cf a (d_remain d) (cat1400 [] (d_remain d))).
    { left. split; auto. unfold cat1400. cbn [app]. apply ztake_all. unfold MAX_SPA_CMD_LEN. lia. }
    split.
    + intro Q. injection Q as <-. eauto.
    + intros (cmd & who & -> & C1 & C2). rewrite (command_line_fun _ _ _ _ _ CL C1), (runs_as_fun _ _ _ W C2). reflexivity.
Qed.
