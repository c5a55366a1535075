(** Proofs about the reading of access.conf: users, expiry, NAT. *)
From Verif Require Import Bytes M_base64 M_util M_message M_codec M_access M_replay M_cycle M_incoming M_conf M_accfile
  S_text S_base64 S_conf S_accfile P_bytes P_base64 P_util P_util2 P_access P_replay P_conf P_accfile P_accfile2 P_accfile3.
From Coq Require Import Init.Byte List ZArith Bool Lia.
Import ListNotations.
Open Scope Z_scope.

Local Ltac ands := repeat match goal with |- _ /\ _ => split end.

(** ** The account looked up last *)
Definition touch_pw (y : system) (n v : bytes) : option (Z * Z) :=
  if is n ($ "CMD_SUDO_EXEC_USER") || is n ($ "CMD_SUDO_EXEC_GROUP") || is n ($ "CMD_EXEC_USER") || is n ($ "CMD_EXEC_GROUP") then y_pw y v else None.
Definition touch_user (n : bytes) : option bool := if is n ($ "CMD_EXEC_USER") then Some true else None.
Definition touch_sudo (n : bytes) : option bool := if is n ($ "CMD_SUDO_EXEC_USER") then Some true else None.

Ltac opens E := cbv beta delta [a_str a_bool a_key a_key_base64 a_hmac_type a_hmac_key_base64 a_hmac_key a_number a_mode a_cycle_open
    a_gpg_home a_gpg_pw a_allow_no_pw a_expire a_expire_epoch a_force_nat a_force_snat a_masquerade on_acc] in E; cbv zeta in E;
  repeat match type of E with (match ?x with _ => _ end) = Done _ => destruct x; try discriminate E end;
  inversion E; subst; ands; reflexivity.
Lemma set_param_pw y n v w w' : set_param params y n v w = Done w' ->
  w_pw w' = upd (touch_pw y n v) (w_pw w) /\ w_user w' = upd (touch_user n) (w_user w) /\ w_sudo w' = upd (touch_sudo n) (w_sudo w).
Proof.
  unfold set_param. destruct (find_param params n) as [a|] eqn:F.
  - apply find_param_In in F. unfold params in F. cbn [In] in F. intros E.
    repeat (destruct F as [F|F]; [injection F; clear F; intros <- <-; first [opens E|
      unfold a_user, a_group in E; destruct (y_pw y v) as [[u g]|] eqn:P; [|discriminate]; inversion E; subst; cbn [w_pw w_user w_sudo negb];
      rewrite ?orb_true_r, ?orb_false_r; unfold touch_pw; cbv iota; rewrite P; ands; reflexivity]|]).
    contradiction.
  - intros E; inversion E; subst.
    assert (X : forall p, In p lookups -> is n p = false).
    { intros p I. unfold is. destruct (bseq n p) eqn:Q; [|reflexivity]. apply bseq_eq in Q. subst p.
      unfold lookups in I. cbn [In] in I. repeat (destruct I as [<-|I]; [vm_compute in F; discriminate|]). contradiction. }
    unfold touch_pw, touch_user, touch_sudo. rewrite !X by (unfold lookups; cbn [In]; tauto). ands; reflexivity.
Qed.

Lemma is_not n p ps : In p ps -> ~ In n ps -> is n p = false.
Proof. intros I N. unfold is. destruct (bseq n p) eqn:Q; [|reflexivity]. apply bseq_eq in Q. congruence. Qed.

Lemma sp_sudo_user y v w : set_param params y ($ "CMD_SUDO_EXEC_USER") v w = a_user true s_sudo_user i_sudo_uid y v w.
Proof. reflexivity. Qed.
Lemma sp_sudo_group y v w : set_param params y ($ "CMD_SUDO_EXEC_GROUP") v w = a_group s_sudo_group i_sudo_gid y v w.
Proof. reflexivity. Qed.
Lemma sp_user y v w : set_param params y ($ "CMD_EXEC_USER") v w = a_user false s_user i_uid y v w.
Proof. reflexivity. Qed.
Lemma sp_group y v w : set_param params y ($ "CMD_EXEC_GROUP") v w = a_group s_group i_gid y v w.
Proof. reflexivity. Qed.
Lemma sp_expire y v w : set_param params y ($ "ACCESS_EXPIRE") v w = a_expire y v w.
Proof. reflexivity. Qed.
Lemma sp_epoch y v w : set_param params y ($ "ACCESS_EXPIRE_EPOCH") v w = a_expire_epoch y v w.
Proof. reflexivity. Qed.
Lemma sp_nat y v w : set_param params y ($ "FORCE_NAT") v w = a_force_nat y v w.
Proof. reflexivity. Qed.
Lemma sp_snat y v w : set_param params y ($ "FORCE_SNAT") v w = a_force_snat y v w.
Proof. reflexivity. Qed.

Lemma raw_pw y src b w v : raw y src b w -> latest b lookups ($ "CMD_EXEC_USER") v -> y_pw y v = Some (w_pw w).
Proof.
  intros (pw & u & sd & E) L.
  assert (D : decided b lookups (fun p v x => y_pw y v = Some x) pw (w_pw w)).
  { refine (block_decided w_pw (touch_pw y) y lookups (fun p v x => y_pw y v = Some x) pw b _ w (fun n v w w' H => proj1 (set_param_pw y n v w w' H)) _ _ _ E).
    - intros n x N. unfold touch_pw. rewrite !(is_not n _ lookups) by (auto; unfold lookups; cbn [In]; tauto). reflexivity.
    - intros n x w0 w1 I S. unfold lookups in I. cbn [In] in I.
      assert (T : touch_pw y n x = y_pw y x).
      { repeat (destruct I as [<-|I]; [reflexivity|]). contradiction. }
      rewrite T. destruct (y_pw y x) as [z|] eqn:P; [exists z; auto|]. exfalso.
      repeat (destruct I as [<-|I]; [rewrite ?sp_sudo_user, ?sp_sudo_group, ?sp_user, ?sp_group in S; unfold a_user, a_group in S; rewrite P in S; discriminate S|]). contradiction.
    - reflexivity. }
  apply (proj1 D) in L. exact L.
Qed.
Lemma raw_user y src b w v : raw y src b w -> latest b lookups ($ "CMD_EXEC_USER") v -> w_user w = true.
Proof.
  intros (pw & u & sd & E) (b1 & b2 & -> & _ & _).
  destruct (block_last w_user (fun n _ => touch_user n) y (fun n v w w' H => proj1 (proj2 (set_param_pw y n v w w' H))) _ _ _ E)
    as [(c1 & n & x & c2 & z & EQ & T & N & G)|[N G]].
  - rewrite G. unfold touch_user in T. destruct (is n _); [inversion T; reflexivity|discriminate].
  - specialize (N ($ "CMD_EXEC_USER") v). rewrite in_app_iff in N. specialize (N (or_intror (or_introl eq_refl))). discriminate N.
Qed.
Lemma raw_uid y src b w v u g : raw y src b w -> latest b lookups ($ "CMD_EXEC_USER") v -> y_pw y v = Some (u, g) ->
  ints (w_acc w) i_uid = u.
Proof.
  intros (pw & us & sd & E) L P.
  assert (D : decided b [$ "CMD_EXEC_USER"] (fun _ v x => forall u g, y_pw y v = Some (u, g) -> x = u) 0 (ints (w_acc w) i_uid)).
  { refine (block_decided (fun w => ints (w_acc w) i_uid) (fun n v => touch_i y i_uid n v) y _ (fun _ v x => forall u g, y_pw y v = Some (u, g) -> x = u) 0 b _ w
          (fun n v w w' => eff_i y i_uid n v w w') _ _ _ E).
    - intros n x N. cbn [touch_i]. rewrite (is_not n ($ "CMD_EXEC_USER") [$ "CMD_EXEC_USER"] ltac:(left; reflexivity) N). reflexivity.
    - intros n x w0 w1 [<-|[]] S. rewrite sp_user in S. unfold a_user in S. cbn [touch_i].
      change (is ($ "CMD_EXEC_USER") ($ "CMD_EXEC_USER")) with true. cbv iota.
      destruct (y_pw y x) as [[u0 g0]|]; [|discriminate]. exists u0. split; [reflexivity|]. intros u1 g1 Q; inversion Q; reflexivity.
    - reflexivity. }
  destruct L as (b1 & b2 & EB & I & N). eapply (proj1 D); [|exact P]. exists b1, b2. ands; eauto.
  - left. reflexivity.
  - intros q x J [<-|[]]. apply (N _ _ J). exact I.
Qed.
Lemma raw_gid y src b w : raw y src b w -> absent b [$ "CMD_EXEC_GROUP"] -> ints (w_acc w) i_gid = 0.
Proof.
  intros (pw & us & sd & E) A.
  destruct (block_last (fun w => ints (w_acc w) i_gid) (fun n v => touch_i y i_gid n v) y (fun n v w w' => eff_i y i_gid n v w w') _ _ _ E)
    as [(c1 & n & x & c2 & z & EQ & T & N & G)|[N G]].
  - cbn [touch_i] in T. rewrite (is_not n ($ "CMD_EXEC_GROUP") [$ "CMD_EXEC_GROUP"]) in T; [discriminate|left; reflexivity|].
    apply (A n x). rewrite EQ. apply in_or_app. right. left. reflexivity.
  - exact G.
Qed.

Lemma check_cycle_ids a a' : check_cycle a = Some a' -> ints a' i_uid = ints a i_uid /\ ints a' i_gid = ints a i_gid.
Proof.
  unfold check_cycle. destruct (strs a s_cycle_open), (strs a s_cycle_close); try discriminate; [|intros E; inversion E; auto].
  cbv zeta. destruct (is_prefix _ _); destruct (_ && _); try discriminate; destruct (_ || _); try discriminate; intros E; inversion E; subst; auto.
Qed.
Lemma check_nat_ids a a' : check_nat a = Some a' -> ints a' i_uid = ints a i_uid /\ ints a' i_gid = ints a i_gid.
Proof.
  unfold check_nat. destruct (_ && _); [|intros E; inversion E; auto]. destruct (_ =? _); [|discriminate]. intros E.
  assert (X : acc_force_nat ($ "0.0.0.0 0") a = Some (set_s s_nat_ip (Some ($ "0.0.0.0")) (set_i i_nat 1 (set_i i_nat_port 0 a)))) by reflexivity.
  rewrite X in E. inversion E; subst. auto.
Qed.
Lemma legacy_ids a : ints (legacy_key a) i_uid = ints a i_uid /\ ints (legacy_key a) i_gid = ints a i_gid.
Proof. unfold legacy_key. destruct (_ && _); auto. Qed.

Lemma final_ids y src b a v u g : final y src b a -> latest b lookups ($ "CMD_EXEC_USER") v -> absent b [$ "CMD_EXEC_GROUP"] ->
  y_pw y v = Some (u, g) -> u <> 0 -> ints a i_uid = u /\ ints a i_gid = g.
Proof.
  intros (w & a1 & fw & a2 & R & V & E & D) L A P NZ.
  destruct (expand_spec _ _ E) as [_ XI]. destruct (defaults_spec _ _ _ D) as ([_ DI] & _). rewrite XI in DI.
  rewrite (DI i_uid), (DI i_gid) by (cbn; intuition congruence).
  destruct (valid_stages _ _ _ _ _ _ V) as (n & _ & _ & CN & CC & _).
  apply check_cycle_ids in CC. destruct CC as [-> ->]. apply check_nat_ids in CN. destruct (legacy_ids (w_acc w)) as [L1 L2]. rewrite L1, L2 in CN.
  pose proof (raw_uid _ _ _ _ _ _ _ R L P) as U. pose proof (raw_gid _ _ _ _ R A) as G. pose proof (raw_user _ _ _ _ _ R L) as US.
  pose proof (raw_pw _ _ _ _ _ R L) as PW. rewrite P in PW. injection PW; intros PW'. rewrite <- PW', US. rewrite U, G in CN. destruct CN as [CN1 CN2].
  unfold fill_gids. cbv zeta. rewrite CN1, CN2. cbn [andb Z.eqb]. rewrite (proj2 (Z.eqb_neq u 0) NZ). cbn [negb andb snd].
  destruct (_ && _ && _); cbn [ints set_i ifield_beq]; auto.
Qed.

(** ** Expiry *)
Lemma take_digits_n_spec d : forall n t, all_digits d -> (length d <= n)%nat -> (length d = n \/ t = [] \/ isdigit (hd x00 t) = false) ->
  take_digits_n n (d ++ t) = (d, t).
Proof.
  induction d as [|c d IH]; intros n t A L H.
  - destruct n as [|n]; [destruct t; reflexivity|]. destruct H as [H|[->|H]]; [discriminate|reflexivity|].
    destruct t as [|c t]; [reflexivity|]. cbn [hd] in H. cbn. rewrite H. reflexivity.
  - destruct n as [|n]; [cbn in L; lia|]. inversion A as [|? ? D1 D2]; subst. cbn. rewrite (proj2 (isdigit_digit c)) by auto.
    rewrite IH; auto; [cbn in L; lia|]. cbn in H. intuition.
Qed.
Lemma scan_num_n_spec n d t : all_digits d -> d <> [] -> (length d <= n)%nat -> (length d = n \/ t = [] \/ isdigit (hd x00 t) = false) ->
  scan_num_n n (d ++ t) = Some (decimal d, t).
Proof.
  intros A NE L H. unfold scan_num_n. destruct d as [|c d]; [congruence|]. inversion A as [|? ? D1 D2]; subst.
  assert (DC : isdigit c = true) by (apply isdigit_digit; auto).
  assert (SK : skip_space ((c :: d) ++ t) = (c :: d) ++ t). { cbn. rewrite (isdigit_not_space c DC). reflexivity. }
  cbv zeta. rewrite SK. destruct (isdigit_not_sign c DC) as [S1 S2]. cbn [app]. rewrite S1, S2.
  change (c :: d ++ t) with ((c :: d) ++ t). rewrite take_digits_n_spec by auto. rewrite digits_val_decimal by auto. reflexivity.
Qed.

Lemma raw_expire y src b w : raw y src b w ->
  decided b [$ "ACCESS_EXPIRE"; $ "ACCESS_EXPIRE_EPOCH"] (expiry y) 0 (ints (w_acc w) i_expire).
Proof.
  intros (pw & u & sd & E).
  refine (block_decided (fun w => ints (w_acc w) i_expire) (fun n v => touch_i y i_expire n v) y _ (expiry y) 0 b _ w
          (fun n v w w' => eff_i y i_expire n v w w') _ _ _ E).
  - intros n v N. cbn [touch_i]. rewrite (is_not n ($ "ACCESS_EXPIRE") [$ "ACCESS_EXPIRE"; $ "ACCESS_EXPIRE_EPOCH"] ltac:(left; reflexivity) N).
    rewrite (is_not n ($ "ACCESS_EXPIRE_EPOCH") [$ "ACCESS_EXPIRE"; $ "ACCESS_EXPIRE_EPOCH"] ltac:(right; left; reflexivity) N). reflexivity.
  - intros n v w0 w1 [<-|[<-|[]]] S; [rewrite sp_expire in S; unfold a_expire in S|rewrite sp_epoch in S; unfold a_expire_epoch in S].
    + change (touch_i y i_expire ($ "ACCESS_EXPIRE") v) with (acc_expire_time y v).
      destruct (acc_expire_time y v) as [t|] eqn:X; [|discriminate]. exists t. split; [reflexivity|]. split; [|discriminate].
      intros _ m d yr (a & b0 & c & -> & ZA & ZB & ZC & DA & DB & DC & -> & -> & ->) M1 Y1.
      unfold acc_expire_time, scan_date in X.
      assert (LA : length a = 2%nat) by (unfold zlen in ZA; lia). assert (LB : length b0 = 2%nat) by (unfold zlen in ZB; lia).
      assert (LC : length c = 4%nat) by (unfold zlen in ZC; lia).
      rewrite scan_num_n_spec in X; [|auto|destruct a; [discriminate|discriminate]|lia|auto].
      cbn [obind scan_char] in X. rewrite beq_refl in X. cbn [obind] in X.
      rewrite scan_num_n_spec in X; [|auto|destruct b0; discriminate|lia|auto].
      cbn [obind scan_char] in X. rewrite beq_refl in X. cbn [obind] in X.
      rewrite <- (app_nil_r c) in X at 1. rewrite scan_num_n_spec in X; [|auto|destruct c; discriminate|lia|auto].
      cbn [obind] in X. replace (0 <? decimal a) with true in X by lia. replace (1900 <? decimal c) with true in X by lia.
      injection X. auto.
    + change (touch_i y i_expire ($ "ACCESS_EXPIRE_EPOCH") v) with (acc_expire_epoch v).
      destruct (acc_expire_epoch v) as [t|] eqn:X; [|discriminate]. exists t. split; [reflexivity|]. split; [discriminate|].
      intros _ A NE B. unfold acc_expire_epoch, strtoul10 in X. destruct v as [|c v]; [congruence|].
      inversion A as [|? ? D1 D2]; subst. assert (DC : isdigit c = true) by (apply isdigit_digit; auto).
      assert (SK : skip_space (c :: v) = c :: v) by (cbn; now rewrite (isdigit_not_space c DC)).
      destruct (isdigit_not_sign c DC) as [S1 S2]. cbv zeta in X. rewrite SK, S1, S2 in X. rewrite digits_val_decimal in X by auto.
      pose proof (decimal_bound _ A) as [P0 _]. remember (decimal (c :: v)) as z.
      replace (18446744073709551615 <? z) with false in X by lia. cbn [obind] in X. injection X; intros <-.
      unfold i64. clear - P0 B. cbn. lia.
  - reflexivity.
Qed.
Lemma final_expire y src b a : final y src b a -> decided b [$ "ACCESS_EXPIRE"; $ "ACCESS_EXPIRE_EPOCH"] (expiry y) 0 (ints a i_expire).
Proof.
  intros (w & a1 & fw & a2 & R & V & E & D).
  destruct (expand_spec _ _ E) as [_ XI]. destruct (defaults_spec _ _ _ D) as ([_ DI] & _). rewrite XI in DI.
  destruct (valid_sb _ _ _ _ _ _ V) as [[_ VI] _].
  rewrite (DI i_expire), VI by (cbn; intuition congruence). eapply raw_expire; eauto.
Qed.

(** ** NAT *)
Lemma ipv4_words s a b c d : ipv4_text s a b c d -> Forall word_char s /\ s <> [].
Proof.
  intros (A & B & C & D & -> & (NA & DA & _) & (_ & DB & _) & (_ & DC & _) & (_ & DD & _) & _).
  assert (W : forall z, all_digits z -> Forall word_char z).
  { intros z F. eapply Forall_impl; [|exact F]. apply digit_word. }
  assert (P : word_char "."%byte) by (split; [reflexivity|discriminate]).
  split; [|destruct A; [congruence|discriminate]].
  repeat (apply Forall_app; split); auto.
Qed.

Lemma scan_num_blanks n sp s : Forall blank sp -> ~ blank (hd x00 s) -> scan_num_n n (sp ++ s) = scan_num_n n s.
Proof.
  intros F H. unfold scan_num_n. rewrite skip_space_spec by auto.
  assert (X : skip_space s = s) by (apply (skip_space_spec [] s); auto). rewrite X. reflexivity.
Qed.

Lemma nat_scans v ip port : nat_text v ip port -> exists r t, scan_word 15 v = Some (ip, r) /\ scan_num_n 5 r = Some (port, t) /\ 0 <= port.
Proof.
  intros (sp & ds & -> & (a & b & c & d & IP) & LI & NS & BS & LD & DD & ->). destruct (ipv4_words _ _ _ _ _ IP) as [W NE].
  exists (sp ++ ds), []. assert (N : ds <> []) by (intros ->; change (zlen (@nil byte)) with 0 in LD; lia).
  split; [|split].
  - apply scan_word_spec; auto; [unfold zlen in LI; lia|]. right. destruct sp as [|x sp]; [congruence|]. cbn. inversion BS; subst. apply isspace_blank; auto.
  - rewrite scan_num_blanks; auto.
    + rewrite <- (app_nil_r ds) at 1. apply scan_num_n_spec; auto. unfold zlen in LD; lia.
    + destruct ds as [|x ds]; [congruence|]. inversion DD; subst. cbn. apply isspace_not_blank. apply isdigit_not_space, isdigit_digit. auto.
  - apply decimal_bound; auto.
Qed.

Lemma final_nat y src b a v ip port : final y src b a -> latest b [$ "FORCE_NAT"] ($ "FORCE_NAT") v -> nat_text v ip port ->
  ints a i_nat = 1 /\ strs a s_nat_ip = Some ip /\ ints a i_nat_port = port /\ port <= 65535.
Proof.
  intros (w & a1 & fw & a2 & R & V & E & D) L T.
  destruct (nat_scans _ _ _ T) as (r & t & S1 & S2 & P0).
  assert (RAW : ints (w_acc w) i_nat = 1 /\ strs (w_acc w) s_nat_ip = Some ip /\ ints (w_acc w) i_nat_port = port /\ port <= 65535).
  { destruct R as (pw & u & sd & B).
    assert (X : forall x w0 w1, set_param params y ($ "FORCE_NAT") x w0 = Done w1 ->
       exists i r p q, scan_word 15 x = Some (i, r) /\ scan_num_n 5 r = Some (p, q) /\ u32 p <= 65535).
    { intros x w0 w1 S. rewrite sp_nat in S. unfold a_force_nat in S. destruct (negb (nat_enabled y)); [discriminate|].
      destruct (acc_force_nat x (w_acc w0)) as [z|] eqn:F; [|discriminate]. unfold acc_force_nat in F.
      destruct (scan_word 15 x) as [[i r0]|]; [|discriminate]. cbn [obind] in F. destruct (scan_num_n 5 r0) as [[p q]|] eqn:Q; [|discriminate].
      cbn [obind] in F. cbv zeta in F. destruct (65535 <? u32 p) eqn:G; [discriminate|]. exists i, r0, p, q. ands; auto. lia. }
    assert (NI : forall n (v0 : bytes), ~ In n [$ "FORCE_NAT"] -> is n ($ "FORCE_NAT") = false).
    { intros n _ N. apply (is_not n _ [$ "FORCE_NAT"]); [left; reflexivity|exact N]. }
    assert (U : forall p, port = p -> u32 p <= 65535 -> u32 p = port).
    { intros p -> H. unfold u32 in *. assert (0 <= p < 100000 \/ 100000 <= p) by lia.
      destruct H0; [apply Z.mod_small; lia|].
      destruct T as (sp & ds & _ & _ & _ & _ & _ & LD & DD & ->). pose proof (decimal_bound _ DD) as [_ BB].
      assert (10 ^ zlen ds <= 10 ^ 5) by (apply Z.pow_le_mono_r; lia). apply Z.mod_small. change (2^32) with 4294967296. lia. }
    assert (PB : u32 port <= 65535).
    { destruct L as (b1 & b2 & EB & _ & _). rewrite EB in B. clear - B X S1 S2. revert B. generalize (mkWork (set_s s_source (Some src) new_acc) pw u sd) as w0.
      induction b1 as [|[n x] b1 IH]; intros w0 B; cbn [app block_run] in B.
      - destruct (set_param params y ($ "FORCE_NAT") v w0) as [w1| | | |] eqn:S; try discriminate.
        destruct (X _ _ _ S) as (i & r0 & p & q & Q1 & Q2 & Q3). congruence.
      - destruct (set_param params y n x w0); try discriminate. cbn [rbind] in B. eauto. }
    assert (UP : u32 port = port) by (apply U; auto).
    ands.
    - assert (DD : decided b [$ "FORCE_NAT"] (fun _ v x => x = 1) 0 (ints (w_acc w) i_nat)).
      { refine (block_decided (fun w => ints (w_acc w) i_nat) (fun n v => touch_i y i_nat n v) y _ (fun _ v x => x = 1) 0 b _ w
          (fun n v w w' => eff_i y i_nat n v w w') _ _ _ B).
        - intros n x N. cbn [touch_i]. rewrite (NI n x N). reflexivity.
        - intros n x w0 w1 [<-|[]] _. exists 1. split; reflexivity.
        - reflexivity. }
      eapply (proj1 DD). exact L.
    - assert (DD : decided b [$ "FORCE_NAT"] (fun _ v x => x = match scan_word 15 v with Some (i, _) => Some i | None => None end) None (strs (w_acc w) s_nat_ip)).
      { refine (block_decided (fun w => strs (w_acc w) s_nat_ip) (fun n v => touch_s s_nat_ip n v) y _ _ None b _ w
          (fun n v w w' => eff_s y s_nat_ip n v w w') _ _ _ B).
        - intros n x N. cbn [touch_s]. rewrite (NI n x N). reflexivity.
        - intros n x w0 w1 [<-|[]] S. destruct (X _ _ _ S) as (i & r0 & p & q & Q1 & Q2 & Q3). exists (Some i). cbn [touch_s].
          change (is ($ "FORCE_NAT") ($ "FORCE_NAT")) with true. cbv iota. rewrite Q1. auto.
        - reflexivity. }
      rewrite (proj1 DD _ _ L), S1. reflexivity.
    - assert (DD : decided b [$ "FORCE_NAT"] (fun _ v x => x = match scan_word 15 v with Some (_, r) => match scan_num_n 5 r with Some (p, _) => u32 p | None => 0 end | None => 0 end) 0 (ints (w_acc w) i_nat_port)).
      { refine (block_decided (fun w => ints (w_acc w) i_nat_port) (fun n v => touch_i y i_nat_port n v) y _ _ 0 b _ w
          (fun n v w w' => eff_i y i_nat_port n v w w') _ _ _ B).
        - intros n x N. cbn [touch_i]. rewrite (NI n x N). reflexivity.
        - intros n x w0 w1 [<-|[]] S. destruct (X _ _ _ S) as (i & r0 & p & q & Q1 & Q2 & Q3). exists (u32 p). cbn [touch_i].
          change (is ($ "FORCE_NAT") ($ "FORCE_NAT")) with true. cbv iota. rewrite Q1, Q2. auto.
        - reflexivity. }
      rewrite (proj1 DD _ _ L), S1, S2. exact UP.
    - lia. }
  destruct RAW as (R1 & R2 & R3 & R4).
  destruct (expand_spec _ _ E) as [XS XI]. destruct (defaults_spec _ _ _ D) as ([DS DI] & _). rewrite XI in DI. rewrite XS in DS.
  rewrite (DI i_nat), (DI i_nat_port), (DS s_nat_ip) by (cbn; intuition congruence).
  destruct (valid_stages _ _ _ _ _ _ V) as (n & _ & _ & CN & CC & _).
  assert (LK : ints (legacy_key (w_acc w)) i_nat = 1 /\ strs (legacy_key (w_acc w)) s_nat_ip = Some ip /\ ints (legacy_key (w_acc w)) i_nat_port = port).
  { unfold legacy_key. destruct (_ && _); auto. }
  unfold check_nat in CN. destruct LK as (K1 & K2 & K3). rewrite K1 in CN. change (1 =? 0) with false in CN. rewrite andb_false_r in CN. inversion CN; subst n.
  assert (FG : ints (fill_gids (w_pw w) (w_user w) (w_sudo w) (legacy_key (w_acc w))) i_nat = 1 /\
     strs (fill_gids (w_pw w) (w_user w) (w_sudo w) (legacy_key (w_acc w))) s_nat_ip = Some ip /\ ints (fill_gids (w_pw w) (w_user w) (w_sudo w) (legacy_key (w_acc w))) i_nat_port = port).
  { unfold fill_gids. cbv zeta. destruct (w_user w && _ && _); destruct (w_sudo w && _ && _); auto. }
  clear - CC FG R4. remember (fill_gids _ _ _ _) as g. clear Heqg.
  unfold check_cycle in CC. destruct (strs g s_cycle_open), (strs g s_cycle_close); try discriminate; [|inversion CC; subst; tauto].
  cbv zeta in CC. destruct (is_prefix _ _); destruct (_ && _); try discriminate; destruct (_ || _); try discriminate; inversion CC; subst; cbn [ints strs set_i ifield_beq]; tauto.
Qed.
