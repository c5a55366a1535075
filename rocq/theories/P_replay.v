From Verif Require Import Bytes P_bytes M_util M_message P_util P_util2 S_text M_codec P_codec M_access M_replay S_base64 S_replay P_ctx2.
From Coq Require Import Init.Byte List ZArith Bool Lia.
Import ListNotations.
Open Scope Z_scope.

(** ** Numbers and addresses *)

Lemma dec_go_1 f n acc : 0 <= n < 10 -> dec_go (S f) n acc = zb (48 + n) :: acc.
Proof.
  intro R. cbn [dec_go]. rewrite Z.div_small by lia. rewrite Z.mod_small by lia. reflexivity.
Qed.
Lemma dec_go_2 f n acc : 10 <= n -> dec_go (S f) n acc = dec_go f (n / 10) (zb (48 + n mod 10) :: acc).
Proof.
  intro R. cbn [dec_go]. assert (1 <= n / 10) by (apply Z.div_le_lower_bound; lia).
  replace (n / 10 =? 0) with false by lia. reflexivity.
Qed.

Lemma digit_zb' v : 0 <= v < 10 -> isdigit (zb (48 + v)) = true /\ bv (zb (48 + v)) - 48 = v.
Proof.
  intro R. assert (B : bv (zb (48 + v)) = 48 + v) by (apply bv_zb_small; lia). split; [|lia].
  unfold isdigit. rewrite B. lia.
Qed.

Lemma octet_shape n : 0 <= n < 256 ->
  (exists a, 0 <= a < 10 /\ n = a /\ dec n = [zb (48 + a)]) \/
  (exists a b, 1 <= a < 10 /\ 0 <= b < 10 /\ n = a * 10 + b /\ dec n = [zb (48 + a); zb (48 + b)]) \/
  (exists a b c, 1 <= a < 10 /\ 0 <= b < 10 /\ 0 <= c < 10 /\ n = (a * 10 + b) * 10 + c /\
     dec n = [zb (48 + a); zb (48 + b); zb (48 + c)]).
Proof.
  intro R. unfold dec. destruct (Z_lt_dec n 10).
  - left. exists n. rewrite dec_go_1 by lia. repeat split; lia.
  - rewrite dec_go_2 by lia. destruct (Z_lt_dec n 100).
    + right; left. exists (n / 10), (n mod 10). rewrite dec_go_1 by (Z.div_mod_to_equations; lia).
      repeat split; Z.div_mod_to_equations; lia.
    + rewrite dec_go_2 by (Z.div_mod_to_equations; lia).
      right; right. exists (n / 10 / 10), ((n / 10) mod 10), (n mod 10).
      rewrite dec_go_1 by (Z.div_mod_to_equations; lia).
      repeat split; Z.div_mod_to_equations; lia.
Qed.

Lemma inet_pton_octet n t o acc : 0 <= n < 256 -> 0 <= o < 4 ->
  inet_pton_go (dec n ++ t) o false 0 acc = inet_pton_go t (o + 1) true n acc.
Proof.
  intros R O. destruct (octet_shape n R) as [(a & A & E & D) | [(a & b & A & B & E & D) | (a & b & c & A & B & C & E & D)]];
    rewrite D; cbn [app inet_pton_go].
  - destruct (digit_zb' a ltac:(lia)) as [-> ->]. cbn [andb orb].
    replace (0 * 10 + a >? 255) with false by lia. replace (o + 1 >? 4) with false by lia. f_equal. lia.
  - destruct (digit_zb' a ltac:(lia)) as [-> ->]. cbn [andb orb].
    replace (0 * 10 + a >? 255) with false by lia. replace (o + 1 >? 4) with false by lia.
    destruct (digit_zb' b ltac:(lia)) as [-> ->]. cbn [andb].
    replace ((0 * 10 + a =? 0) || ((0 * 10 + a) * 10 + b >? 255)) with false by lia. f_equal. lia.
  - destruct (digit_zb' a ltac:(lia)) as [-> ->]. cbn [andb orb].
    replace (0 * 10 + a >? 255) with false by lia. replace (o + 1 >? 4) with false by lia.
    destruct (digit_zb' b ltac:(lia)) as [-> ->]. cbn [andb].
    replace ((0 * 10 + a =? 0) || ((0 * 10 + a) * 10 + b >? 255)) with false by lia.
    destruct (digit_zb' c ltac:(lia)) as [-> ->]. cbn [andb].
    replace (((0 * 10 + a) * 10 + b =? 0) || (((0 * 10 + a) * 10 + b) * 10 + c >? 255)) with false by lia.
    f_equal. lia.
Qed.

Lemma inet_pton_dot r o n acc : 0 <= o < 4 -> inet_pton_go ("."%byte :: r) o true n acc = inet_pton_go r o false 0 (acc * 256 + n).
Proof.
  intro O. cbn [inet_pton_go]. change (isdigit "."%byte) with false. change (beq "."%byte "."%byte) with true.
  cbn [andb]. replace (o =? 4) with false by lia. reflexivity.
Qed.

Lemma inet_round_trip a : 0 <= a < 4294967296 -> inet_pton (inet_ntop a) = Some a.
Proof.
  intro R. unfold inet_pton, inet_ntop.
  assert (M : forall x, 0 <= x mod 256 < 256) by (intro; apply Z.mod_pos_bound; lia).
  rewrite inet_pton_octet by (auto; lia). cbn [app]. rewrite inet_pton_dot by lia.
  rewrite inet_pton_octet by (auto; lia). cbn [app]. rewrite inet_pton_dot by lia.
  rewrite inet_pton_octet by (auto; lia). cbn [app]. rewrite inet_pton_dot by lia.
  rewrite <- (app_nil_r (dec (a mod 256))).
  rewrite inet_pton_octet by (auto; lia). cbn [inet_pton_go]. change (0 + 1 + 1 + 1 + 1 =? 4) with true. cbn match.
  f_equal. clear M. Z.div_mod_to_equations. lia.
Qed.

Lemma octet_text n : 0 <= n < 256 -> all_digits (dec n) /\ 1 <= zlen (dec n) <= 3.
Proof.
  intro R. destruct (dec_spec n) as (D & _ & L & U); [lia|]. split; auto. split; auto. apply U; lia.
Qed.

Definition word_char (c : byte) : Prop := isspace c = false /\ c <> x00.
Lemma digit_word c : digit c -> word_char c.
Proof.
  unfold digit, word_char, isspace. intro D. split; [lia|]. intros ->. revert D. vm_compute. intros [X _]. apply X. reflexivity.
Qed.
Lemma digits_word s : all_digits s -> Forall word_char s.
Proof. apply Forall_impl. apply digit_word. Qed.
Lemma dot_word : word_char "."%byte.
Proof. split; [reflexivity|discriminate]. Qed.

Lemma Forall_app_intro (P : byte -> Prop) a b : Forall P a -> Forall P b -> Forall P (a ++ b).
Proof. intros. apply Forall_app. auto. Qed.

Lemma ntop_text a : Forall word_char (inet_ntop a) /\ 7 <= zlen (inet_ntop a) <= 15.
Proof.
  assert (M : forall x, 0 <= x mod 256 < 256) by (intro; apply Z.mod_pos_bound; lia).
  unfold inet_ntop.
  destruct (octet_text _ (M (a / 16777216))) as [D1 L1]. destruct (octet_text _ (M (a / 65536))) as [D2 L2].
  destruct (octet_text _ (M (a / 256))) as [D3 L3]. destruct (octet_text _ (M a)) as [D4 L4].
  split.
  - apply digits_word in D1, D2, D3, D4. pose proof dot_word as DW.
    repeat (apply Forall_app_intro; [assumption || (constructor; [exact DW|constructor])|]). assumption.
  - rewrite !zlen_app. change (zlen ["."%byte]) with 1. lia.
Qed.

(** ** sscanf *)

Lemma skip_space_word w t : Forall word_char w -> w <> [] -> skip_space (w ++ t) = w ++ t.
Proof. destruct w as [|c w]; [congruence|]. intros F _. inversion F; subst. destruct H1 as [S _]. cbn. rewrite S. reflexivity. Qed.

Lemma take_word_spec w : forall n t, Forall word_char w -> (length w <= n)%nat -> (t = [] \/ isspace (hd x00 t) = true) ->
  take_word n (w ++ t) = (w, t).
Proof.
  induction w as [|c w IH]; intros n t F L T; cbn [app].
  - destruct n; [reflexivity|]. destruct T as [->|T]; [reflexivity|]. destruct t; [reflexivity|]. cbn in T |- *. rewrite T. reflexivity.
  - inversion F; subst. destruct n; [cbn in L; lia|]. cbn [take_word]. destruct H1 as [S _]. rewrite S.
    rewrite IH by (auto; cbn in L; lia). reflexivity.
Qed.

Lemma scan_word_spec n w t : Forall word_char w -> w <> [] -> (length w <= n)%nat -> (t = [] \/ isspace (hd x00 t) = true) ->
  scan_word n (w ++ t) = Some (w, t).
Proof.
  intros F N L T. unfold scan_word. rewrite skip_space_word by auto. rewrite take_word_spec by auto.
  destruct w; [congruence|reflexivity].
Qed.

Lemma scan_word_space n s : scan_word n (" "%byte :: s) = scan_word n s.
Proof. reflexivity. Qed.
Lemma scan_num_space s : scan_num (" "%byte :: s) = scan_num s.
Proof. reflexivity. Qed.

Lemma take_digits_spec d : forall t, all_digits d -> isdigit (hd x00 t) = false -> take_digits (d ++ t) = (d, t).
Proof.
  induction d as [|c d IH]; intros t F T; cbn [app].
  - destruct t; [reflexivity|]. cbn in T |- *. rewrite T. reflexivity.
  - inversion F; subst. cbn [take_digits]. rewrite (proj2 (isdigit_digit c)) by auto. rewrite IH by auto. reflexivity.
Qed.

Lemma scan_num_dec n t : -2147483648 <= n < 2147483648 -> isdigit (hd x00 t) = false ->
  scan_num (dec_i n ++ t) = Some (n, t).
Proof.
  intros R T. assert (X : forall m, 0 <= m < 2147483649 -> exists d0 d, dec m = d0 :: d /\ all_digits (d0 :: d) /\ digits_val 0 (d0 :: d) = m).
  { intros m M. destruct (dec_spec m) as (D & V & L & _); [lia|].
    destruct (dec m) as [|d0 d] eqn:E; [revert L; vm_compute; intros X; exfalso; apply X; reflexivity|].
    exists d0, d. split; auto. split; auto. rewrite digits_val_decimal by auto. exact V. }
  unfold scan_num, dec_i. destruct (n <? 0) eqn:E.
  - destruct (X (- n) ltac:(lia)) as (d0 & d & ED & AD & V). rewrite ED.
    cbn [app skip_space]. change (isspace "-"%byte) with false. cbn match. change (beq "-"%byte "-"%byte) with true. cbn match.
    change (d0 :: d ++ t) with ((d0 :: d) ++ t). rewrite take_digits_spec by auto. cbv zeta. rewrite V. do 2 f_equal. lia.
  - destruct (X n ltac:(lia)) as (d0 & d & ED & AD & V). rewrite ED. inversion AD; subst.
    assert (S : isspace d0 = false) by (apply digit_word; auto).
    cbn [app skip_space]. rewrite S. destruct (isdigit_not_sign d0) as [N1 N2]; [apply isdigit_digit; auto|]. rewrite N1, N2.
    change (d0 :: d ++ t) with ((d0 :: d) ++ t). rewrite take_digits_spec by auto. reflexivity.
Qed.

Lemma dec_i_len n : -2147483648 <= n < 2147483648 -> 1 <= zlen (dec_i n) <= 11.
Proof.
  intro R. unfold dec_i. destruct (n <? 0) eqn:E.
  - destruct (dec_spec (- n)) as (D & V & L & U); [lia|]. specialize (U 10 ltac:(lia) ltac:(lia)). rewrite zlen_cons. lia.
  - destruct (dec_spec n) as (D & V & L & U); [lia|]. specialize (U 10 ltac:(lia) ltac:(lia)). lia.
Qed.

Lemma dec_i_word n : -2147483648 <= n < 2147483648 -> Forall word_char (dec_i n).
Proof.
  intro R. unfold dec_i. destruct (n <? 0) eqn:E.
  - constructor; [split; [reflexivity|discriminate]|]. apply digits_word. apply dec_spec. lia.
  - apply digits_word. apply dec_spec. lia.
Qed.

(** ** Lines *)

Lemma b64_word c : is_b64_char c -> word_char c /\ c <> "#"%byte /\ c <> ";"%byte /\ c <> x0a /\ c <> x0d.
Proof.
  intro H. assert (X : 43 <= bv c /\ bv c <> 59).
  { destruct H as [H|[H|[H|[->| ->]]]]; try lia; vm_compute; split; congruence. }
  split; [split|]; [unfold isspace; lia|intros ->; destruct X as [X _]; apply X; reflexivity|].
  repeat split; intros ->; destruct X as [X X']; try (apply X; reflexivity); apply X'; reflexivity.
Qed.

Lemma digest_words d : digest43 d -> Forall word_char d /\ d <> [] /\ (length d = 43)%nat.
Proof.
  intros [L F]. split; [|split].
  - eapply Forall_impl; [|exact F]. intros a A. apply b64_word; auto.
  - intros ->. discriminate.
  - unfold zlen in L. lia.
Qed.

Lemma cstr_app_nul1 d : Forall word_char d -> cstr (d ++ [x00]) = d.
Proof.
  intro F. apply cstr_app_nul. intro I. rewrite Forall_forall in F. apply F in I. destruct I as [_ I]. auto.
Qed.

Definition line_body (c : cache_info) : bytes :=
  ci_digest c ++ [" "%byte] ++ dec_i (ci_proto c) ++ [" "%byte] ++
  inet_ntop (ci_src c) ++ [" "%byte] ++ dec_i (ci_sport c) ++ [" "%byte] ++
  inet_ntop (ci_dst c) ++ [" "%byte] ++ dec_i (ci_dport c) ++ [" "%byte] ++
  dec_i (i32 (ci_created c)).

Lemma cache_line_body c : cache_line c = line_body c ++ [x0a].
Proof. unfold cache_line, line_body. rewrite <- !app_assoc. reflexivity. Qed.

Lemma new_digest d p now : digest43 d -> ci_digest (new_element d p now) = d.
Proof. intro D. apply digest_words in D as (W & _). unfold ci_digest, new_element, ci_buf. apply cstr_app_nul1; auto. Qed.

Lemma body_ok d p now : digest43 d -> pkt_ok p ->
  let c := new_element d p now in
  Forall (fun x => x <> x0a /\ x <> x00) (line_body c) /\ zlen (line_body c) <= 200 /\ 1 <= zlen (line_body c).
Proof.
  intros D P c. unfold line_body. assert (ED : ci_digest c = d) by (apply new_digest; auto). rewrite !ED. clear ED.
  destruct (digest_words d D) as (W & _ & L).
  assert (RP : -2147483648 <= ci_proto c < 2147483648) by (cbn; pose proof (Z.mod_pos_bound (p_proto p) 256); lia).
  assert (RS : -2147483648 <= ci_sport c < 2147483648) by (cbn; unfold u16; pose proof (Z.mod_pos_bound (p_sport p) 65536); lia).
  assert (RD : -2147483648 <= ci_dport c < 2147483648) by (cbn; unfold u16; pose proof (Z.mod_pos_bound (p_dport p) 65536); lia).
  pose proof (i32_range (ci_created c)) as RC.
  destruct (ntop_text (ci_src c)) as [W1 L1]. destruct (ntop_text (ci_dst c)) as [W2 L2].
  pose proof (dec_i_len _ RP). pose proof (dec_i_len _ RS). pose proof (dec_i_len _ RD). pose proof (dec_i_len _ RC).
  pose proof (dec_i_word _ RP). pose proof (dec_i_word _ RS). pose proof (dec_i_word _ RD). pose proof (dec_i_word _ RC).
  split; [|rewrite !zlen_app; change (zlen [" "%byte]) with 1; destruct D as [LD _]; rewrite LD; lia].
  assert (X : forall l, Forall word_char l -> Forall (fun x => x <> x0a /\ x <> x00) l).
  { intro l. apply Forall_impl. intros a [S N]. split; auto. intros ->. discriminate. }
  assert (S : Forall (fun x => x <> x0a /\ x <> x00) [" "%byte]) by (constructor; [split; discriminate|constructor]).
  apply X in W, W1, W2. repeat match goal with Y : Forall word_char _ |- _ => apply X in Y end.
  repeat (apply Forall_app_intro; [assumption|]). assumption.
Qed.

Lemma is_empty_b64 c : is_b64_char c -> is_empty_line c = false.
Proof.
  intro H. apply b64_word in H as ([_ N0] & N1 & N2 & N3 & N4). unfold is_empty_line.
  rewrite !(proj2 (beq_neq _ _)) by auto. reflexivity.
Qed.

Definition same_record (c : cache_info) (d : bytes) : Prop := ztake 43 (ci_buf c) = d /\ 43 <= zlen (ci_buf c).

Lemma load_line_ok d p now : digest43 d -> pkt_ok p ->
  exists c, load_line (cache_line (new_element d p now)) = Some c /\ same_record c d /\
    ci_digest c = d /\ ci_proto c = p_proto p mod 256 /\ ci_src c = p_src p /\ ci_sport c = u16 (p_sport p) /\
    ci_dst c = p_dst p /\ ci_dport c = u16 (p_dport p) /\ ci_created c = i32 now.
Proof.
  intros D P. destruct (body_ok d p now D P) as (NB & _ & _).
  rewrite cache_line_body. unfold load_line.
  assert (CS : cstr (line_body (new_element d p now) ++ [x0a]) = line_body (new_element d p now) ++ [x0a]).
  { apply cstr_id. apply no_nul_app. split.
    - intro I. rewrite Forall_forall in NB. apply NB in I. tauto.
    - intros [I|[]]; discriminate. }
  rewrite CS. unfold line_body. rewrite new_digest by auto. cbn [new_element ci_proto ci_src ci_sport ci_dst ci_dport ci_created].
  destruct (digest_words d D) as (W & NE & L).
  pose proof D as [_ FB].
  assert (E0 : forall t, hd x00 (d ++ t) = hd x00 d) by (intro t; destruct d; [congruence|reflexivity]).
  rewrite <- !app_assoc. rewrite E0.
  assert (EM : is_empty_line (hd x00 d) = false).
  { destruct d as [|x d']; [congruence|]. inversion FB; subst. apply is_empty_b64; auto. }
  rewrite EM.
  rewrite scan_word_spec by (auto; lia || (right; reflexivity)). cbn [obind app].
  rewrite scan_num_space.
  rewrite scan_num_dec by (try reflexivity; pose proof (Z.mod_pos_bound (p_proto p) 256); lia). cbn [obind app].
  destruct (ntop_text (p_src p)) as [W1 L1]. destruct (ntop_text (p_dst p)) as [W2 L2].
  rewrite scan_word_space.
  rewrite scan_word_spec.
  2: auto. 2:{ intro E; rewrite E in L1; vm_compute in L1; destruct L1 as [X _]; apply X; reflexivity. } 2: unfold zlen in L1; lia. 2: right; reflexivity.
  cbn [obind app]. rewrite scan_num_space.
  rewrite scan_num_dec by (try reflexivity; unfold u16; pose proof (Z.mod_pos_bound (p_sport p) 65536); lia). cbn [obind app].
  rewrite scan_word_space.
  rewrite scan_word_spec.
  2: auto. 2:{ intro E; rewrite E in L2; vm_compute in L2; destruct L2 as [X _]; apply X; reflexivity. } 2: unfold zlen in L2; lia. 2: right; reflexivity.
  cbn [obind app]. rewrite scan_num_space.
  rewrite scan_num_dec by (try reflexivity; unfold u16; pose proof (Z.mod_pos_bound (p_dport p) 65536); lia). cbn [obind app].
  rewrite scan_num_space.
  rewrite scan_num_dec by (try reflexivity; apply i32_range). cbn [obind app].
  destruct P as [PS PD]. rewrite !inet_round_trip by auto. cbn [obind].
  eexists. split; [reflexivity|]. cbn [ci_buf ci_proto ci_src ci_sport ci_dst ci_dport ci_created].
  split; [|split].
  - split; cbn [ci_buf].
    + apply ztake_app. destruct D as [-> _]. reflexivity.
    + rewrite zlen_app. destruct D as [-> _]. pose proof (zlen_nonneg (repeat x00 (Z.to_nat (MAX_DIGEST_SIZE + 1 - 43)))). lia.
  - unfold ci_digest. cbn [ci_buf]. destruct D as [LD _]. rewrite LD. change (repeat x00 (Z.to_nat (MAX_DIGEST_SIZE + 1 - 43))) with (x00 :: repeat x00 21).
    apply cstr_app_nul. intro I. rewrite Forall_forall in W. apply W in I. destruct I; auto.
  - unfold u16. rewrite !Z.mod_mod by lia. repeat split.
Qed.

(** ** fgets *)

Lemma fgets_line n w t : Forall (fun x => x <> x0a) w -> (length w < n)%nat -> fgets n (w ++ x0a :: t) = (w ++ [x0a], t).
Proof.
  revert n. induction w as [|c w IH]; intros n F L; (destruct n; [lia|]).
  - reflexivity.
  - inversion F; subst. cbn [app fgets]. rewrite (proj2 (beq_neq c x0a)) by auto.
    rewrite IH by (auto; cbn in L; lia). reflexivity.
Qed.

(** What is read comes before what follows a newline. *)
Lemma fgets_split n : forall s line t, fgets n s = (line, t) -> s = line ++ t.
Proof.
  induction n as [|n IH]; intros s line t E; [inversion E; reflexivity|].
  destruct s as [|c s]; [inversion E; reflexivity|]. cbn in E. destruct (beq c x0a); [inversion E; reflexivity|].
  destruct (fgets n s) as [l t'] eqn:F. inversion E; subst. cbn. f_equal. apply IH; auto.
Qed.

Lemma fgets_progress n s line t : (0 < n)%nat -> s <> [] -> fgets n s = (line, t) -> line <> [].
Proof.
  destruct n; [lia|]. destruct s as [|c s]; [congruence|]. intros _ _ E. cbn in E. destruct (beq c x0a); [inversion E; discriminate|].
  destruct (fgets n s). inversion E. discriminate.
Qed.

Definition ends_nl (s : bytes) : Prop := s = [] \/ exists w, s = w ++ [x0a].

Lemma fgets_app n : forall a b line t, a <> [] -> ends_nl a -> fgets n a = (line, t) ->
  fgets n (a ++ b) = (line, t ++ b) /\ (line <> [] -> ends_nl t).
Proof.
  induction n as [|n IH]; intros a b line t NE EN E.
  - cbn in *. inversion E; subst. split; [reflexivity|congruence].
  - destruct a as [|c a]; [congruence|]. cbn in E. cbn [app fgets]. destruct (beq_spec c x0a) as [->|N].
    + inversion E; subst. split; [reflexivity|]. intros _.
      destruct EN as [EN|(w & EN)]; [discriminate|]. destruct w as [|x w]; cbn in EN; inversion EN; subst.
      * left; reflexivity.
      * right. eauto.
    + destruct (fgets n a) as [l t'] eqn:F. inversion E; subst.
      assert (NA : a <> []). { intros ->. destruct EN as [EN|(w & EN)]; [discriminate|]. destruct w as [|x w]; cbn in EN; inversion EN; subst; [congruence|]. destruct w; discriminate. }
      assert (ENa : ends_nl a). { destruct EN as [EN|(w & EN)]; [discriminate|]. destruct w as [|x w]; cbn in EN; inversion EN; subst; [congruence|]. right; eauto. }
      destruct (IH a b l t NA ENa F) as [E1 E2]. rewrite E1. split; [reflexivity|]. intros _.
      destruct l; [|apply E2; discriminate].
      destruct n; [cbn in F; inversion F; subst; exact ENa|]. exfalso. revert F. apply not_eq_sym. intro F.
      apply (fgets_progress (S n) a [] t ltac:(lia) NA (eq_sym F)). reflexivity.
Qed.

(** ** Loading *)

Notation LIM := (Z.to_nat (MAX_LINE_LEN - 1)).

Lemma load_lines_fuel f : forall g s l, (length s <= f)%nat -> (length s <= g)%nat -> load_lines f s l = load_lines g s l.
Proof.
  induction f as [|f IH]; intros g s l Lf Lg.
  - destruct s; [|cbn in Lf; lia]. destruct g; reflexivity.
  - destruct s as [|c s]; [destruct g; reflexivity|]. destruct g as [|g]; [cbn in Lg; lia|].
    cbn [load_lines]. destruct (fgets LIM (c :: s)) as [line t] eqn:E.
    pose proof (fgets_split _ _ _ _ E) as ES.
    assert (NL : line <> []) by (eapply fgets_progress; [| |exact E]; [vm_compute; lia|discriminate]).
    assert (LT : (length t <= length s)%nat).
    { apply (f_equal (@length byte)) in ES. rewrite app_length in ES. destruct line; [congruence|]. cbn in ES. lia. }
    apply IH; cbn in Lf, Lg; lia.
Qed.

Lemma load_file_step s l line t : s <> [] -> fgets LIM s = (line, t) ->
  load_file s l = load_file t (match load_line line with Some c => c :: l | None => l end).
Proof.
  intros NE E. unfold load_file. destruct s as [|c s]; [congruence|].
  cbn [length load_lines]. rewrite E. pose proof (fgets_split _ _ _ _ E) as ES.
  assert (NL : line <> []) by (eapply fgets_progress; [| |exact E]; [vm_compute; lia|discriminate]).
  apply load_lines_fuel; auto. apply (f_equal (@length byte)) in ES. rewrite app_length in ES. destruct line; [congruence|]. cbn in ES. lia.
Qed.

Lemma load_file_app_aux k : forall a b l, (length a <= k)%nat -> ends_nl a -> load_file (a ++ b) l = load_file b (load_file a l).
Proof.
  induction k as [|k IH]; intros a b l K EN.
  - destruct a; [reflexivity|cbn in K; lia].
  - destruct a as [|c a]; [reflexivity|]. destruct (fgets LIM (c :: a)) as [line t] eqn:E.
    assert (NL : line <> []) by (eapply fgets_progress; [| |exact E]; [vm_compute; lia|discriminate]).
    destruct (fgets_app LIM (c :: a) b line t ltac:(discriminate) EN E) as [E1 E2].
    rewrite (load_file_step ((c :: a) ++ b) l line (t ++ b)) by (auto; discriminate).
    rewrite (load_file_step (c :: a) l line t) by (auto; discriminate).
    apply IH; [|auto]. apply fgets_split in E. apply (f_equal (@length byte)) in E. rewrite app_length in E.
    destruct line; [congruence|]. cbn in E, K. lia.
Qed.
Lemma load_file_app a b l : ends_nl a -> load_file (a ++ b) l = load_file b (load_file a l).
Proof. apply (load_file_app_aux (length a)); lia. Qed.

Lemma load_file_extends s : forall l, exists n, load_file s l = n ++ l.
Proof.
  assert (X : forall k s l, (length s <= k)%nat -> exists n, load_file s l = n ++ l).
  { induction k as [|k IH]; intros s0 l K.
    - destruct s0; [exists []; reflexivity|cbn in K; lia].
    - destruct s0 as [|c s0]; [exists []; reflexivity|]. destruct (fgets LIM (c :: s0)) as [line t] eqn:E.
      rewrite (load_file_step _ l line t) by (auto; discriminate).
      assert (NL : line <> []) by (eapply fgets_progress; [| |exact E]; [vm_compute; lia|discriminate]).
      destruct (IH t (match load_line line with Some c => c :: l | None => l end)) as [n EN].
      { apply fgets_split in E. apply (f_equal (@length byte)) in E. rewrite app_length in E. destruct line; [congruence|]. cbn in E, K. lia. }
      rewrite EN. destruct (load_line line) as [ci|]; [exists (n ++ [ci]); rewrite <- app_assoc; reflexivity|eauto]. }
  intro l. apply (X (length s)); lia.
Qed.

Lemma load_one_line d p now l : digest43 d -> pkt_ok p ->
  exists c, load_file (cache_line (new_element d p now)) l = c :: l /\ load_line (cache_line (new_element d p now)) = Some c /\ same_record c d.
Proof.
  intros D P. destruct (body_ok d p now D P) as (NB & LB & _).
  destruct (load_line_ok d p now D P) as (c & E & S & _). exists c. split; [|auto].
  rewrite (load_file_step _ l (cache_line (new_element d p now)) []).
  - rewrite E. reflexivity.
  - rewrite cache_line_body. destruct (line_body _); discriminate.
  - rewrite cache_line_body. apply (fgets_line _ _ []).
    + eapply Forall_impl; [|exact NB]. cbv beta. tauto.
    + unfold zlen in LB. change LIM with 1023%nat. lia.
Qed.

Lemma header_line l : load_file digest_header l = l.
Proof. vm_compute (load_file digest_header). reflexivity. Qed.

(** ** Buffers large enough, and lookups *)

Definition bufs_ok (l : cache) : Prop := Forall (fun c => 43 <= zlen (ci_buf c)) l.

Lemma load_line_buf line c : load_line line = Some c -> 43 <= zlen (ci_buf c).
Proof.
  unfold load_line. destruct (is_empty_line _); [discriminate|].
  destruct (scan_word 64 (cstr line)) as [[dg s1]|]; [|discriminate]. cbn [obind].
  destruct (scan_num s1) as [[? s2]|]; [|discriminate]. cbn [obind].
  destruct (scan_word 16 s2) as [[? s3]|]; [|discriminate]. cbn [obind].
  destruct (scan_num s3) as [[? s4]|]; [|discriminate]. cbn [obind].
  destruct (scan_word 16 s4) as [[? s5]|]; [|discriminate]. cbn [obind].
  destruct (scan_num s5) as [[? s6]|]; [|discriminate]. cbn [obind].
  destruct (scan_num s6) as [[? s7]|]; [|discriminate]. cbn [obind].
  destruct (inet_pton _); [|discriminate]. cbn [obind]. destruct (inet_pton _); [|discriminate]. cbn [obind].
  remember (Z.to_nat (MAX_DIGEST_SIZE + 1 - zlen dg)) as k eqn:K.
  intro E; inversion E. cbn [ci_buf]. rewrite zlen_app, zlen_repeat. unfold MAX_DIGEST_SIZE in K.
  pose proof (zlen_nonneg dg). lia.
Qed.

Lemma load_file_bufs s : forall l, bufs_ok l -> bufs_ok (load_file s l).
Proof.
  assert (X : forall k s l, (length s <= k)%nat -> bufs_ok l -> bufs_ok (load_file s l)).
  { induction k as [|k IH]; intros s0 l K B.
    - destruct s0; [exact B|cbn in K; lia].
    - destruct s0 as [|c s0]; [exact B|]. destruct (fgets LIM (c :: s0)) as [line t] eqn:E.
      rewrite (load_file_step _ l line t) by (auto; discriminate).
      assert (NL : line <> []) by (eapply fgets_progress; [| |exact E]; [vm_compute; lia|discriminate]).
      apply IH.
      + apply fgets_split in E. apply (f_equal (@length byte)) in E. rewrite app_length in E. destruct line; [congruence|]. cbn in E, K. lia.
      + destruct (load_line line) eqn:EL; auto. constructor; auto. eapply load_line_buf; eauto. }
  intros l. apply (X (length s)); lia.
Qed.

Lemma is_replay_spec l d : zlen d = 43 -> bufs_ok l ->
  exists b, is_replay l d = Ok b /\ (b = true <-> exists c, In c l /\ ztake 43 (ci_buf c) = d).
Proof.
  intros L B. induction B as [|c l BC B IH]; cbn [is_replay].
  - exists false. split; auto. split; [discriminate|intros (c & [] & _)].
  - rewrite L. destruct (constant_runtime_cmp_spec (ci_buf c) d 43 ltac:(lia) ltac:(lia)) as (r & -> & R).
    rewrite (ztake_all 43 d) in R by lia.
    destruct (Z.eqb_spec r 0) as [E|N].
    + exists true. split; auto. split; auto. intros _. exists c. split; [left; auto|]. apply R; auto.
    + destruct IH as (b & -> & I). exists b. split; auto. rewrite I. split.
      * intros (c' & I' & E'). exists c'. split; [right|]; auto.
      * intros (c' & [->|I'] & E'); [|eauto]. exfalso. apply N, R, E'.
Qed.

(** ** Histories *)

Definition ftext (f : file) : bytes := match f with Some s => s | None => [] end.

Lemma new_buf d p now : digest43 d -> ztake 43 (ci_buf (new_element d p now)) = d /\ 43 <= zlen (ci_buf (new_element d p now)).
Proof.
  intros [L _]. cbn. split; [apply ztake_app; auto|]. rewrite zlen_app. change (zlen [x00]) with 1. lia.
Qed.

Definition has (l : cache) (d : bytes) : Prop := exists c, In c l /\ ztake 43 (ci_buf c) = d.

Lemma has_replay l d : zlen d = 43 -> bufs_ok l -> (is_replay l d = Ok true <-> has l d).
Proof.
  intros L B. destruct (is_replay_spec l d L B) as (b & E & I). rewrite E. unfold has.
  split; [intro X; apply I; congruence|]. intro X. apply I in X. congruence.
Qed.

Lemma has_app l n d : has l d -> has (n ++ l) d.
Proof. intros (c & I & E). exists c. split; auto. apply in_or_app; auto. Qed.

Lemma cache_init_bufs f : bufs_ok (fst (cache_init f)).
Proof. destruct f; cbn; [apply load_file_bufs; constructor|constructor]. Qed.

Lemma happen_bufs st e : event_ok e -> bufs_ok (fst st) -> bufs_ok (fst (happen st e)).
Proof.
  destruct st as [l f]. destruct e as [d p now| |d p now k]; cbn [event_ok happen fst snd]; intros OK B.
  - cbn. constructor; auto. apply new_buf; tauto.
  - apply cache_init_bufs.
  - cbn [cache_init fst]. apply load_file_bufs. constructor.
Qed.

Lemma runs_bufs evs : forall st, Forall event_ok evs -> bufs_ok (fst st) -> bufs_ok (fst (runs st evs)).
Proof.
  induction evs as [|e evs IH]; intros st F B; [exact B|]. inversion F; subst. apply IH; auto. apply happen_bufs; auto.
Qed.

(** A file from which d is loaded, whatever was in memory. *)
Definition on_disk (s : bytes) (d : bytes) : Prop := forall l, has (load_file s l) d.

Lemma ends_torn_nl s : ends_torn (Some s) = false -> ends_nl s.
Proof.
  cbn. destruct (rev s) as [|c r] eqn:E.
  - intros _. left. apply (f_equal (@rev byte)) in E. rewrite rev_involutive in E. exact E.
  - intro H. right. exists (rev r). apply (f_equal (@rev byte)) in E. rewrite rev_involutive in E. cbn in E.
    rewrite E. f_equal. f_equal. apply beq_eq. destruct (beq c x0a); auto; discriminate.
Qed.

Lemma ends_torn_line s w : ends_torn (Some (s ++ w ++ [x0a])) = false.
Proof. cbn. rewrite app_assoc, rev_app_distr. reflexivity. Qed.

(** d recorded on disk stays on disk whatever is appended; complete lines protect what is before. *)
Definition safe_disk (s : bytes) (d : bytes) : Prop :=
  exists a w b, s = a ++ (w ++ [x0a]) ++ b /\ ends_nl a /\ Forall (fun x => x <> x0a) w /\ (length w < 1023)%nat /\
    exists c, load_line (w ++ [x0a]) = Some c /\ ztake 43 (ci_buf c) = d.

Lemma safe_disk_app s t d : safe_disk s d -> safe_disk (s ++ t) d.
Proof.
  intros (a & w & b & -> & H). exists a, w, (b ++ t). split; auto. rewrite <- !app_assoc. reflexivity.
Qed.

Lemma safe_on_disk s d : safe_disk s d -> on_disk s d.
Proof.
  intros (a & w & b & -> & EN & NW & LW & c & E & EC) l.
  rewrite load_file_app by auto. rewrite load_file_app by (right; eauto).
  destruct (load_file_extends b (load_file (w ++ [x0a]) (load_file a l))) as [n ->]. apply has_app.
  rewrite (load_file_step _ _ (w ++ [x0a]) []).
  - rewrite E. exists c. split; [left; auto|auto].
  - destruct w; discriminate.
  - apply (fgets_line _ _ []); auto.
Qed.

Lemma safe_new s d p now : digest43 d -> pkt_ok p -> ends_nl s -> safe_disk (s ++ cache_line (new_element d p now)) d.
Proof.
  intros D P EN. destruct (body_ok d p now D P) as (NB & LB & _). destruct (load_line_ok d p now D P) as (c & E & [S1 _] & _).
  exists s, (line_body (new_element d p now)), []. rewrite app_nil_r, <- cache_line_body.
  split; [reflexivity|]. split; auto. split; [eapply Forall_impl; [|exact NB]; cbv beta; tauto|]. split; [unfold zlen in LB; lia|]. eauto.
Qed.


Lemma runs_app st a b : runs st (a ++ b) = runs (runs st a) b.
Proof. apply fold_left_app. Qed.

(** *** Without crashes *)

Definition synced (st : cache * file) (l : list bytes) : Prop :=
  exists s, snd st = Some s /\ ends_nl s /\
    (forall d, has (fst st) d <-> In d l) /\ (forall d, has (load_file s []) d <-> In d l).

Lemma synced_start : synced (cache_init None) [].
Proof.
  exists digest_header. split; [reflexivity|]. split; [right; eexists; reflexivity|].
  cbn [cache_init fst]. rewrite header_line. split; intro d; (split; [intros (c & [] & _)|intros []]).
Qed.

Lemma has_cons c l d : has (c :: l) d <-> ztake 43 (ci_buf c) = d \/ has l d.
Proof.
  unfold has. split.
  - intros (x & [->|I] & E); eauto.
  - intros [E|(x & I & E)]; [exists c|exists x]; split; auto; [left|right]; auto.
Qed.

Lemma synced_step st l e : is_kill e = false -> event_ok e -> synced st l ->
  synced (happen st e) (match e with Recorded d _ _ => d :: l | _ => l end).
Proof.
  intros K OK (s & ES & EN & M & F). destruct st as [c f]. cbn [fst snd] in *. subst f. destruct e as [d p now| |]; [|..|discriminate].
  - destruct OK as [D P]. cbn [happen add_replay snd fst].
    exists (s ++ cache_line (new_element d p now)). split; [reflexivity|]. split.
    { right. rewrite cache_line_body. exists (s ++ line_body (new_element d p now)). rewrite app_assoc. reflexivity. }
    cbn [fst]. destruct (new_buf d p now D) as [B _].
    destruct (load_one_line d p now (load_file s []) D P) as (x & EX & _ & [SX _]).
    rewrite load_file_app by auto. rewrite EX.
    split; intro d'; rewrite has_cons; [rewrite B, M|rewrite SX, F]; cbn; tauto.
  - cbn [happen snd cache_init]. exists s. cbn [fst snd]. auto.
Qed.

Lemma synced_runs evs : forall st l, forallb (fun e => negb (is_kill e)) evs = true -> Forall event_ok evs -> synced st l ->
  exists l', synced (runs st evs) l' /\ (forall d, In d l' <-> In d l \/ In d (recorded evs)).
Proof.
  induction evs as [|e evs IH]; intros st l K F S.
  - exists l. split; auto. cbn. tauto.
  - cbn in K. apply andb_prop in K as [K1 K2]. inversion F; subst.
    destruct (IH (happen st e) _ K2 ltac:(auto) (synced_step st l e ltac:(destruct (is_kill e); auto; discriminate) ltac:(auto) S)) as (l' & S' & I).
    exists l'. split; [exact S'|]. intro d. rewrite I. destruct e; cbn; tauto.
Qed.

Lemma survives evs : forallb (fun e => negb (is_kill e)) evs = true -> Forall event_ok evs ->
  forall d, digest43 d -> (is_replay (fst (runs (cache_init None) evs)) d = Ok true <-> In d (recorded evs)) /\
                          (is_replay (fst (runs (cache_init None) evs)) d = Ok false <-> ~ In d (recorded evs)).
Proof.
  intros K F d [L D]. destruct (synced_runs evs _ _ K F synced_start) as (l & (s & _ & _ & M & _) & I).
  assert (B : bufs_ok (fst (runs (cache_init None) evs))) by (apply runs_bufs; auto; apply cache_init_bufs).
  assert (X : has (fst (runs (cache_init None) evs)) d <-> In d (recorded evs)) by (rewrite M, I; cbn; tauto).
  destruct (is_replay_spec _ d L B) as (b & E & IB). fold (has (fst (runs (cache_init None) evs)) d) in IB. rewrite E, <- X, <- IB.
  destruct b; split; split; try congruence; intuition congruence.
Qed.

(** *** With crashes *)

Definition covered (st : cache * file) (torn : bool) (l : list bytes) : Prop :=
  exists s, snd st = Some s /\ (torn = false -> ends_nl s) /\
    Forall (fun d => has (fst st) d /\ safe_disk s d) l.

Lemma reload_covered s torn l : (torn = false -> ends_nl s) -> Forall (fun d => safe_disk s d) l -> covered (load_file s [], Some s) torn l.
Proof.
  intros EN F. exists s. split; [reflexivity|]. split; auto. eapply Forall_impl; [|exact F]. intros d S. split; auto. apply safe_on_disk; auto.
Qed.

Lemma covered_weaken st torn l torn' l' : covered st torn l -> (torn' = false -> torn = false) -> incl l' l -> covered st torn' l'.
Proof.
  intros (s & ES & EN & F) T I. exists s. split; auto. split; auto. rewrite Forall_forall in *. auto.
Qed.

Lemma covered_step st torn l e : event_ok e -> covered st torn l ->
  match e with
  | Recorded d _ _ => covered (happen st e) false ((if torn then [] else [d]) ++ l)
  | Restarted => covered (happen st e) torn l
  | Killed _ _ _ k => covered (happen st e) (torn || negb (Nat.eqb k 0)) l
  end.
Proof.
  intros OK (s & ES & EN & F). destruct st as [c f]. cbn [fst snd] in *. subst f.
  assert (FS : Forall (fun d => safe_disk s d) l) by (eapply Forall_impl; [|exact F]; cbv beta; tauto).
  destruct e as [d p now| |d p now k].
  - destruct OK as [D P]. cbn [happen add_replay snd fst].
    exists (s ++ cache_line (new_element d p now)). split; [reflexivity|]. split.
    { intros _. right. rewrite cache_line_body. exists (s ++ line_body (new_element d p now)). rewrite app_assoc. reflexivity. }
    cbn [fst]. apply Forall_app. split.
    + destruct torn; [constructor|]. constructor; [|constructor]. split.
      * apply has_cons. left. apply new_buf; auto.
      * apply safe_new; auto.
    + eapply Forall_impl; [|exact F]. intros d' [H S]. split; [apply has_cons; auto|apply safe_disk_app; auto].
  - cbn [happen snd cache_init]. apply reload_covered; auto.
  - cbn [happen snd cache_init]. apply reload_covered.
    + intro T. apply orb_false_iff in T as [T K]. destruct k; [|discriminate]. cbn [firstn]. rewrite app_nil_r. auto.
    + eapply Forall_impl; [|exact FS]. intros. apply safe_disk_app; auto.
Qed.

Lemma covered_runs evs : forall st torn l, Forall event_ok evs -> covered st torn l ->
  Forall (fun d => has (fst (runs st evs)) d) (recorded_clean torn evs ++ l).
Proof.
  induction evs as [|e evs IH]; intros st torn l F C.
  - destruct C as (s & _ & _ & FS). cbn. eapply Forall_impl; [|exact FS]. cbv beta; tauto.
  - inversion F; subst. pose proof (covered_step st torn l e ltac:(auto) C) as S.
    change (runs st (e :: evs)) with (runs (happen st e) evs).
    destruct e as [d p now| |d p now k]; cbn [recorded_clean].
    + specialize (IH _ _ _ ltac:(auto) S). rewrite !Forall_app in *. tauto.
    + apply (IH _ _ _ ltac:(auto) S).
    + apply (IH _ _ _ ltac:(auto) S).
Qed.

Lemma start_covered f : covered (cache_init f) (ends_torn f) [].
Proof.
  destruct f as [s|]; cbn [cache_init].
  - exists s. split; [reflexivity|]. split; [|constructor]. apply ends_torn_nl.
  - exists digest_header. split; [reflexivity|]. split; [|constructor]. intros _. right. eexists; reflexivity.
Qed.

Lemma since_start evs : forall st acc, Forall event_ok evs -> Forall (has (fst st)) acc ->
  Forall (has (fst (runs st evs))) (recorded_since_start evs acc).
Proof.
  induction evs as [|e evs IH]; intros st acc F A; [exact A|]. inversion F; subst.
  change (runs st (e :: evs)) with (runs (happen st e) evs). destruct e as [d p now| |d p now k]; cbn [recorded_since_start].
  - apply IH; auto. destruct st as [c f]. cbn. constructor.
    + apply has_cons. left. cbn [event_ok] in *. apply (new_buf d p now). tauto.
    + eapply Forall_impl; [|exact A]. intros x X. apply has_cons; auto.
  - apply IH; auto.
  - apply IH; auto.
Qed.

Lemma survives_crashes f evs : Forall event_ok evs ->
  forall d, digest43 d -> In d (recorded_clean (ends_torn f) evs ++ recorded_since_start evs []) ->
  is_replay (fst (runs (cache_init f) evs)) d = Ok true.
Proof.
  intros F d [L D] I.
  assert (B : bufs_ok (fst (runs (cache_init f) evs))) by (apply runs_bufs; auto; apply cache_init_bufs).
  apply has_replay; auto. apply in_app_or in I as [I|I].
  - pose proof (covered_runs evs _ _ _ F (start_covered f)) as C. rewrite app_nil_r, Forall_forall in C. auto.
  - pose proof (since_start evs (cache_init f) [] F ltac:(constructor)) as C. rewrite Forall_forall in C. auto.
Qed.

Lemma never_faults f evs : Forall event_ok evs -> forall d, zlen d = 43 -> is_replay (fst (runs (cache_init f) evs)) d <> Fault.
Proof.
  intros F d L. destruct (is_replay_spec (fst (runs (cache_init f) evs)) d L) as (b & E & _); [|congruence].
  apply runs_bufs; auto; apply cache_init_bufs.
Qed.
