(** Proofs about command lines, captured output and the numbers written. *)
From Verif Require Import Bytes M_util M_message M_codec M_access M_cycle M_incoming M_packet M_fw
  S_text S_fw P_bytes P_util P_util2.
From Coq Require Import Init.Byte List ZArith Bool Lia.
Import ListNotations.
Open Scope Z_scope.

(** ** Words of a command line *)
Lemma blank_space : blank " "%byte. Proof. left. reflexivity. Qed.
Lemma words_join ws : Forall word ws -> words (join [" "%byte] ws) ws.
Proof.
  intro F. assert (G : forall sp, Forall blank sp -> words (sp ++ join [" "%byte] ws) ws).
  { induction F as [|w ws [N B] F IH]; intros sp S.
    - cbn. rewrite app_nil_r. constructor; auto.
    - assert (B' : Forall (fun c => ~ blank c) w) by (eapply Forall_impl; [|exact B]; intros c [Hc _]; exact Hc).
      destruct ws as [|w' ws].
      + cbn [join]. replace (sp ++ w) with (sp ++ w ++ []) by (now rewrite app_nil_r).
        constructor; auto. constructor. constructor.
      + change (join [" "%byte] (w :: w' :: ws)) with (w ++ [" "%byte] ++ join [" "%byte] (w' :: ws)).
        constructor; auto. right. apply blank_space. apply IH. constructor; auto using blank_space. }
  apply (G []). constructor.
Qed.

Lemma join_zlen_in w ws : In w ws -> zlen w <= zlen (join [" "%byte] ws).
Proof.
  induction ws as [|x ws IH]; [intros []|]. intros [->|I].
  - destruct ws as [|y ws]; cbn [join]; [lia|]. rewrite !zlen_app. pose proof (zlen_nonneg (join [" "%byte] (y :: ws))).
    cbn [join] in *. change (zlen [" "%byte]) with 1. lia.
  - specialize (IH I). destruct ws as [|y ws]; [destruct I|].
    change (join [" "%byte] (x :: y :: ws)) with (x ++ [" "%byte] ++ join [" "%byte] (y :: ws)). rewrite !zlen_app.
    pose proof (zlen_nonneg x). change (zlen [" "%byte]) with 1. lia.
Qed.

Lemma argv_join ws : Forall word ws -> zlen ws < 29 -> zlen (join [" "%byte] ws) < 1024 ->
  strtoargv (join [" "%byte] ws) = Ok (Some ws).
Proof.
  intros F N L. rewrite (strtoargv_words _ ws).
  - destruct (Z.ltb_spec (zlen ws) 29); [reflexivity|lia].
  - now apply words_join.
  - apply Forall_forall. intros w I. pose proof (join_zlen_in w ws I). lia.
Qed.

(** ** Captured output *)
Lemma read_output_spec size s : forall cur buf,
  no_nul s -> no_nul cur -> zlen buf < size - 1 ->
  read_output size s cur buf = buf ++ ztake (size - 1 - zlen buf) (cur ++ s).
Proof.
  induction s as [|c s IH]; intros cur buf N M L.
  - cbn [read_output]. rewrite app_nil_r. destruct cur; [|now rewrite (cstr_id _ M)].
    replace (ztake (size - 1 - zlen buf) (@nil Bytes.byte)) with (@nil Bytes.byte); [now rewrite app_nil_r|].
    unfold ztake. now rewrite firstn_nil.
  - cbn [read_output]. apply no_nul_cons in N. destruct N as [N1 N2].
    assert (M' : no_nul (cur ++ [c])). { apply no_nul_app. split; auto. apply no_nul_cons. split; auto. apply no_nul_nil. }
    rewrite (cstr_id _ M').
    replace (cur ++ c :: s) with ((cur ++ [c]) ++ s) by (now rewrite <- app_assoc).
    destruct (_ || _) eqn:E.
    + set (m := size - 1 - zlen buf) in *. assert (Hm : m = size - 1 - zlen buf) by reflexivity. clearbody m.
      destruct (Z_le_gt_dec m (zlen (cur ++ [c]))) as [LE|GT].
      * assert (T : ztake m ((cur ++ [c]) ++ s) = ztake m (cur ++ [c])).
        { unfold ztake. rewrite firstn_app. replace (Z.to_nat m - _)%nat with O by (unfold zlen in LE; lia).
          cbn [firstn]. apply app_nil_r. }
        rewrite T. rewrite zlen_app, (zlen_ztake m (cur ++ [c])) by lia.
        destruct (Z.geb_spec (zlen buf + m) (size - 1)); [reflexivity|lia].
      * rewrite (ztake_all m (cur ++ [c])) by lia. rewrite zlen_app.
        destruct (Z.geb_spec (zlen buf + zlen (cur ++ [c])) (size - 1)); [lia|].
        rewrite IH; auto using no_nul_nil. 2:{ rewrite zlen_app. lia. }
        rewrite <- app_assoc. f_equal. cbn [app]. rewrite zlen_app.
        unfold ztake. rewrite firstn_app. rewrite (firstn_all2 (cur ++ [c])) by (unfold zlen in GT; lia). f_equal.
        f_equal. unfold zlen in *. lia.
    + rewrite IH; auto.
Qed.
Lemma read_all size s : no_nul s -> zlen s <= size - 1 -> 1 < size -> read_output size s [] [] = s.
Proof.
  intros N L P. rewrite read_output_spec; auto using no_nul_nil. 2:{ rewrite zlen_nil. lia. }
  cbn [app]. apply ztake_all. rewrite zlen_nil. lia.
Qed.

Lemma truncate_lines s : truncate_partial_line (s ++ [x0a]) = s ++ [x0a].
Proof.
  unfold truncate_partial_line.
  replace (memb x0a (s ++ [x0a])) with true. 2:{ symmetry. apply memb_In. apply in_app_iff. right. left. reflexivity. }
  rewrite rev_app_distr. cbn [rev app]. destruct (rev s) eqn:E.
  - cbn. rewrite <- (rev_involutive s), E. reflexivity.
  - cbn [cut_rev]. rewrite beq_refl. rewrite <- E. cbn [rev]. now rewrite rev_involutive.
Qed.
Lemma truncate_nil : truncate_partial_line [] = []. Proof. reflexivity. Qed.
Lemma chop_last s : s <> [] -> chop_newline (s ++ [x0a]) = s.
Proof.
  intro N. unfold chop_newline. rewrite last_app1, beq_refl, zlen_app. change (zlen [x0a]) with 1.
  destruct s as [|c s]; [easy|]. rewrite zlen_cons. pose proof (zlen_nonneg s).
  destruct (Z.gtb_spec (1 + zlen s + 1) 1); [|lia]. cbn [andb]. now rewrite removelast_last.
Qed.

(** ** Numbers *)
Lemma digit_zb n : 0 <= n < 10 -> digit (zb (48 + n)).
Proof. intro H. unfold digit. rewrite bv_zb_small; lia. Qed.
Lemma radix_cons c s : radix 10 (c :: s) = (bv c - 48) * 10 ^ zlen s + radix 10 s.
Proof.
  unfold radix. cbn [fold_left]. set (f := fun acc (c : Bytes.byte) => acc * 10 + (bv c - 48)).
  replace (0 * 10 + (bv c - 48)) with (bv c - 48) by lia.
  assert (G : forall t a, fold_left f t a = a * 10 ^ zlen t + fold_left f t 0).
  { induction t as [|x t IH]; intro a. { cbn [fold_left]. rewrite zlen_nil, Z.pow_0_r. lia. } cbn [fold_left]. rewrite IH, (IH (f 0 x)).
    rewrite zlen_cons, Z.pow_add_r by (try apply zlen_nonneg; lia). change (10 ^ 1) with 10.
    replace (f a x) with (a * 10 + (bv x - 48)) by reflexivity. replace (f 0 x) with (0 * 10 + (bv x - 48)) by reflexivity. ring. }
  apply G.
Qed.
Lemma dec_go_spec f : forall n acc, 0 <= n < 10 ^ Z.of_nat f -> (0 < f)%nat ->
  exists ds, dec_go f n acc = ds ++ acc /\ all_digits ds /\ ds <> [] /\ decimal ds = n /\
    (hd x00 ds = "0"%byte -> ds = ["0"%byte]) /\ zlen ds <= Z.of_nat f /\ (0 < n -> 10 ^ (zlen ds - 1) <= n).
Proof.
  induction f as [|f IH]; intros n acc H F; [lia|]. cbn [dec_go].
  assert (M : 0 <= n mod 10 < 10) by (apply Z.mod_pos_bound; lia).
  pose proof (Z.div_mod n 10 ltac:(lia)) as DM. destruct (Z.eqb_spec (n / 10) 0) as [Q|Q].
  - exists [zb (48 + n mod 10)]. repeat split; try discriminate.
    + constructor; auto using digit_zb.
    + unfold decimal, radix. cbn [fold_left]. rewrite bv_zb_small by lia. lia.
    + cbn [hd]. intros ->. reflexivity.
    + change (zlen [zb (48 + n mod 10)]) with 1. lia.
    + intro. change (zlen [zb (48 + n mod 10)]) with 1. change (10 ^ (1 - 1)) with 1. lia.
  - assert (0 <= n / 10) by (apply Z.div_pos; lia).
    assert (B : 0 <= n / 10 < 10 ^ Z.of_nat f).
    { split; auto. apply Z.div_lt_upper_bound; [lia|]. rewrite Nat2Z.inj_succ, Z.pow_succ_r in H by lia. lia. }
    destruct f as [|f']. { cbn in B. lia. }
    destruct (IH (n / 10) (zb (48 + n mod 10) :: acc) B ltac:(lia)) as (ds & E & A & NE & D & HD & L & LB).
    exists (ds ++ [zb (48 + n mod 10)]). rewrite E, <- app_assoc. repeat split; auto.
    + apply Forall_app. split; auto. constructor; auto using digit_zb.
    + destruct ds; discriminate.
    + unfold decimal in *. rewrite radix_app. cbn [fold_left]. rewrite D, bv_zb_small by lia. lia.
    + intro Z. destruct ds as [|c ds]; [easy|]. cbn [hd app] in *. specialize (HD Z).
      exfalso. assert (D0 : decimal ["0"%byte] = 0) by reflexivity. rewrite <- HD in D0. rewrite D in D0. easy.
    + rewrite zlen_app. change (zlen [zb (48 + n mod 10)]) with 1. lia.
    + intro. rewrite zlen_app. change (zlen [zb (48 + n mod 10)]) with 1.
      replace (zlen ds + 1 - 1) with (1 + (zlen ds - 1)) by lia.
      assert (0 < zlen ds) by (destruct ds; [easy|]; rewrite zlen_cons; pose proof (zlen_nonneg ds); lia).
      rewrite Z.pow_add_r by lia. change (10 ^ 1) with 10. specialize (LB ltac:(lia)). lia.
Qed.
Lemma dec_numeral n : 0 <= n < 10 ^ 20 -> numeral n (dec n).
Proof.
  intro H. destruct (dec_go_spec 20 n [] H ltac:(lia)) as (ds & E & A & NE & D & HD & _).
  unfold dec. rewrite E, app_nil_r. repeat split; auto.
Qed.
Lemma dec_i_dec n : 0 <= n -> dec_i n = dec n.
Proof. intro. unfold dec_i. destruct (Z.ltb_spec n 0); [lia|reflexivity]. Qed.

Lemma digit_not_blank c : digit c -> ~ blank c /\ c <> x00.
Proof. unfold digit, blank. split; [lia|]. intros ->. change (bv x00) with 0 in H. lia. Qed.
Lemma digits_word s : s <> [] -> all_digits s -> word s.
Proof. intros N A. split; auto. eapply Forall_impl; [|exact A]. apply digit_not_blank. Qed.
Lemma numeral_word n s : numeral n s -> word s.
Proof. intros (N & A & _). now apply digits_word. Qed.
(** Decimal numerals are unique. *)
Lemma numeral_len_pos n s : numeral n s -> 0 < n -> 10 ^ (zlen s - 1) <= n.
Proof.
  intros (N & A & D & HD) P. destruct s as [|c s]; [easy|]. unfold decimal in D. rewrite radix_cons in D.
  inversion A as [|? ? Dc A']; subst. assert (0 <= radix 10 s) by (apply decimal_bound; auto).
  rewrite zlen_cons. replace (1 + zlen s - 1) with (zlen s) by lia.
  pose proof (Z.pow_pos_nonneg 10 (zlen s) ltac:(lia) (zlen_nonneg _)). unfold digit in Dc.
  assert (bv c <> 48); [|nia]. intro Q. assert (c = "0"%byte) by (apply bv_inj; auto). subst c.
  specialize (HD eq_refl). inversion HD; subst. cbn in P. lia.
Qed.
Lemma numeral_zlen n s m : numeral n s -> 0 <= n < 10 ^ m -> 0 < m -> zlen s <= m.
Proof.
  intros H B M. destruct (Z.eq_dec n 0) as [->|N].
  - destruct H as (N & A & D & HD). destruct s as [|c [|d s]]; [easy|change (zlen [c]) with 1; lia|]. exfalso.
    unfold decimal in D. rewrite radix_cons in D. inversion A as [|? ? Dc A']; subst.
    assert (0 <= radix 10 (d :: s)) by (apply decimal_bound; auto).
    pose proof (Z.pow_pos_nonneg 10 (zlen (d :: s)) ltac:(lia) (zlen_nonneg _)). unfold digit in Dc.
    assert (C48 : bv c = 48) by nia. assert (C0 : c = "0"%byte) by (apply bv_inj; auto). specialize (HD C0). discriminate.
  - pose proof (numeral_len_pos _ _ H ltac:(lia)). destruct (Z_le_gt_dec (zlen s) m); auto. exfalso.
    assert (10 ^ m <= 10 ^ (zlen s - 1)) by (apply Z.pow_le_mono_r; lia). lia.
Qed.
Lemma dec_zlen n m : 0 <= n < 10 ^ 20 -> 0 < m -> n < 10 ^ m -> zlen (dec n) <= m.
Proof. intros H M B. apply (numeral_zlen n); auto using dec_numeral. lia. Qed.
Lemma pow20 : 4294967296 < 10 ^ 20. Proof. reflexivity. Qed.
Lemma dec_num n : 0 <= n <= 4294967296 -> numeral n (dec n).
Proof. intro. apply dec_numeral. pose proof pow20. lia. Qed.
Lemma dec_len n m p : 0 <= n <= 4294967296 -> 0 < m -> p = 10 ^ m -> n < p -> zlen (dec n) <= m.
Proof. intros H M -> L. apply dec_zlen; auto. pose proof pow20. lia. Qed.
Lemma dec_len5 n : 0 <= n <= 65536 -> zlen (dec n) <= 5.
Proof. intro. apply (dec_len n 5 100000); [lia|lia|reflexivity|lia]. Qed.
Lemma dec_len10 n : 0 <= n <= 4294967296 -> zlen (dec n) <= 10.
Proof. intro. apply (dec_len n 10 10000000000); [lia|lia|reflexivity|lia]. Qed.
