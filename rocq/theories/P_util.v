(** Proofs about common/fko_util.c. *)
From Verif Require Import P_bytes M_util S_text.
From Coq Require Import Init.Byte List ZArith Lia Bool.
Import ListNotations.
Open Scope Z_scope.

Lemma isdigit_digit c : isdigit c = true <-> digit c.
Proof. unfold isdigit, digit. lia. Qed.
Lemma all_digits_forallb s : forallb isdigit s = true <-> all_digits s.
Proof.
  unfold all_digits. rewrite forallb_forall, Forall_forall. split; intros H x I;
  apply isdigit_digit; auto.
Qed.

(** ** constant_runtime_cmp *)
Lemma crc_loop_spec n : forall a b g k,
  (n <= length a)%nat -> (n <= length b)%nat ->
  exists d, crc_loop n a b g k = Some (g + (Z.of_nat n - d), k + d) /\ 0 <= d <= Z.of_nat n /\
    (d = 0 <-> firstn n a = firstn n b).
Proof.
  induction n as [|n IH]; intros a b g k Ha Hb.
  - exists 0. split; [cbn [crc_loop]; f_equal; f_equal; lia|]. split; [lia|]. cbn; tauto.
  - destruct a as [|x a], b as [|y b]; cbn [length] in *; try lia.
    cbn [crc_loop firstn]. destruct (beq_spec x y) as [->|N].
    + destruct (IH a b (g+1) k) as (d & E & R & I); try lia.
      exists d. rewrite E. split; [f_equal; f_equal; lia|]. split; [lia|].
      rewrite I. split; congruence.
    + destruct (IH a b g (k+1)) as (d & E & R & I); try lia.
      exists (d+1). rewrite E. split; [f_equal; f_equal; lia|]. split; [lia|].
      split; [lia|]. congruence.
Qed.

Lemma constant_runtime_cmp_spec a b len :
  0 <= len <= zlen a -> len <= zlen b ->
  exists r, constant_runtime_cmp a b len = Some r /\
    (r = 0 <-> ztake len a = ztake len b).
Proof.
  intros Ha Hb. unfold constant_runtime_cmp, zlen, ztake in *.
  destruct (crc_loop_spec (Z.to_nat len) a b 0 0) as (d & -> & R & I); try lia.
  eexists; split; [reflexivity|]. rewrite <- I.
  destruct (0 + (Z.of_nat (Z.to_nat len) - d) =? len) eqn:E; lia.
Qed.

(** ** Numbers *)
Lemma radix_app base s t : radix base (s ++ t) =
  fold_left (fun acc c => acc * base + (bv c - 48)) t (radix base s).
Proof. unfold radix. apply fold_left_app. Qed.

Lemma digits_val_fold s : forall acc, all_digits s ->
  digits_val acc s = fold_left (fun acc c => acc * 10 + (bv c - 48)) s acc.
Proof.
  induction s as [|c s IH]; intros acc H; cbn; [auto|].
  inversion H; subst. apply isdigit_digit in H2. rewrite H2. apply IH; auto.
Qed.
Lemma digits_val_decimal s : all_digits s -> digits_val 0 s = decimal s.
Proof. apply digits_val_fold. Qed.

Lemma digits_val_stop s c t : all_digits s -> isdigit c = false -> forall acc,
  digits_val acc (s ++ c :: t) = fold_left (fun acc c => acc * 10 + (bv c - 48)) s acc.
Proof.
  intros H N. induction s as [|x s IH]; intro acc; cbn.
  - rewrite N; auto.
  - inversion H; subst. apply isdigit_digit in H2. rewrite H2. apply IH; auto.
Qed.

Lemma fold_radix_bound base s : 0 < base -> Forall (fun c => 48 <= bv c < 48 + base) s -> forall acc, 0 <= acc ->
  0 <= fold_left (fun acc c => acc * base + (bv c - 48)) s acc < (acc + 1) * base ^ zlen s.
Proof.
  intros Hb. induction s as [|c s IH]; intros H acc Ha; cbn [fold_left].
  - change (zlen []) with 0. rewrite Z.pow_0_r. lia.
  - inversion H; subst. specialize (IH H3 (acc * base + (bv c - 48)) ltac:(nia)).
    rewrite zlen_cons, Z.pow_add_r, Z.pow_1_r by (pose proof (zlen_nonneg s); lia).
    assert (0 < base ^ zlen s) by (apply Z.pow_pos_nonneg; auto using zlen_nonneg).
    split; [lia|]. nia.
Qed.
Lemma decimal_bound s : all_digits s -> 0 <= decimal s < 10 ^ zlen s.
Proof.
  intro H. assert (X := fold_radix_bound 10 s ltac:(lia)).
  unfold decimal, radix. specialize (X ltac:(eapply Forall_impl; [|exact H]; unfold digit; cbn; intros; lia) 0 ltac:(lia)).
  lia.
Qed.

Lemma isdigit_not_space c : isdigit c = true -> isspace c = false.
Proof. unfold isdigit, isspace. lia. Qed.
Lemma isdigit_not_sign c : isdigit c = true -> beq c "-"%byte = false /\ beq c "+"%byte = false.
Proof. rewrite !beq_bv. unfold isdigit. change (bv "-"%byte) with 45. change (bv "+"%byte) with 43. lia. Qed.

Lemma strtol_digits s : all_digits s -> decimal s <= LONG_MAX -> strtol s = (decimal s, false).
Proof.
  intros H L. unfold strtol.
  assert (B := decimal_bound s H).
  destruct s as [|c s].
  - reflexivity.
  - assert (D : isdigit c = true) by (apply isdigit_digit; inversion H; auto).
    cbn [skip_space]. rewrite (isdigit_not_space c D).
    destruct (isdigit_not_sign c D) as [-> ->].
    rewrite digits_val_decimal by auto.
    destruct (decimal (c :: s) >? LONG_MAX) eqn:E1; [lia|].
    destruct (decimal (c :: s) <? LONG_MIN) eqn:E2; [unfold LONG_MIN in *; lia|]. reflexivity.
Qed.

Lemma strtol_range s v e : strtol s = (v, e) -> LONG_MIN <= v <= LONG_MAX.
Proof.
  unfold strtol. destruct (match skip_space s with [] => _ | _ => _ end) as [neg s2].
  set (w := if neg then _ else _).
  unfold LONG_MIN, LONG_MAX.
  destruct (w >? 9223372036854775807) eqn:E1; [intro H; inversion H; lia|].
  destruct (w <? -9223372036854775808) eqn:E2; intro H; inversion H; lia.
Qed.

Lemma strtol_wrapper_range s min max v :
  strtol_wrapper s min max = (v, STRTOL_OK) -> min <= v /\ (0 <= max -> v <= max) /\ -2147483648 <= v < 2147483648.
Proof.
  unfold strtol_wrapper. destruct (strtol s) as [l er].
  pose proof (i32_range l).
  destruct er.
  - destruct (i32 l <? min); destruct ((max >=? 0) && (i32 l >? max)); intro H'; inversion H'.
  - destruct (i32 l <? min) eqn:E1; destruct ((max >=? 0) && (i32 l >? max)) eqn:E2; intro H'; inversion H'.
    subst. lia.
Qed.

Lemma strtol_wrapper_digits s min max :
  all_digits s -> min <= decimal s -> (0 <= max -> decimal s <= max) -> decimal s < 2147483648 ->
  strtol_wrapper s min max = (decimal s, STRTOL_OK).
Proof.
  intros H Hmin Hmax Hb. unfold strtol_wrapper.
  pose proof (decimal_bound s H).
  rewrite strtol_digits by (auto; unfold LONG_MAX; lia).
  rewrite i32_small by lia.
  destruct (decimal s <? min) eqn:E1; [lia|].
  destruct ((max >=? 0) && (decimal s >? max)) eqn:E2; [lia|]. reflexivity.
Qed.

Lemma strtol_wrapper_digits_inv s min max v :
  all_digits s -> zlen s <= 9 -> strtol_wrapper s min max = (v, STRTOL_OK) ->
  v = decimal s /\ min <= decimal s /\ (0 <= max -> decimal s <= max).
Proof.
  intros H L E. pose proof (decimal_bound s H) as B.
  assert (10 ^ zlen s <= 10 ^ 9) by (apply Z.pow_le_mono_r; lia).
  change (10^9) with 1000000000 in *.
  unfold strtol_wrapper in E. rewrite strtol_digits in E by (auto; unfold LONG_MAX; lia).
  rewrite i32_small in E by lia.
  destruct (decimal s <? min) eqn:E1; destruct ((max >=? 0) && (decimal s >? max)) eqn:E2; inversion E; subst.
  lia.
Qed.

(** ** IPv4 addresses *)
Definition octet_val (s : bytes) : option Z :=
  match s with
  | [] => None
  | c :: _ => if beq c "0"%byte
              then if forallb (fun c => bv c <? 56) s then Some (radix 8 s) else None
              else Some (decimal s)
  end.

Lemma octet_val_c_number s v : all_digits s -> (octet_val s = Some v <-> c_number s v).
Proof.
  intro H. unfold octet_val, c_number. destruct s as [|c s].
  - split; [discriminate|intros [X _]; congruence].
  - cbn [hd]. destruct (beq_spec c "0"%byte) as [->|N].
    + destruct (forallb (fun c => bv c <? 56) ("0"%byte :: s)) eqn:F.
      * split.
        -- intro E; inversion E; subst. split; [discriminate|]. split; [auto|]. right.
           split; [auto|]. split; [|auto]. rewrite forallb_forall in F. apply Forall_forall.
           intros x I. apply F in I. lia.
        -- intros (_ & _ & [[X _]|(_ & _ & ->)]); [congruence|auto].
      * split; [discriminate|]. intros (_ & _ & [[X _]|(_ & F' & _)]); [congruence|].
        exfalso. rewrite <- not_true_iff_false in F. apply F. apply forallb_forall.
        rewrite Forall_forall in F'. intros x I. apply F' in I. lia.
    + split.
      * intro E; inversion E; subst. split; [discriminate|]. split; [auto|]. left. auto.
      * intros (_ & _ & [[_ ->]|(X & _)]); [auto|congruence].
Qed.

Lemma digit_of_digit c : isdigit c = true -> isxdigit c = true /\ digit_of c = bv c - 48.
Proof. unfold isxdigit, digit_of. intro H; rewrite H. auto. Qed.

Lemma scan_base_digits base s : forall acc t,
  all_digits s -> Forall (fun c => bv c - 48 < base) s ->
  (match t with [] => True | c :: _ => isxdigit c && (digit_of c <? base) = false end) ->
  scan_base base acc (s ++ t) = (fold_left (fun acc c => acc * base + (bv c - 48)) s acc, t).
Proof.
  induction s as [|c s IH]; intros acc t H F T; cbn [app fold_left scan_base].
  - destruct t; cbn [scan_base]; [reflexivity|]. rewrite T. reflexivity.
  - inversion H; inversion F; subst. apply isdigit_digit in H2.
    destruct (digit_of_digit c H2) as [-> ->].
    destruct (bv c - 48 <? base) eqn:E; [|lia]. cbn [andb]. apply IH; auto.
Qed.

Lemma digits_split base (s : bytes) : all_digits s ->
  exists p q, s = p ++ q /\ Forall (fun c => bv c - 48 < base) p /\
     (q = [] \/ exists c r, q = c :: r /\ base <= bv c - 48).
Proof.
  induction s as [|c s IH]; intro H.
  - exists [], []. auto.
  - inversion H; subst. destruct (Z_lt_dec (bv c - 48) base).
    + destruct IH as (p & q & -> & F & Q); auto. exists (c :: p), q. auto.
    + exists [], (c :: s). split; [auto|]. split; [auto|]. right. exists c, s. split; [auto|lia].
Qed.

Definition sep_rest (t : bytes) : Prop := t = [] \/ exists r, t = "."%byte :: r.

Lemma strtoul0_dec s t : all_digits s -> s <> [] -> hd x00 s <> "0"%byte -> sep_rest t ->
  strtoul0 (s ++ t) = (decimal s, t).
Proof.
  intros H N Hd T. destruct s as [|c s]; [congruence|]. cbn [hd] in Hd. cbn [app strtoul0].
  destruct (beq_spec c "0"%byte); [congruence|].
  change (c :: s ++ t) with ((c :: s) ++ t). rewrite scan_base_digits; auto.
  - eapply Forall_impl; [|exact H]. unfold digit; cbn; intros; lia.
  - destruct T as [->|[r ->]]; [auto|reflexivity].
Qed.

Lemma strtoul0_oct s t : all_digits s -> hd x00 s = "0"%byte -> sep_rest t ->
  exists p q, s = p ++ q /\ strtoul0 (s ++ t) = (radix 8 p, q ++ t) /\
    (q = [] \/ exists c r, q = c :: r /\ isdigit c = true) /\
    (q = [] <-> Forall (fun c => bv c < 56) s).
Proof.
  intros H Hd T. destruct s as [|c s]; [discriminate|]. cbn [hd] in Hd. subst c.
  destruct (digits_split 8 ("0"%byte :: s) H) as (p & q & E & F & Q).
  exists p, q. split; [auto|].
  assert (QQ : q = [] \/ (exists c r, q = c :: r /\ isdigit c = true)).
  { destruct Q as [->|(c & r & -> & L)]; auto. right. exists c, r. split; auto.
    apply isdigit_digit. rewrite E in H. apply Forall_app in H. destruct H as [_ H]. inversion H; auto. }
  assert (S : strtoul0 (("0"%byte :: s) ++ t) = scan_base 8 0 (("0"%byte :: s) ++ t)).
  { cbn [app strtoul0]. rewrite beq_refl.
    destruct (s ++ t) as [|x [|h r']] eqn:Z; auto.
    assert (NX : beq x "x"%byte || beq x "X"%byte = false).
    { rewrite !beq_bv. change (bv "x"%byte) with 120. change (bv "X"%byte) with 88.
      destruct s as [|y s'].
      - cbn in Z. destruct T as [->|[r ->]]; inversion Z; subst. reflexivity.
      - cbn in Z. inversion Z; subst. assert (DX : digit x) by (inversion H as [|? ? _ H']; inversion H'; auto). unfold digit in DX. lia. }
    rewrite NX. reflexivity. }
  rewrite S, E, <- app_assoc. split; [|split; auto].
  - rewrite E in H. apply Forall_app in H. destruct H as [Hp Hq].
    rewrite scan_base_digits; auto.
    destruct q as [|c r]; cbn [app].
    + destruct T as [->|[r ->]]; [auto|reflexivity].
    + destruct Q as [Q|(c' & r' & Q & L)]; [discriminate|]. inversion Q; subst.
      inversion Hq; subst. apply isdigit_digit in H1.
      destruct (digit_of_digit c' H1) as [-> ->]. cbn [andb]. lia.
  - split.
    + intros ->. rewrite app_nil_r. eapply Forall_impl; [|exact F]. cbn; intros; lia.
    + intro X. apply Forall_app in X. destruct X as [_ X].
      destruct Q as [->|(c & r & -> & L)]; [auto|]. inversion X; subst. lia.
Qed.

Lemma octet_val_none_radix s : all_digits s -> s <> [] -> octet_val s = None ->
  hd x00 s = "0"%byte /\ ~ Forall (fun c => bv c < 56) s.
Proof.
  intros H N. unfold octet_val. destruct s as [|c s]; [congruence|]. cbn [hd].
  destruct (beq_spec c "0"%byte); [|discriminate].
  destruct (forallb _ _) eqn:F; [discriminate|]. intros _. split; auto.
  intro X. rewrite <- not_true_iff_false in F. apply F. apply forallb_forall.
  rewrite Forall_forall in X. intros x I. apply X in I. lia.
Qed.

Lemma inet_aton_part f parts G t : all_digits G -> sep_rest t ->
  inet_aton_go (S f) parts (G ++ t) =
  match octet_val G with
  | None => None
  | Some v => if v >? 4294967295 then None else
      match t with
      | [] => inet_aton_fin parts v
      | _ :: t' => if (zlen parts >? 2) || (v >? 255) then None else inet_aton_go f (v :: parts) t'
      end
  end.
Proof.
  intros H T. destruct G as [|c G].
  - cbn [octet_val app]. destruct T as [->|[r ->]]; reflexivity.
  - assert (D : isdigit c = true) by (apply isdigit_digit; inversion H; auto).
    cbn [app inet_aton_go]. rewrite D. cbn [negb].
    change (c :: G ++ t) with ((c :: G) ++ t).
    destruct (octet_val (c :: G)) as [v|] eqn:O.
    + apply octet_val_c_number in O; auto. destruct O as (_ & _ & O).
      assert (S : strtoul0 ((c :: G) ++ t) = (v, t)).
      { destruct O as [[Hd ->]|(Hd & F & ->)].
        - apply strtoul0_dec; auto; discriminate.
        - destruct (strtoul0_oct (c :: G) t H Hd T) as (p & q & E & Sx & Q & I).
          apply I in F. subst q. rewrite app_nil_r in E. subst p. exact Sx. }
      rewrite S. destruct (v >? 4294967295); [reflexivity|].
      destruct T as [->|[r ->]]; [reflexivity|]. rewrite beq_refl. reflexivity.
    + destruct (octet_val_none_radix _ H ltac:(discriminate) O) as [Hd NF].
      destruct (strtoul0_oct (c :: G) t H Hd T) as (p & q & E & Sx & Q & I).
      rewrite Sx. destruct (radix 8 p >? 4294967295); [reflexivity|].
      destruct Q as [->|(x & r & -> & Dx)]; [exfalso; apply NF, I; auto|].
      cbn [app]. rewrite (isdigit_not_space x Dx).
      assert (NX : beq x "."%byte = false). { rewrite beq_bv. unfold isdigit in Dx. change (bv "."%byte) with 46. lia. }
      rewrite NX. reflexivity.
Qed.

Definition quad (A B C D : bytes) : bytes :=
  A ++ ["."%byte] ++ B ++ ["."%byte] ++ C ++ ["."%byte] ++ D.

Lemma octet_val_nonneg s v : all_digits s -> octet_val s = Some v -> 0 <= v.
Proof.
  intros H O. apply octet_val_c_number in O; auto. destruct O as (_ & _ & [[_ ->]|(_ & F & ->)]).
  - apply decimal_bound; auto.
  - unfold radix. apply fold_radix_bound; try lia.
    rewrite Forall_forall in *. unfold all_digits in H. rewrite Forall_forall in H.
    intros x I. specialize (F x I). specialize (H x I). unfold digit in H. lia.
Qed.

Lemma inet_aton_quad A B C D :
  all_digits A -> all_digits B -> all_digits C -> all_digits D ->
  inet_aton (quad A B C D) =
  match octet_val A, octet_val B, octet_val C, octet_val D with
  | Some a, Some b, Some c, Some d =>
      if (a <=? 255) && (b <=? 255) && (c <=? 255) && (d <=? 255)
      then Some (a * 16777216 + b * 65536 + c * 256 + d) else None
  | _, _, _, _ => None
  end.
Proof.
  intros HA HB HC HD. unfold inet_aton, quad. cbn [app].
  assert (SR : forall r, sep_rest ("."%byte :: r)) by (intro r; right; eauto).
  rewrite inet_aton_part by auto.
  destruct (octet_val A) as [a|] eqn:OA; [|reflexivity]. apply octet_val_nonneg in OA; auto.
  destruct (a >? 4294967295) eqn:E1.
  { destruct (octet_val B), (octet_val C), (octet_val D); auto. destruct (a <=? 255) eqn:E; [lia|reflexivity]. }
  change (zlen (@nil Z) >? 2) with false. cbn [orb].
  destruct (a >? 255) eqn:E2.
  { destruct (octet_val B), (octet_val C), (octet_val D); auto. destruct (a <=? 255) eqn:E; [lia|reflexivity]. }
  rewrite inet_aton_part by auto.
  destruct (octet_val B) as [b|] eqn:OB; [|reflexivity]. apply octet_val_nonneg in OB; auto.
  destruct (a <=? 255) eqn:EA; [cbn [andb]|lia].
  destruct (b >? 4294967295) eqn:E3.
  { destruct (octet_val C), (octet_val D); auto. destruct (b <=? 255) eqn:E; [lia|reflexivity]. }
  change (zlen [a] >? 2) with false. cbn [orb].
  destruct (b >? 255) eqn:E4.
  { destruct (octet_val C), (octet_val D); auto. destruct (b <=? 255) eqn:E; [lia|reflexivity]. }
  rewrite inet_aton_part by auto.
  destruct (octet_val C) as [c|] eqn:OC; [|reflexivity]. apply octet_val_nonneg in OC; auto.
  destruct (b <=? 255) eqn:EB; [cbn [andb]|lia].
  destruct (c >? 4294967295) eqn:E5.
  { destruct (octet_val D); auto. destruct (c <=? 255) eqn:E; [lia|reflexivity]. }
  change (zlen [b; a] >? 2) with false. cbn [orb].
  destruct (c >? 255) eqn:E6.
  { destruct (octet_val D); auto. destruct (c <=? 255) eqn:E; [lia|reflexivity]. }
  rewrite <- (app_nil_r D). rewrite inet_aton_part by (auto; left; auto). rewrite app_nil_r.
  destruct (octet_val D) as [d|] eqn:OD; [|reflexivity].
  destruct (c <=? 255) eqn:EC; [cbn [andb]|lia].
  destruct (d >? 4294967295) eqn:E7.
  { destruct (d <=? 255) eqn:E; [lia|reflexivity]. }
  cbn [inet_aton_fin]. destruct (d >? 255) eqn:E8; destruct (d <=? 255) eqn:E9; try lia; reflexivity.
Qed.

Lemma ipv4_scan_spec s : forall n d0 r, ipv4_scan n s d0 = Some r ->
  exists p q, s = p ++ q /\ length p = n /\ Forall (fun c => c = "."%byte \/ digit c) p /\
    r = d0 + zlen (filter (beq "."%byte) p).
Proof.
  induction s as [|c s IH]; intros n d0 r; destruct n as [|n]; cbn [ipv4_scan]; intro H.
  - inversion H; subst. exists [], []. cbn. change (zlen []) with 0. repeat split; auto; lia.
  - discriminate.
  - inversion H; subst. exists [], (c :: s). cbn. change (zlen []) with 0. repeat split; auto; lia.
  - destruct (beq_spec c x00); [discriminate|].
    destruct (beq_spec c "."%byte) as [->|N].
    + destruct (IH _ _ _ H) as (p & q & -> & L & F & R). exists ("."%byte :: p), q.
      cbn [app length filter]. rewrite beq_refl, zlen_cons. repeat split; auto; try lia.
    + destruct (isdigit c) eqn:D; [|discriminate]. apply isdigit_digit in D.
      destruct (IH _ _ _ H) as (p & q & -> & L & F & R). exists (c :: p), q.
      cbn [app length filter]. destruct (beq_spec "."%byte c); [congruence|].
      repeat split; auto; try lia.
Qed.

Lemma ipv4_scan_ok p : forall q d0, Forall (fun c => c = "."%byte \/ digit c) p ->
  ipv4_scan (length p) (p ++ q) d0 = Some (d0 + zlen (filter (beq "."%byte) p)).
Proof.
  induction p as [|c p IH]; intros q d0 F; cbn [app length ipv4_scan filter].
  - f_equal. change (zlen []) with 0. lia.
  - inversion F; subst.
    destruct (beq_spec c x00) as [->|].
    { exfalso. destruct H1 as [X|X]; [discriminate|]. unfold digit in X. change (bv x00) with 0 in X. lia. }
    destruct (beq_spec c "."%byte) as [->|N].
    + rewrite beq_refl, zlen_cons, IH by auto. f_equal; lia.
    + destruct H1 as [|D]; [congruence|]. apply isdigit_digit in D. rewrite D.
      destruct (beq_spec "."%byte c); [congruence|]. apply IH; auto.
Qed.

Lemma split_first_dot p : Forall (fun c => c = "."%byte \/ digit c) p ->
  0 < zlen (filter (beq "."%byte) p) ->
  exists A t, p = A ++ "."%byte :: t /\ all_digits A /\ Forall (fun c => c = "."%byte \/ digit c) t /\
   zlen (filter (beq "."%byte) p) = 1 + zlen (filter (beq "."%byte) t).
Proof.
  induction p as [|c p IH]; cbn [filter]; intros F H.
  - change (zlen []) with 0 in H. lia.
  - inversion F; subst. destruct (beq_spec "."%byte c) as [<-|N].
    + exists [], p. cbn [app]. rewrite zlen_cons. repeat split; auto. constructor.
    + destruct H2 as [|D]; [congruence|].
      destruct (IH H3 H) as (A & t & -> & HA & Ft & E). exists (c :: A), t.
      cbn [app]. repeat split; auto. constructor; auto.
Qed.
Lemma no_dots p : Forall (fun c => c = "."%byte \/ digit c) p ->
  zlen (filter (beq "."%byte) p) = 0 -> all_digits p.
Proof.
  induction p as [|c p IH]; cbn [filter]; intros F H; [constructor|].
  inversion F; subst. destruct (beq_spec "."%byte c) as [<-|N].
  - rewrite zlen_cons in H. pose proof (zlen_nonneg (filter (beq "."%byte) p)). lia.
  - destruct H2; [congruence|]. constructor; auto. apply IH; auto.
Qed.

Lemma three_dots p : Forall (fun c => c = "."%byte \/ digit c) p ->
  zlen (filter (beq "."%byte) p) = 3 ->
  exists A B C D, p = quad A B C D /\ all_digits A /\ all_digits B /\ all_digits C /\ all_digits D.
Proof.
  intros F H.
  destruct (split_first_dot p F ltac:(lia)) as (A & t & -> & HA & Ft & E1).
  destruct (split_first_dot t Ft ltac:(lia)) as (B & u & -> & HB & Fu & E2).
  destruct (split_first_dot u Fu ltac:(lia)) as (C & D & -> & HC & FD & E3).
  exists A, B, C, D. repeat split; auto. apply no_dots; auto. lia.
Qed.

Lemma quad_dots A B C D : all_digits A -> all_digits B -> all_digits C -> all_digits D ->
  Forall (fun c => c = "."%byte \/ digit c) (quad A B C D) /\
  zlen (filter (beq "."%byte) (quad A B C D)) = 3.
Proof.
  intros HA HB HC HD.
  assert (X : forall l, all_digits l -> Forall (fun c => c = "."%byte \/ digit c) l /\ filter (beq "."%byte) l = []).
  { induction l as [|c l IH]; intro H; [cbn; auto|]. inversion H; subst.
    destruct (IH H3) as [Y Z]. split; [constructor; auto|]. cbn [filter].
    destruct (beq_spec "."%byte c) as [<-|]; [|auto].
    unfold digit in H2. change (bv "."%byte) with 46 in H2. lia. }
  unfold quad. split.
  - repeat (apply Forall_app; split); try (apply X; assumption); constructor; auto.
  - rewrite !filter_app. destruct (X A HA) as [_ ->], (X B HB) as [_ ->], (X C HC) as [_ ->], (X D HD) as [_ ->].
    reflexivity.
Qed.

Theorem is_valid_ipv4_iff s len :
  0 <= len <= zlen s ->
  is_valid_ipv4_addr s len = true <->
  (7 <= len <= 16 /\ exists a b c d, ipv4_text (ztake len s) a b c d).
Proof.
  intro Hlen. unfold is_valid_ipv4_addr, MAX_IPV4_STR_LEN, MIN_IPV4_STR_LEN.
  destruct ((len >? 16) || (len <? 7)) eqn:R.
  { split; [discriminate|]. intros [? _]. lia. }
  split.
  - destruct (ipv4_scan (Z.to_nat len) s 0) as [dots|] eqn:Sc; [|discriminate].
    destruct (dots =? 3) eqn:E3; [|discriminate]. intro H. split; [lia|].
    apply ipv4_scan_spec in Sc. destruct Sc as (p & q & -> & L & F & Rd).
    assert (TP : ztake len (p ++ q) = p) by (apply ztake_app; unfold zlen; lia).
    rewrite TP in *.
    destruct (three_dots p F ltac:(lia)) as (A & B & C & D & -> & HA & HB & HC & HD).
    rewrite inet_aton_quad in H by auto.
    destruct (octet_val A) as [a|] eqn:OA; [|discriminate].
    destruct (octet_val B) as [b|] eqn:OB; [|discriminate].
    destruct (octet_val C) as [c|] eqn:OC; [|discriminate].
    destruct (octet_val D) as [d|] eqn:OD; [|discriminate].
    destruct ((a <=? 255) && (b <=? 255) && (c <=? 255) && (d <=? 255)) eqn:V; [|discriminate].
    exists a, b, c, d, A, B, C, D. split; [reflexivity|].
    apply octet_val_c_number in OA, OB, OC, OD; auto.
    split; [exact OA|]. split; [exact OB|]. split; [exact OC|]. split; [exact OD|]. lia.
  - intros (_ & a & b & c & d & A & B & C & D & E & NA & NB & NC & ND & Ba & Bb & Bc & Bd).
    assert (HA := proj1 (proj2 NA)). assert (HB := proj1 (proj2 NB)).
    assert (HC := proj1 (proj2 NC)). assert (HD := proj1 (proj2 ND)).
    change (A ++ _) with (quad A B C D) in E.
    destruct (quad_dots A B C D HA HB HC HD) as [F N3].
    rewrite <- (ztake_zdrop len s), E.
    assert (LE : Z.to_nat len = length (quad A B C D)).
    { rewrite <- E. unfold ztake. rewrite firstn_length. unfold zlen in Hlen. lia. }
    rewrite LE, ipv4_scan_ok by auto. rewrite N3. change (0 + 3 =? 3) with true. cbv iota.
    rewrite ztake_app by (unfold zlen; lia).
    rewrite inet_aton_quad by auto.
    apply octet_val_c_number in NA, NB, NC, ND; auto.
    rewrite NA, NB, NC, ND.
    destruct ((a <=? 255) && (b <=? 255) && (c <=? 255) && (d <=? 255)) eqn:V; [reflexivity|lia].
Qed.

Lemma inet_aton_text s a b c d : ipv4_text s a b c d ->
  inet_aton s = Some (a * 16777216 + b * 65536 + c * 256 + d) /\ 0 <= a /\ 0 <= b /\ 0 <= c /\ 0 <= d.
Proof.
  intros (A & B & C & D & -> & NA & NB & NC & ND & Ba & Bb & Bc & Bd).
  assert (HA := proj1 (proj2 NA)). assert (HB := proj1 (proj2 NB)).
  assert (HC := proj1 (proj2 NC)). assert (HD := proj1 (proj2 ND)).
  change (A ++ _) with (quad A B C D).
  rewrite inet_aton_quad by auto.
  apply octet_val_c_number in NA, NB, NC, ND; auto.
  rewrite NA, NB, NC, ND.
  destruct ((a <=? 255) && (b <=? 255) && (c <=? 255) && (d <=? 255)) eqn:V; [|lia].
  split; [reflexivity|].
  split; [exact (octet_val_nonneg _ _ HA NA)|]. split; [exact (octet_val_nonneg _ _ HB NB)|].
  split; [exact (octet_val_nonneg _ _ HC NC)|exact (octet_val_nonneg _ _ HD ND)].
Qed.

Lemma canonical_c_number s v : canonical_octet s v -> c_number s v.
Proof.
  intros (N & H & E & B & Z). split; auto. split; auto.
  destruct (byte_eq_dec (hd x00 s) "0"%byte) as [E0|]; [|left; auto].
  right. split; auto. specialize (Z E0). subst s. split; [|subst; reflexivity].
  repeat constructor.
Qed.

Lemma ipv4_text_chars s a b c d : ipv4_text s a b c d ->
  Forall (fun x => x = "."%byte \/ digit x) s.
Proof.
  intros (A & B & C & D & -> & (_ & HA & _) & (_ & HB & _) & (_ & HC & _) & (_ & HD & _) & _).
  apply (quad_dots A B C D); auto.
Qed.

(** ** What [strtol_wrapper] reads *)
Lemma leading_val s n : leading s n -> digits_val 0 s = n.
Proof.
  intros (ds & rest & -> & D & R & ->). destruct R as [->|R].
  - rewrite app_nil_r. apply digits_val_decimal; auto.
  - destruct rest as [|c t]; [rewrite app_nil_r; apply digits_val_decimal; auto|].
    apply digits_val_stop; auto. cbn in R. rewrite <- isdigit_digit in R. apply not_true_is_false; auto.
Qed.

Lemma blank_isspace c : isspace c = true <-> blank c.
Proof. unfold isspace, blank. lia. Qed.

Lemma skip_space_spec sp : forall body, Forall blank sp -> ~ blank (hd x00 body) -> skip_space (sp ++ body) = body.
Proof.
  induction sp as [|c sp IH]; intros body F N.
  - cbn [app]. destruct body as [|c b]; [reflexivity|]. cbn [skip_space hd] in *.
    rewrite <- blank_isspace in N. apply not_true_is_false in N. rewrite N. reflexivity.
  - inversion F; subst. cbn [app skip_space]. apply blank_isspace in H1. rewrite H1. auto.
Qed.

Lemma strtol_reads s n : integer_text s n ->
  strtol s = if n >? LONG_MAX then (LONG_MAX, true) else if n <? LONG_MIN then (LONG_MIN, true) else (n, false).
Proof.
  intros (sp & body & -> & F & N & H). unfold strtol. rewrite skip_space_spec by auto.
  destruct H as [(r & m & -> & L & ->)|[(r & -> & L)|(N1 & N2 & L)]].
  - rewrite beq_refl. rewrite (leading_val _ _ L). reflexivity.
  - change (beq "+"%byte "-"%byte) with false. cbv iota. rewrite beq_refl, (leading_val _ _ L). reflexivity.
  - destruct body as [|c r].
    + rewrite (leading_val _ _ L). reflexivity.
    + cbn [hd] in *. apply beq_neq in N1, N2. rewrite N1, N2, (leading_val _ _ L). reflexivity.
Qed.

Theorem strtol_wrapper_reads s min max n : integer_text s n -> -2147483648 <= n < 2147483648 ->
  forall v e, strtol_wrapper s min max = (v, e) ->
  v = n /\ (e = STRTOL_OK <-> (min <= n /\ (0 <= max -> n <= max))).
Proof.
  intros H R v e. unfold strtol_wrapper. rewrite (strtol_reads _ _ H). unfold LONG_MAX, LONG_MIN.
  destruct (n >? 9223372036854775807) eqn:E1; [lia|]. destruct (n <? -9223372036854775808) eqn:E2; [lia|].
  rewrite i32_small by lia. intro E. inversion E; subst. split; [auto|].
  destruct ((max >=? 0) && (v >? max)) eqn:E3; [split; [discriminate|lia]|].
  destruct (v <? min) eqn:E4; [split; [discriminate|lia]|]. split; [lia|auto].
Qed.

Lemma leading_exists s : exists n, leading s n.
Proof.
  assert (X : exists ds rest, s = ds ++ rest /\ all_digits ds /\ (rest = [] \/ ~ digit (hd x00 rest))).
  { induction s as [|c s (ds & rest & -> & D & R)].
    - exists [], []. repeat split; [constructor|auto].
    - destruct (isdigit c) eqn:E.
      + apply isdigit_digit in E. exists (c :: ds), rest. split; [auto|]. split; [constructor; auto|auto].
      + exists [], (c :: ds ++ rest). split; [auto|]. split; [constructor|]. right. cbn.
        rewrite <- isdigit_digit. congruence. }
  destruct X as (ds & rest & E & D & R). exists (decimal ds), ds, rest. auto.
Qed.

(** every text denotes a number in this sense, so [integer_text] is not a restriction *)
Lemma integer_text_exists s : exists n, integer_text s n.
Proof.
  assert (X : exists sp body, s = sp ++ body /\ Forall blank sp /\ ~ blank (hd x00 body)).
  { induction s as [|c s (sp & body & -> & F & N)].
    - exists [], []. repeat split; auto. cbn. unfold blank. change (bv x00) with 0. lia.
    - destruct (isspace c) eqn:E.
      + apply blank_isspace in E. exists (c :: sp), body. auto.
      + exists [], (c :: sp ++ body). repeat split; auto. cbn. rewrite <- blank_isspace. congruence. }
  destruct X as (sp & body & -> & F & N).
  destruct body as [|c r].
  - exists 0, sp, []. split; [auto|]. split; [auto|]. split; [auto|]. right; right.
    split; [discriminate|]. split; [discriminate|]. exists [], []. repeat split; auto. constructor.
  - destruct (leading_exists r) as [m L]. destruct (leading_exists (c :: r)) as [k K].
    destruct (beq_spec c "-"%byte) as [->|N1].
    + exists (- m), sp, ("-"%byte :: r). repeat (split; [auto|]). left. eauto.
    + destruct (beq_spec c "+"%byte) as [->|N2].
      * exists m, sp, ("+"%byte :: r). repeat (split; [auto|]). right; left. eauto.
      * exists k, sp, (c :: r). repeat (split; [auto|]). right; right. auto.
Qed.
