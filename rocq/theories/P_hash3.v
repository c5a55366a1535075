(** SHA-1. *)
From Verif Require Import Bytes M_hash S_hash P_bytes P_aes P_hash1 P_hash2.
From Coq Require Import Init.Byte List ZArith Bool Lia.
Import ListNotations.
Open Scope Z_scope.

(** ** Byte order *)
Lemma from_be_le l : from_be l = le (rev l).
Proof. rewrite le_from. unfold from_le. now rewrite rev_involutive. Qed.
Lemma le_bit l : forall n, (n < 8 * length l)%nat -> Z.testbit (le l) (Z.of_nat n) = Z.testbit (bv (nth (n / 8) l x00)) (Z.of_nat (n mod 8)).
Proof.
  induction l as [|b l IH]; intros n N; [cbn in N; lia|]. cbn [le length] in *. pose proof (bv_range b) as R.
  replace (256 * le l) with (le l * 2 ^ 8) by lia. rewrite <- lor_app, Z.lor_spec by lia.
  destruct (Nat.lt_ge_cases n 8) as [L|L].
  - rewrite (Nat.div_small n 8), (Nat.mod_small n 8) by auto. rewrite Z.shiftl_spec_low by lia. now rewrite orb_false_r.
  - rewrite (word_high 8 (bv b)) by (unfold word; lia). rewrite Z.shiftl_spec by lia. cbn [orb].
    replace n with (n - 8 + 1 * 8)%nat at 2 3 by lia. rewrite Nat.div_add, Nat.mod_add by lia. rewrite Nat.add_1_r. cbn [nth].
    rewrite <- IH by lia. f_equal. lia.
Qed.
Lemma le4 l : length l = 4%nat -> word 32 (le l).
Proof. apply (le_word 4). Qed.

Lemma byte_order (k : nat) (g : Z -> Z) : (0 < k)%nat ->
  (forall x, word (8 * Z.of_nat k) x -> word (8 * Z.of_nat k) (g x)) ->
  (forall x n, word (8 * Z.of_nat k) x -> (n < 8 * k)%nat -> Z.testbit (g x) (Z.of_nat n) = Z.testbit x (Z.of_nat (8 * (k - 1 - n / 8) + n mod 8))) ->
  forall l, length l = k -> g (le l) = from_be l.
Proof.
  intros KP W H l L. rewrite from_be_le. apply Z.bits_inj'. intros n N. destruct (Z.lt_ge_cases n (8 * Z.of_nat k)) as [C|C].
  - rewrite <- (Z2Nat.id n) by auto. set (i := Z.to_nat n). assert (K : (i < 8 * k)%nat) by lia.
    pose proof (Nat.mod_upper_bound i 8 ltac:(lia)) as M. assert (D : (i / 8 < k)%nat) by (apply Nat.div_lt_upper_bound; lia).
    rewrite H by (auto; apply le_word; auto). rewrite !le_bit by (rewrite ?rev_length; lia).
    rewrite rev_nth by (rewrite L; auto). rewrite L.
    rewrite (Nat.mul_comm 8), Nat.add_comm, Nat.div_add, Nat.mod_add, Nat.div_small, Nat.mod_mod by lia. cbn [plus].
    do 3 f_equal. lia.
  - rewrite !(word_high (8 * Z.of_nat k)); auto; apply le_word + apply W, le_word; auto. now rewrite rev_length.
Qed.
(** One bit of an expression with known shifts and masks *)
Ltac bit1 := repeat first
  [ rewrite Z.lor_spec | rewrite Z.land_spec | rewrite u32_mod | rewrite u64_mod | rewrite Z.mod_pow2_bits_low by lia
  | rewrite Z.shiftl_spec by lia | rewrite Z.shiftr_spec by lia ];
  cbn [Z.of_nat Z.add Z.sub Z.opp Pos.of_succ_nat Pos.succ Pos.add Z.pos_sub Pos.pred_double Z.succ_double Z.pred_double Z.double Pos.mul Nat.mul Nat.add Nat.sub Nat.div Nat.modulo Nat.divmod fst snd];
  repeat match goal with |- context [Z.testbit ?x (Zneg ?p)] => rewrite (Z.testbit_neg_r x (Zneg p)) by reflexivity end;
  repeat match goal with
  | |- context [Z.testbit (Zpos ?p) ?q] => let v := eval vm_compute in (Z.testbit (Zpos p) q) in change (Z.testbit (Zpos p) q) with v end;
  repeat match goal with H : word ?w ?x |- context [Z.testbit ?x ?q] => rewrite (word_high w x q H) by lia end;
  rewrite ?andb_true_r, ?andb_false_r, ?orb_false_r, ?orb_false_l; reflexivity.
Lemma swap_bits x n : word (8 * Z.of_nat 4) x -> (n < 8 * 4)%nat -> Z.testbit (swap32 x) (Z.of_nat n) = Z.testbit x (Z.of_nat (8 * (4 - 1 - n / 8) + n mod 8)).
Proof.
  intros _ N. unfold swap32. do 32 (destruct n as [|n]; [bit1|]). lia.
Qed.
Lemma swap_be l : length l = 4%nat -> swap32 (le l) = from_be l.
Proof.
  apply (byte_order 4); [lia| |exact swap_bits]. intros x X. change (8 * Z.of_nat 4) with 32 in *. unfold swap32. rewrite !u32_mod.
  assert (H : forall m a, word 32 m -> word 32 (Z.land a m)) by (intros; apply word_land; auto; lia).
  repeat apply word_lor; try lia; apply H; unfold word; lia.
Qed.

(** ** The message schedule *)
Lemma nth_rev (w : list Z) i : (i < length w)%nat -> wnth (rev w) (length w - 1 - i) = at_ w i.
Proof. intros L. unfold wnth, at_. rewrite rev_nth by lia. f_equal. lia. Qed.
Lemma words_nth k w i : 0 <= k -> Forall (word k) w -> word k (at_ w i).
Proof.
  intros K F. unfold at_. destruct (Nat.lt_ge_cases i (length w)).
  - rewrite Forall_forall in F. apply F, nth_In; auto. - rewrite nth_overflow by auto. unfold word. pose proof (Z.pow_pos_nonneg 2 k). lia.
Qed.
Lemma R32_eq x n : 0 <= n <= 32 -> word 32 x -> R32 x n = rotl 32 n x.
Proof.
  intros N X. unfold R32. rewrite T32_mod, u32_mod, rotl_lor by auto. apply Z.mod_small. apply word_rotl; auto.
Qed.
Lemma sha1_next_word w : Forall (word 32) w -> word 32 (sha1_next w).
Proof. intros F. unfold sha1_next. apply word_rotl; [lia|]. repeat apply word_lxor; try lia; apply words_nth; auto; lia. Qed.
Lemma grow_length f n : forall w, length (grow f n w) = (n + length w)%nat.
Proof. induction n as [|n IH]; intros w; [reflexivity|]. cbn [grow]. rewrite IH. cbn [length]. lia. Qed.
Lemma grow_words k f n : (forall w, Forall (word k) w -> word k (f w)) -> forall w, Forall (word k) w -> Forall (word k) (grow f n w).
Proof. intros H. induction n as [|n IH]; intros w F; [exact F|]. cbn [grow]. apply IH. constructor; auto. Qed.
Lemma expand_grow k : forall w, (16 <= length w)%nat -> Forall (word 32) w -> sha1_expand k (rev w) = rev (grow sha1_next k w).
Proof.
  induction k as [|k IH]; intros w L F; [reflexivity|]. cbn [sha1_expand grow]. rewrite rev_length.
  rewrite <- IH; [|cbn [length]; lia|constructor; auto using sha1_next_word]. cbn [rev]. f_equal. f_equal. f_equal.
  replace (length w - 3)%nat with (length w - 1 - 2)%nat by lia. replace (length w - 8)%nat with (length w - 1 - 7)%nat by lia.
  replace (length w - 14)%nat with (length w - 1 - 13)%nat by lia. replace (length w - 16)%nat with (length w - 1 - 15)%nat by lia.
  rewrite !nth_rev by lia. unfold sha1_next. apply R32_eq; [lia|]. repeat apply word_lxor; try lia; apply words_nth; auto; lia.
Qed.

(** ** Rounds *)
Definition words5 (r : Z * Z * Z * Z * Z) : Prop := let '(a, b, c, d, e) := r in word 32 a /\ word 32 b /\ word 32 c /\ word 32 d /\ word 32 e.
Definition same (f g : Z -> Z -> Z -> Z) : Prop := forall x y z, word 32 x -> word 32 y -> word 32 z -> f x y z = g x y z.
Lemma f1_eq : same f1 (Choose 32).
Proof.
  intros x y z X Y Z. unfold f1, Choose. rewrite u32_mod, lnot_mod by (auto; lia). apply Z.bits_inj'. intros n N.
  rewrite Z.lor_spec, Z.lxor_spec, !Z.land_spec, wnot_spec by (auto; lia). destruct (Z.testbit x n), (Z.testbit y n), (Z.testbit z n), (n <? 32); reflexivity.
Qed.
Lemma f3_eq : same f3 Majority.
Proof.
  intros x y z X Y Z. unfold f3, Majority. apply Z.bits_inj'. intros n N.
  rewrite !Z.lor_spec, !Z.lxor_spec, !Z.land_spec. destruct (Z.testbit x n), (Z.testbit y n), (Z.testbit z n); reflexivity.
Qed.
Lemma FG_eq f g k W t r : same f g -> sha1_f t = (g, k) -> words5 r -> FG f k r (at_ W t) = sha1_round W r t.
Proof.
  destruct r as [[[[a b] c] d] e]. intros S E (A & B & C & D & E'). unfold FG, sha1_round. rewrite E. rewrite T32_mod, !R32_eq by (auto; lia). rewrite S by auto.
  assert (X : (rotl 32 5 a + g b c d + e + at_ W t + k) mod 2 ^ 32 = add 32 (add 32 (add 32 (add 32 (rotl 32 5 a) (g b c d)) e) k) (at_ W t)).
  { unfold add. generalize (2 ^ 32). intros M. rewrite (Zplus_mod_idemp_l _ e), (Zplus_mod_idemp_l _ k), (Zplus_mod_idemp_l _ (at_ W t)). f_equal. lia. }
  now rewrite X.
Qed.
Lemma round_words W t r : words5 r -> words5 (sha1_round W r t).
Proof.
  destruct r as [[[[a b] c] d] e]. intros (A & B & C & D & E'). unfold sha1_round. destruct (sha1_f t). repeat split; try apply word_add; try apply word_rotl; try lia; assumption || apply A || apply C || apply D.
Qed.
Lemma rounds_words W l : forall r, words5 r -> words5 (fold_left (sha1_round W) l r).
Proof. induction l as [|t l IH]; intros r H; [exact H|]. apply IH, round_words, H. Qed.
Lemma rounds f g k W n : same f g -> forall s r, (forall t, (s <= t < s + n)%nat -> sha1_f t = (g, k)) -> (s + n <= length W)%nat -> words5 r ->
  fold_left (FG f k) (firstn n (skipn s W)) r = fold_left (sha1_round W) (seq s n) r.
Proof.
  intros S. induction n as [|n IH]; intros s r H L WR; [reflexivity|].
  assert (E : skipn s W = at_ W s :: skipn (Datatypes.S s) W).
  { clear -L. revert s L. induction W as [|x W IH]; intros s L; [cbn in L; lia|]. destruct s as [|s]; [reflexivity|]. cbn [length] in L. cbn [skipn]. apply IH. lia. }
  rewrite E. cbn [firstn fold_left seq]. rewrite (FG_eq f g k) by (auto; apply H; lia). apply IH; try lia.
  - intros t T. apply H. lia. - apply round_words; auto.
Qed.
Lemma words_length n k l : length (words n k l) = n.
Proof. revert l. induction n as [|n IH]; intros l; [reflexivity|]. cbn [words length]. now rewrite IH. Qed.
Lemma swap_words b : length b = 64%nat -> map swap32 (words 16 4 b) = map from_be (cut 4 b) /\ Forall (word 32) (map from_be (cut 4 b)) /\ length (map from_be (cut 4 b)) = 16%nat.
Proof.
  intros L. pose proof (cut_pieces 4 ltac:(lia) 16 b L) as [P2 P1]. rewrite (words_cut 4) by (auto; lia). rewrite map_map. split; [|split].
  - apply map_ext_in. intros x X. rewrite Forall_forall in P2. rewrite <- le_from. apply swap_be. auto.
  - rewrite Forall_map. eapply Forall_impl; [|exact P2]. intros x X. cbv beta in X. rewrite from_be_le. apply le4. now rewrite rev_length.
  - now rewrite map_length.
Qed.
Lemma sha1_transform_eq r b : words5 r -> length b = 64%nat -> sha1_transform r b = sha1_block r b.
Proof.
  intros WR L. destruct (swap_words b L) as (E & F & N). unfold sha1_transform, sha1_block. rewrite E. set (M := map from_be (cut 4 b)) in *.
  assert (X : sha1_expand 64 M = sha1_schedule M).
  { unfold sha1_schedule. rewrite <- expand_grow; [now rewrite rev_involutive|rewrite rev_length; lia|apply Forall_rev; auto]. }
  rewrite X. set (W := sha1_schedule M). assert (LW : length W = 80%nat).
  { unfold W, sha1_schedule. rewrite rev_length, grow_length, rev_length. lia. }
  clearbody W. cbv zeta. replace (firstn 20 W) with (firstn 20 (skipn 0 W)) by reflexivity.
  replace 0x5a827999 with (sha1_k 2) by (vm_compute; reflexivity). replace 0x6ed9eba1 with (sha1_k 3) by (vm_compute; reflexivity).
  replace 0x8f1bbcdc with (sha1_k 5) by (vm_compute; reflexivity). replace 0xca62c1d6 with (sha1_k 10) by (vm_compute; reflexivity).
  assert (Q : forall s g k, sha1_f s = (g, k) -> (s mod 20 = 0)%nat -> forall t, (s <= t < s + 20)%nat -> sha1_f t = (g, k)).
  { intros s g k S0 S1 t T. rewrite <- S0. unfold sha1_f. replace (t / 20)%nat with (s / 20)%nat; [reflexivity|].
    pose proof (Nat.div_mod s 20 ltac:(lia)). apply Nat.div_unique with (r := (t - s)%nat); lia. }
  rewrite (rounds f1 (Choose 32) (sha1_k 2) W 20 f1_eq 0) by (auto; try lia; apply Q; reflexivity).
  rewrite (rounds f2 Parity (sha1_k 3) W 20 ltac:(intros ? ? ? ? ? ?; reflexivity) 20); [|apply Q; reflexivity|lia|apply rounds_words; auto].
  rewrite (rounds f3 Majority (sha1_k 5) W 20 f3_eq 40); [|apply Q; reflexivity|lia|repeat apply rounds_words; auto].
  rewrite (rounds f4 Parity (sha1_k 10) W 20 ltac:(intros ? ? ? ? ? ?; reflexivity) 60); [|apply Q; reflexivity|lia|repeat apply rounds_words; auto].
  rewrite <- !fold_left_app.
  match goal with |- context [fold_left (sha1_round W) ?l r] => replace l with (seq 0 80) by reflexivity end.
  destruct (fold_left _ _ _) as [[[[? ?] ?] ?] ?]. destruct r as [[[[? ?] ?] ?] ?]. now rewrite !T32_mod.
Qed.
Lemma sha1_block_words r b : words5 (sha1_block r b).
Proof. destruct r as [[[[a b'] c] d] e]. unfold sha1_block. destruct (fold_left _ _ _) as [[[[? ?] ?] ?] ?]. repeat split; apply word_add; lia. Qed.

(** ** The context *)
Definition sha1_inv (c : sha1_ctx) (m : bytes) : Prop :=
  held _ sha1_block sha1_start 64 (s_digest c) (s_data c) m /\ words5 (s_digest c) /\
  s_lo c = (8 * zlen m) mod 2 ^ 32 /\ s_hi c = (8 * zlen m / 2 ^ 32) mod 2 ^ 32 /\ s_local c = (length m mod 64)%nat.
Lemma sha1_init_inv junk : length junk = 64%nat -> sha1_inv (sha1_init junk) [].
Proof.
  intros L. split; [apply held_init; auto; lia|]. split; [|repeat split; reflexivity]. repeat split; vm_compute; congruence.
Qed.
Lemma sha1_loop_spec fuel : forall st buf m data, (length data < fuel)%nat -> held _ sha1_block sha1_start 64 st buf m -> words5 st -> (length m mod 64 = 0)%nat ->
  let '(st', buf', l) := sha1_loop fuel st buf data in held _ sha1_block sha1_start 64 st' buf' (m ++ data) /\ words5 st' /\ l = (length (m ++ data) mod 64)%nat.
Proof.
  induction fuel as [|fuel IH]; intros st buf m data F H WR Z0; [lia|]. cbn [sha1_loop].
  assert (LB : length buf = 64%nat) by (destruct H as (? & ? & ? & _ & _ & _ & _ & H & _); exact H).
  destruct (Z.leb_spec 64 (zlen data)).
  - unfold zlen in *. assert (F64 : length (firstn 64 data) = 64%nat) by (rewrite firstn_length; lia).
    cbv zeta. rewrite put_0, F64, skipn_all2, app_nil_r by lia. rewrite sha1_transform_eq by auto.
    specialize (IH (sha1_block st (firstn 64 data)) (firstn 64 data) (m ++ firstn 64 data) (skipn 64 data)).
    rewrite <- app_assoc, firstn_skipn in IH. apply IH.
    + rewrite skipn_length; lia.
    + apply (held_block _ _ _ 64%nat ltac:(lia) st buf); auto.
    + apply sha1_block_words.
    + rewrite app_length, F64. replace (length m + 64)%nat with (length m + 1 * 64)%nat by lia. now rewrite Nat.mod_add by lia.
  - unfold zlen in *. split; [|split]; auto.
    + pose proof (held_part _ _ _ 64%nat ltac:(lia) st buf m data H) as P. rewrite Z0 in P. apply P. lia.
    + rewrite app_length, Nat.add_mod, Z0, (Nat.mod_small (length data)) by lia. cbn [plus]. symmetry. apply Nat.mod_small. lia.
Qed.
Lemma sha1_update_inv c m d : sha1_inv c m -> sha1_inv (sha1_update c d) (m ++ d).
Proof.
  intros (H & WR & B0 & B1 & LO). unfold sha1_update. cbv zeta. rewrite B0, B1, LO. rewrite !T32_mod, <- !u32_mod.
  destruct (bits_add (8 * zlen m) (zlen d)) as [E0 E1]; [unfold zlen; lia|unfold zlen; lia|]. cbv zeta in E0, E1. rewrite !u32_mod in *. rewrite E1, E0.
  assert (LN : 8 * zlen m + 8 * zlen d = 8 * zlen (m ++ d)) by (unfold zlen; rewrite app_length; lia). rewrite LN.
  assert (LB : length (s_data c) = 64%nat) by (destruct H as (? & ? & ? & _ & _ & _ & _ & H & _); exact H).
  destruct (length m mod 64)%nat as [|t] eqn:T.
  - pose proof (sha1_loop_spec (S (length d)) (s_digest c) (s_data c) m d ltac:(lia) H WR T) as P.
    destruct (sha1_loop _ _ _ _) as [[st buf] l]. destruct P as (P1 & P2 & P3). repeat split; auto.
  - assert (TL : (S t < 64)%nat) by (rewrite <- T; apply Nat.mod_upper_bound; lia).
    set (i := Nat.min (64 - S t) (length d)). assert (FL : length (firstn i d) = i) by (rewrite firstn_length; lia).
    destruct (Nat.eqb_spec (S t + i) 64).
    + assert (PL : length (put (s_data c) (S t) (firstn i d)) = 64%nat) by (rewrite put_length; lia).
      rewrite sha1_transform_eq by auto.
      pose proof (held_fill _ _ _ 64%nat ltac:(lia) (s_digest c) (s_data c) m (firstn i d) (put (s_data c) (S t) (firstn i d)) H) as P. rewrite T in P. specialize (P ltac:(lia) PL).
      pose proof (sha1_loop_spec (S (length d)) _ _ _ (skipn i d) ltac:(rewrite skipn_length; lia) P (sha1_block_words _ _)) as Q.
      destruct (sha1_loop _ _ _ _) as [[st buf] l]. rewrite <- app_assoc, firstn_skipn in Q. destruct Q as (Q1 & Q2 & Q3).
      { rewrite app_length, FL. rewrite Nat.add_mod, T by lia. rewrite (Nat.mod_small i) by lia. replace (S t + i)%nat with 64%nat by lia. reflexivity. }
      repeat split; auto.
    + assert (ID : firstn i d = d) by (apply firstn_all2; lia). rewrite ID. assert (IL : i = length d) by lia.
      split; [|repeat split; auto].
      * cbn [s_digest s_data]. rewrite <- T. apply (held_part _ _ _ 64%nat ltac:(lia)); auto. lia.
      * cbn [s_local]. rewrite app_length, Nat.add_mod, T, (Nat.mod_small (length d)), IL by lia. symmetry. apply Nat.mod_small. lia.
Qed.
Lemma be4_eq x : be4 x = to_be 4 x.
Proof.
  unfold be4, to_be, to_le. cbn [seq map rev app Z.of_nat Pos.of_succ_nat Pos.succ]. change 0xff with (Z.ones 8). rewrite !Z.land_ones by lia. change (2 ^ 8) with 256. rewrite !zb_mod.
  rewrite !Z.shiftr_div_pow2 by lia. change (256 ^ 0) with 1. rewrite Z.div_1_r. reflexivity.
Qed.
Lemma to_be_split x : to_be 8 x = to_be 4 ((x / 2 ^ 32) mod 2 ^ 32) ++ to_be 4 (x mod 2 ^ 32).
Proof. unfold to_be. now rewrite to_le_split, rev_app_distr. Qed.
Lemma sha1_final_eq c m : sha1_inv c m -> sha1_final c = SHA1 m.
Proof.
  intros (H & WR & B0 & B1 & _). unfold sha1_final. rewrite B0, B1. rewrite used_bits by (unfold zlen; lia).
  replace (Z.to_nat (zlen m)) with (length m) by (unfold zlen; lia).
  assert (LB : length (s_data c) = 64%nat) by (destruct H as (? & ? & ? & _ & _ & _ & _ & H & _); exact H).
  remember (length m mod 64)%nat as t eqn:T. assert (TL : (t < 64)%nat) by (subst t; apply Nat.mod_upper_bound; lia). cbv zeta.
  rewrite !be4_eq. set (l1 := to_be 4 ((8 * zlen m) mod 2 ^ 32)). set (l0 := to_be 4 ((8 * zlen m / 2 ^ 32) mod 2 ^ 32)).
  assert (LE : l0 ++ l1 = to_be 8 (8 * zlen m)) by (symmetry; apply to_be_split).
  assert (L0 : length l0 = 4%nat) by apply to_be_length. assert (L1 : length l1 = 4%nat) by apply to_be_length.
  assert (LL : length (to_be 8 (8 * zlen m)) = 8%nat) by apply to_be_length.
  assert (P : forall x, put (put x 56 l0) 60 l1 = put x 56 (to_be 8 (8 * zlen m)) \/ (length x < 56)%nat).
  { intros x. destruct (Nat.lt_ge_cases (length x) 56); [now right|left]. rewrite <- LE, <- put_put by auto. now rewrite L0. }
  assert (ZL : forall n, length (zeros n) = n) by (intros n; apply repeat_length).
  unfold SHA1. change (64 - 8)%nat with 56%nat. destruct (Nat.ltb_spec 56 (S t)) as [C|C].
  - replace (put (put (s_data c) t [x80]) (S t) (zeros (64 - S t))) with (firstn t (s_data c) ++ x80 :: zeros (64 - S t)).
    2: { replace (S t) with (t + length [x80])%nat at 2 by (cbn; lia). rewrite (put_put (s_data c) t [x80]) by lia. cbn [app].
         symmetry. apply put_all. cbn [length]; rewrite ZL; lia. }
    assert (PL : length (firstn t (s_data c) ++ x80 :: zeros (64 - S t)) = 64%nat) by (rewrite app_length, firstn_length; cbn [length]; rewrite ZL; lia).
    cbn iota beta. rewrite (sha1_transform_eq _ _ WR PL). set (bl := firstn t (s_data c) ++ _) in *.
    destruct (P (put bl 0 (zeros 56))) as [->|X]; [|rewrite put_length in X by (rewrite ZL; lia); lia].
    replace 56%nat with (0 + length (zeros 56))%nat at 2 by reflexivity. rewrite put_put by lia.
    rewrite put_all by (rewrite app_length, ZL; lia). cbn [firstn app].
    rewrite sha1_transform_eq; [|apply sha1_block_words|rewrite app_length, ZL; lia].
    pose proof (pad_long _ sha1_block sha1_start 64 ltac:(lia) (s_digest c) (s_data c) m (to_be 8 (8 * zlen m)) t H T ltac:(lia) ltac:(lia)) as Q.
    fold bl in Q. rewrite LL in Q. change (64 - 8)%nat with 56%nat in Q. rewrite Q. destruct (fold_left _ _ _) as [[[[? ?] ?] ?] ?]. now rewrite !be4_eq.
  - assert (P2 : put (put (put (put (s_data c) t [x80]) (S t) (zeros (56 - S t))) 56 l0) 60 l1 = firstn t (s_data c) ++ (x80 :: zeros (56 - S t)) ++ to_be 8 (8 * zlen m)).
    { replace (put (put (s_data c) t [x80]) (S t) (zeros (56 - S t))) with (put (s_data c) t (x80 :: zeros (56 - S t))).
      2: { replace (S t) with (t + length [x80])%nat at 2 by (cbn; lia). rewrite (put_put (s_data c) t [x80]) by lia. reflexivity. }
      destruct (P (put (s_data c) t (x80 :: zeros (56 - S t)))) as [->|X]; [|rewrite put_length in X by (cbn [length]; rewrite ZL; lia); lia].
      rewrite <- put_all by (rewrite app_length; cbn [length]; rewrite ZL; lia). rewrite <- put_put by lia. f_equal. cbn [length]. rewrite ZL. lia. }
    rewrite P2.
    rewrite sha1_transform_eq; [|auto|rewrite !app_length, firstn_length; cbn [length]; rewrite ZL; lia].
    pose proof (pad_short _ sha1_block sha1_start 64 ltac:(lia) (s_digest c) (s_data c) m (to_be 8 (8 * zlen m)) t H T ltac:(lia)) as Q.
    rewrite LL in Q. change (64 - 8)%nat with 56%nat in Q. cbn [app] in *. rewrite Q.
    destruct (fold_left _ _ _) as [[[[? ?] ?] ?] ?]. now rewrite !be4_eq.
Qed.
Lemma sha1_correct junk m : zlen m < 2 ^ 31 -> sha1 junk m = SHA1 m.
Proof.
  intros L. unfold sha1. rewrite ztake_all.
  - apply sha1_final_eq. change m with ([] ++ m) at 2. apply sha1_update_inv, sha1_init_inv, junk64_length.
  - apply i32_small. unfold zlen in *. lia.
Qed.
