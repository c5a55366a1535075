(** MD5. *)
From Verif Require Import Bytes M_hash S_hash P_bytes P_aes P_hash1.
From Coq Require Import Init.Byte List ZArith Bool Lia.
Import ListNotations.
Open Scope Z_scope.

Ltac words := repeat first [assumption | apply word_lxor | apply word_lor | apply word_land | apply word_wnot | apply word_add | apply word_rotl | apply word_rotr | lia].

Lemma F1_eq x y z : word 32 x -> word 32 y -> word 32 z -> F1 x y z = Z.lor (Z.land x y) (Z.land (wnot 32 x) z).
Proof.
  intros X Y Z. apply Z.bits_inj'. intros n N. unfold F1. rewrite !Z.lxor_spec, Z.land_spec, Z.lxor_spec, Z.lor_spec, !Z.land_spec, wnot_spec by (auto; lia).
  destruct (Z.ltb_spec n 32); [|rewrite !(word_high 32) by (auto; lia); reflexivity].
  destruct (Z.testbit x n), (Z.testbit y n), (Z.testbit z n); reflexivity.
Qed.
Lemma F2_eq x y z : word 32 x -> word 32 y -> word 32 z -> F2 x y z = Z.lor (Z.land x z) (Z.land y (wnot 32 z)).
Proof.
  intros X Y Z. unfold F2. rewrite F1_eq by auto. f_equal; apply Z.land_comm.
Qed.
Lemma F4_eq x y z : word 32 z -> F4 x y z = Z.lxor y (Z.lor x (wnot 32 z)).
Proof. intros Z. unfold F4. now rewrite u32_mod, lnot_mod by (auto; lia). Qed.

(** An instruction of the program and the step of the standard it stands for *)
Definition reg_of (i : nat) : reg := nth (i mod 4) [Wa; Wd; Wc; Wb] Wa.
Definition stands (i : nat) (ins : (Z -> Z -> Z -> Z) * reg * nat * Z * Z) : Prop :=
  let '(f, w, k, c, s) := ins in
  (forall x y z, word 32 x -> word 32 y -> word 32 z -> f x y z = md5_F i x y z) /\
  w = reg_of i /\ k = md5_k i /\ c = md5_T (Z.of_nat i + 1) /\ s = md5_s i /\ 0 <= s <= 32.
Lemma F2_nth {A B} (R : A -> B -> Prop) : forall l1 l2, length l1 = length l2 -> (forall i a b, nth_error l1 i = Some a -> nth_error l2 i = Some b -> R a b) -> Forall2 R l1 l2.
Proof.
  induction l1 as [|a l1 IH]; intros [|b l2] L H; try discriminate; constructor.
  - apply (H 0%nat); reflexivity. - apply IH; [cbn in L; lia|]. intros i. apply (H (S i)).
Qed.
Lemma stands_all : Forall2 stands (seq 0 64) md5_steps.
Proof.
  assert (A : map (fun x => let '(f, w, k, c, s) := x in (w, k, c, s)) md5_steps =
    map (fun i => (reg_of i, md5_k i, md5_T (Z.of_nat i + 1), md5_s i)) (seq 0 64)) by (vm_compute; reflexivity).
  assert (B : map (fun x => let '(f, w, k, c, s) := x in f) md5_steps = repeat F1 16 ++ repeat F2 16 ++ repeat F3 16 ++ repeat F4 16) by reflexivity.
  assert (C : forall j i, (i < 64)%nat -> nth_error (seq j 64) i = Some (j + i)%nat).
  { intros j i. rewrite <- (seq_length 64 j) at 1. intros L. rewrite (nth_error_nth' (seq j 64) 0%nat L). f_equal. apply seq_nth. rewrite seq_length in L; auto. }
  assert (D : forall i, (i < 64)%nat -> exists f, nth_error md5_steps i = Some (f, reg_of i, md5_k i, md5_T (Z.of_nat i + 1), md5_s i)).
  { intros i L. destruct (nth_error md5_steps i) as [[[[[f w] k] c] s]|] eqn:N.
    - pose proof (map_nth_error (fun x => let '(f, w, k, c, s) := x in (w, k, c, s)) _ _ N) as Q. rewrite A in Q.
      rewrite (map_nth_error _ i _ (C 0%nat i L)) in Q. cbn [plus] in Q. exists f. congruence.
    - apply nth_error_None in N. cbn in N. lia. }
  assert (E : forall i f w k c s, nth_error md5_steps i = Some (f, w, k, c, s) -> (i < 64)%nat -> forall x y z, word 32 x -> word 32 y -> word 32 z -> f x y z = md5_F i x y z).
  { intros i f w k c s N L x y z X Y Z. pose proof (map_nth_error (fun x => let '(f, w, k, c, s) := x in f) _ _ N) as Q. rewrite B in Q.
    do 64 (destruct i as [|i]; [cbn in Q; injection Q; intros <-; first [apply F1_eq; auto|apply F2_eq; auto|reflexivity|apply F4_eq; auto]|]). lia. }
  assert (F : forall i, (i < 64)%nat -> 0 <= md5_s i <= 32).
  { intros i L. do 64 (destruct i as [|i]; [vm_compute; split; congruence|]). lia. }
  apply F2_nth; [reflexivity|]. intros i a b N1 N2. assert (L : (i < 64)%nat) by (rewrite <- (seq_length 64 0); apply nth_error_Some; rewrite N1; discriminate).
  rewrite C in N1 by auto. injection N1; intros <-. cbn [plus]. destruct (D i L) as (f & N). rewrite N in N2. injection N2; intros <-.
  unfold stands. repeat split; auto; try apply F; auto. eapply E; eauto.
Qed.

Definition words4 (r : Z * Z * Z * Z) : Prop := let '(a, b, c, d) := r in word 32 a /\ word 32 b /\ word 32 c /\ word 32 d.
Lemma md5_F_word i x y z : word 32 x -> word 32 y -> word 32 z -> word 32 (md5_F i x y z).
Proof. intros X Y Z. unfold md5_F. destruct (i / 16)%nat as [|[|[|]]]; words. Qed.
Lemma step_eq X i f w k c s a b c' d : stands i (f, w, k, c, s) -> words4 (a, b, c', d) ->
  MD5STEP f a b c' d (u32 (wnth X k + c)) s =
    add 32 b (rotl 32 (md5_s i) (add 32 (add 32 (add 32 a (md5_F i b c' d)) (at_ X (md5_k i))) (md5_T (Z.of_nat i + 1)))).
Proof.
  intros (FE & _ & -> & -> & -> & SR) (A & B & C & D). unfold MD5STEP. cbv zeta. rewrite FE by auto.
  change (wnth X (md5_k i)) with (at_ X (md5_k i)). set (F := md5_F i b c' d). set (xk := at_ X (md5_k i)). set (T := md5_T _).
  assert (E : u32 (a + u32 (F + u32 (xk + T))) = add 32 (add 32 (add 32 a F) xk) T).
  { unfold add. rewrite !u32_mod. change (2 ^ 32) with 4294967296. rewrite (Zplus_mod_idemp_r (xk + T) F). rewrite (Zplus_mod_idemp_r (F + (xk + T)) a).
    rewrite (Zplus_mod_idemp_l (a + F) xk). rewrite (Zplus_mod_idemp_l (a + F + xk) T). f_equal. lia. }
  rewrite E. rewrite !u32_mod. rewrite rotl_lor by words. unfold add. f_equal. lia.
Qed.
Lemma step_word X i r : words4 r -> words4 (md5_step X r i).
Proof. destruct r as [[[a b] c] d]. intros (A & B & C & D). cbn. repeat split; try apply word_add; try lia; apply A || apply B || apply C || apply D. Qed.

Lemma quad X j i0 i1 i2 i3 r : (j mod 4 = 0)%nat -> stands j i0 -> stands (S j) i1 -> stands (S (S j)) i2 -> stands (S (S (S j))) i3 -> words4 r ->
  fold_left (md5_do X) [i0; i1; i2; i3] r = fold_left (md5_step X) [j; S j; S (S j); S (S (S j))] r.
Proof.
  intros J S0 S1 S2 S3 WR.
  destruct i0 as [[[[f0 w0] k0] c0] s0], i1 as [[[[f1 w1] k1] c1] s1], i2 as [[[[f2 w2] k2] c2] s2], i3 as [[[[f3 w3] k3] c3] s3].
  assert (W0 : w0 = Wa) by (destruct S0 as (_ & -> & _); unfold reg_of; now rewrite J).
  assert (M : forall n, (n < 4)%nat -> ((j + n) mod 4 = n)%nat).
  { intros n N. rewrite Nat.add_mod, J by lia. cbn [plus]. rewrite Nat.mod_mod by lia. apply Nat.mod_small; auto. }
  assert (W1 : w1 = Wd) by (destruct S1 as (_ & -> & _); unfold reg_of; replace (S j) with (j + 1)%nat by lia; now rewrite M by lia).
  assert (W2 : w2 = Wc) by (destruct S2 as (_ & -> & _); unfold reg_of; replace (S (S j)) with (j + 2)%nat by lia; now rewrite M by lia).
  assert (W3 : w3 = Wb) by (destruct S3 as (_ & -> & _); unfold reg_of; replace (S (S (S j))) with (j + 3)%nat by lia; now rewrite M by lia).
  subst. destruct r as [[[a b] c] d]. cbn [fold_left md5_do].
  pose proof (step_word X j (a, b, c, d) WR) as V0. rewrite (step_eq X j f0 Wa k0 c0 s0) by auto.
  cbn [md5_step] in *. set (a' := add 32 b _) in *. clearbody a'.
  pose proof (step_word X (S j) _ V0) as V1. rewrite (step_eq X (S j) f1 Wd k1 c1 s1) by auto.
  cbn [md5_step] in *. set (d' := add 32 a' _) in *. clearbody d'.
  pose proof (step_word X (S (S j)) _ V1) as V2. rewrite (step_eq X (S (S j)) f2 Wc k2 c2 s2) by auto.
  cbn [md5_step] in *. set (c' := add 32 d' _) in *. clearbody c'.
  rewrite (step_eq X (S (S (S j))) f3 Wb k3 c3 s3) by auto. reflexivity.
Qed.
Lemma steps_words X l : forall r, words4 r -> words4 (fold_left (md5_step X) l r).
Proof. induction l as [|i l IH]; intros r H; [exact H|]. apply IH, step_word, H. Qed.
Lemma quads X n : forall j ins r, (j mod 4 = 0)%nat -> Forall2 stands (seq j (4 * n)) ins -> words4 r ->
  fold_left (md5_do X) ins r = fold_left (md5_step X) (seq j (4 * n)) r.
Proof.
  induction n as [|n IH]; intros j ins r J F WR.
  - cbn in F. inversion F; reflexivity.
  - replace (4 * S n)%nat with (S (S (S (S (4 * n))))) in * by lia. cbn [seq] in *.
    do 4 (match goal with H : Forall2 stands (_ :: _) _ |- _ => inversion H; subst; clear H end).
    match goal with |- fold_left _ (?a :: ?b :: ?c :: ?d :: ?l) _ = fold_left _ (?p :: ?q :: ?u :: ?v :: ?m) _ =>
      change (a :: b :: c :: d :: l) with ([a; b; c; d] ++ l); change (p :: q :: u :: v :: m) with ([p; q; u; v] ++ m) end.
    rewrite !fold_left_app. rewrite (quad X j) by auto. apply IH; auto.
    + replace (S (S (S (S j)))) with (j + 1 * 4)%nat by lia. now rewrite Nat.mod_add by lia.
    + apply steps_words; auto.
Qed.
Lemma md5_transform r b : words4 r -> length b = 64%nat -> MD5Transform r b = md5_block r b.
Proof.
  intros WR L. destruct r as [[[a b'] c] d]. unfold MD5Transform, md5_block. rewrite (words_cut 4) by (auto; lia).
  rewrite (quads _ 16 0 md5_steps) by (auto; exact stands_all). reflexivity.
Qed.
Lemma block_words r b : words4 (md5_block r b).
Proof. destruct r as [[[a b'] c] d]. unfold md5_block. destruct (fold_left _ _ _) as [[[? ?] ?] ?]. repeat split; apply word_add; lia. Qed.

(** ** The context *)
Definition md5_inv (c : md5_ctx) (m : bytes) : Prop :=
  held _ md5_block md5_start 64 (m_buf c) (m_in c) m /\ words4 (m_buf c) /\
  m_bits0 c = (8 * zlen m) mod 2 ^ 32 /\ m_bits1 c = (8 * zlen m / 2 ^ 32) mod 2 ^ 32.
Lemma start_words : words4 md5_start.
Proof. repeat split; vm_compute; congruence. Qed.
Lemma md5_init junk : length junk = 64%nat -> md5_inv (MD5Init junk) [].
Proof.
  intros L. split; [|split; [|split; reflexivity]].
  - change (m_buf (MD5Init junk)) with md5_start. apply held_init; auto; lia.
  - exact start_words.
Qed.
Lemma md5_loop_spec fuel : forall st buf m data, (length data < fuel)%nat -> held _ md5_block md5_start 64 st buf m -> words4 st -> (length m mod 64 = 0)%nat ->
  let '(st', buf') := md5_loop fuel st buf data in held _ md5_block md5_start 64 st' buf' (m ++ data) /\ words4 st'.
Proof.
  induction fuel as [|fuel IH]; intros st buf m data F H WR Z0; [lia|]. cbn [md5_loop].
  assert (LB : length buf = 64%nat) by (destruct H as (? & ? & ? & _ & _ & _ & _ & H & _); exact H).
  destruct (Z.leb_spec 64 (zlen data)).
  - unfold zlen in *. assert (F64 : length (firstn 64 data) = 64%nat) by (rewrite firstn_length; lia).
    cbv zeta. rewrite put_0, F64, skipn_all2, app_nil_r by lia. rewrite md5_transform by auto.
    specialize (IH (md5_block st (firstn 64 data)) (firstn 64 data) (m ++ firstn 64 data) (skipn 64 data)).
    rewrite <- app_assoc, firstn_skipn in IH. apply IH.
    + rewrite skipn_length; lia.
    + apply (held_block _ _ _ 64%nat ltac:(lia) st buf); auto.
    + apply block_words.
    + rewrite app_length, F64. replace (length m + 64)%nat with (length m + 1 * 64)%nat by lia. now rewrite Nat.mod_add by lia.
  - unfold zlen in *. split; auto. pose proof (held_part _ _ _ 64%nat ltac:(lia) st buf m data H) as P. rewrite Z0 in P. apply P. lia.
Qed.
Lemma bits_add n l : 0 <= n -> 0 <= l ->
  let b0 := u32 (n mod 2 ^ 32 + u32 (Z.shiftl l 3)) in
  b0 = (n + 8 * l) mod 2 ^ 32 /\
  u32 ((if b0 <? n mod 2 ^ 32 then u32 ((n / 2 ^ 32) mod 2 ^ 32 + 1) else (n / 2 ^ 32) mod 2 ^ 32) + Z.shiftr l 29) = ((n + 8 * l) / 2 ^ 32) mod 2 ^ 32.
Proof.
  intros N L. cbv zeta. rewrite Z.shiftl_mul_pow2, Z.shiftr_div_pow2 by lia. change (2 ^ 3) with 8. rewrite !u32_mod.
  change (2 ^ 32) with 4294967296. change (2 ^ 29) with 536870912.
  assert (E0 : (n mod 4294967296 + (l * 8) mod 4294967296) mod 4294967296 = (n + 8 * l) mod 4294967296).
  { rewrite <- Zplus_mod. f_equal. lia. }
  split; [exact E0|]. rewrite E0. clear E0.
  pose proof (Z.div_mod n 4294967296 ltac:(lia)) as Dn. pose proof (Z.mod_pos_bound n 4294967296 ltac:(lia)) as Bn.
  pose proof (Z.div_mod l 536870912 ltac:(lia)) as Dl. pose proof (Z.mod_pos_bound l 536870912 ltac:(lia)) as Bl.
  set (nq := n / 4294967296) in *. set (nr := n mod 4294967296) in *. set (lq := l / 536870912) in *. set (lr := l mod 536870912) in *.
  assert (T : n + 8 * l = (nq + lq) * 4294967296 + (nr + 8 * lr)) by lia.
  destruct (Z.lt_ge_cases (nr + 8 * lr) 4294967296) as [C|C].
  - assert (M : (n + 8 * l) mod 4294967296 = nr + 8 * lr) by (rewrite T, Z.add_comm, Z_mod_plus_full, Z.mod_small; lia).
    assert (Q : (n + 8 * l) / 4294967296 = nq + lq) by (rewrite T, Z.add_comm, Z_div_plus_full, Z.div_small; lia).
    rewrite M, Q. destruct (Z.ltb_spec (nr + 8 * lr) nr); [lia|]. rewrite Zplus_mod_idemp_l. reflexivity.
  - assert (T' : n + 8 * l = (nq + lq + 1) * 4294967296 + (nr + 8 * lr - 4294967296)) by lia.
    assert (M : (n + 8 * l) mod 4294967296 = nr + 8 * lr - 4294967296) by (rewrite T', Z.add_comm, Z_mod_plus_full, Z.mod_small; lia).
    assert (Q : (n + 8 * l) / 4294967296 = nq + lq + 1) by (rewrite T', Z.add_comm, Z_div_plus_full, Z.div_small; lia).
    rewrite M, Q. destruct (Z.ltb_spec (nr + 8 * lr - 4294967296) nr); [|lia]. rewrite (Zplus_mod_idemp_l (nq mod 4294967296 + 1) lq). rewrite <- Z.add_assoc. rewrite (Zplus_mod_idemp_l nq). f_equal. lia.
Qed.
Lemma used_bits n : 0 <= n -> Z.to_nat (Z.land (Z.shiftr ((8 * n) mod 2 ^ 32) 3) 0x3f) = (Z.to_nat n mod 64)%nat.
Proof.
  intros N. change 0x3f with (Z.ones 6). rewrite Z.land_ones, Z.shiftr_div_pow2 by lia. change (2 ^ 3) with 8. change (2 ^ 6) with 64. change (2 ^ 32) with 4294967296.
  assert (E : (8 * n) mod 4294967296 / 8 = n mod 536870912).
  { replace 4294967296 with (8 * 536870912) by lia. rewrite Z.mul_mod_distr_l by lia. rewrite Z.mul_comm, Z.div_mul by lia. reflexivity. }
  rewrite E. replace 536870912 with (64 * 8388608) by lia. rewrite Z.rem_mul_r by lia. rewrite (Z.mul_comm 64), Z_mod_plus_full, Z.mod_mod by lia.
  change 64 with (Z.of_nat 64). rewrite <- (Z2Nat.id n) at 1 by lia. rewrite <- Nat2Z.inj_mod, Nat2Z.id. reflexivity.
Qed.
Lemma md5_update c m d : md5_inv c m -> md5_inv (MD5Update c d) (m ++ d).
Proof.
  intros (H & WR & B0 & B1). unfold MD5Update. cbv zeta. rewrite B0, B1.
  destruct (bits_add (8 * zlen m) (zlen d)) as [E0 E1]; [unfold zlen; lia|unfold zlen; lia|]. cbv zeta in E0, E1. rewrite E1, E0.
  assert (LN : 8 * zlen m + 8 * zlen d = 8 * zlen (m ++ d)) by (unfold zlen; rewrite app_length; lia). rewrite LN.
  rewrite used_bits by (unfold zlen; lia). replace (Z.to_nat (zlen m)) with (length m) by (unfold zlen; lia).
  assert (LB : length (m_in c) = 64%nat) by (destruct H as (? & ? & ? & _ & _ & _ & _ & H & _); exact H).
  destruct (length m mod 64)%nat as [|t] eqn:T.
  - pose proof (md5_loop_spec (S (length d)) (m_buf c) (m_in c) m d ltac:(lia) H WR T) as P.
    destruct (md5_loop _ _ _ _) as [st buf]. destruct P as [P1 P2]. split; [exact P1|split; [exact P2|split; reflexivity]].
  - assert (TL : (S t < 64)%nat) by (rewrite <- T; apply Nat.mod_upper_bound; lia).
    destruct (Nat.ltb_spec (length d) (64 - S t)).
    + split; [|split; [exact WR|split; reflexivity]]. cbn [m_buf m_in]. rewrite <- T. apply (held_part _ _ _ 64%nat ltac:(lia)); auto. lia.
    + assert (FL : length (firstn (64 - S t) d) = (64 - S t)%nat) by (rewrite firstn_length; lia).
      assert (PL : length (put (m_in c) (S t) (firstn (64 - S t) d)) = 64%nat) by (rewrite put_length; lia).
      rewrite md5_transform by auto.
      pose proof (held_fill _ _ _ 64%nat ltac:(lia) (m_buf c) (m_in c) m (firstn (64 - S t) d) (put (m_in c) (S t) (firstn (64 - S t) d)) H) as P. rewrite T in P. specialize (P ltac:(lia) PL).
      pose proof (md5_loop_spec (S (length d)) _ _ _ (skipn (64 - S t) d) ltac:(rewrite skipn_length; lia) P (block_words _ _)) as Q.
      destruct (md5_loop _ _ _ _) as [st buf]. rewrite <- app_assoc, firstn_skipn in Q. destruct Q as [Q1 Q2].
      { rewrite app_length, FL. rewrite Nat.add_mod, T by lia. rewrite (Nat.mod_small (64 - S t)) by lia. replace (S t + (64 - S t))%nat with 64%nat by lia. reflexivity. }
      split; [exact Q1|split; [exact Q2|split; reflexivity]].
Qed.
Lemma zb_eq_mod a b : a mod 256 = b mod 256 -> zb a = zb b.
Proof. intros E. rewrite <- (zb_mod a), <- (zb_mod b). now rewrite E. Qed.
Lemma to_le_split x : to_le 8 x = to_le 4 (x mod 2 ^ 32) ++ to_le 4 ((x / 2 ^ 32) mod 2 ^ 32).
Proof.
  unfold to_le. change (seq 0 8) with (seq 0 4 ++ map (fun i => (4 + i)%nat) (seq 0 4)). rewrite map_app, map_map. f_equal; apply map_ext_in; intros i I; apply in_seq in I; apply zb_eq_mod.
  - change (2 ^ 32) with (256 ^ 4). replace (256 ^ 4) with (256 ^ Z.of_nat i * 256 * 256 ^ (3 - Z.of_nat i)).
    2: { replace (256 ^ Z.of_nat i * 256) with (256 ^ (Z.of_nat i + 1)) by (rewrite Z.pow_add_r by lia; reflexivity). rewrite <- Z.pow_add_r by lia. f_equal. lia. }
    set (p := 256 ^ Z.of_nat i). set (q := 256 ^ (3 - Z.of_nat i)). assert (0 < p) by (apply Z.pow_pos_nonneg; lia). assert (0 < q) by (apply Z.pow_pos_nonneg; lia).
    rewrite <- Z.mul_assoc. rewrite (Z.rem_mul_r _ p) by lia. rewrite (Z.mul_comm p), Z.div_add by lia. rewrite (Z.div_small (x mod p)) by (apply Z.mod_pos_bound; lia).
    cbn [Z.add]. rewrite (Z.rem_mul_r _ 256) by lia. rewrite (Z.mul_comm 256), Z_mod_plus_full, Z.mod_mod by lia. reflexivity.
  - rewrite Nat2Z.inj_add, Z.pow_add_r by lia. change (256 ^ Z.of_nat 4) with (2 ^ 32). rewrite <- Z.div_div by (try lia; apply Z.pow_pos_nonneg; lia).
    set (y := x / 2 ^ 32). change (2 ^ 32) with (256 ^ 4). replace (256 ^ 4) with (256 ^ Z.of_nat i * 256 * 256 ^ (3 - Z.of_nat i)).
    2: { replace (256 ^ Z.of_nat i * 256) with (256 ^ (Z.of_nat i + 1)) by (rewrite Z.pow_add_r by lia; reflexivity). rewrite <- Z.pow_add_r by lia. f_equal. lia. }
    set (p := 256 ^ Z.of_nat i). set (q := 256 ^ (3 - Z.of_nat i)). assert (0 < p) by (apply Z.pow_pos_nonneg; lia). assert (0 < q) by (apply Z.pow_pos_nonneg; lia).
    rewrite <- Z.mul_assoc. rewrite (Z.rem_mul_r _ p) by lia. rewrite (Z.mul_comm p), Z.div_add by lia. rewrite (Z.div_small (y mod p)) by (apply Z.mod_pos_bound; lia).
    cbn [Z.add]. rewrite (Z.rem_mul_r _ 256) by lia. rewrite (Z.mul_comm 256), Z_mod_plus_full, Z.mod_mod by lia. reflexivity.
Qed.

Lemma md5_final c m : md5_inv c m -> MD5Final c = MD5 m.
Proof.
  intros (H & WR & B0 & B1). unfold MD5Final. rewrite B0, B1. rewrite used_bits by (unfold zlen; lia).
  replace (Z.to_nat (zlen m)) with (length m) by (unfold zlen; lia).
  assert (LB : length (m_in c) = 64%nat) by (destruct H as (? & ? & ? & _ & _ & _ & _ & H & _); exact H).
  remember (length m mod 64)%nat as t eqn:T. assert (TL : (t < 64)%nat) by (subst t; apply Nat.mod_upper_bound; lia). cbv zeta.
  rewrite !le_bytes_to. set (l0 := to_le 4 ((8 * zlen m) mod 2 ^ 32)). set (l1 := to_le 4 ((8 * zlen m / 2 ^ 32) mod 2 ^ 32)).
  assert (LE : l0 ++ l1 = to_le 8 (8 * zlen m)) by (symmetry; apply to_le_split).
  assert (L0 : length l0 = 4%nat) by apply to_le_length. assert (L1 : length l1 = 4%nat) by apply to_le_length.
  assert (LL : length (to_le 8 (8 * zlen m)) = 8%nat) by apply to_le_length.
  assert (P : forall x, put (put x 56 l0) 60 l1 = put x 56 (to_le 8 (8 * zlen m)) \/ (length x < 56)%nat).
  { intros x. destruct (Nat.lt_ge_cases (length x) 56); [now right|left]. rewrite <- LE, <- put_put by auto. now rewrite L0. }
  assert (ZL : forall n, length (zeros n) = n) by (intros n; apply repeat_length).
  unfold MD5. destruct (Nat.ltb_spec (64 - 1 - t) 8) as [C|C].
  - replace (S t) with (t + length [x80])%nat by (cbn; lia). rewrite (put_put (m_in c) t [x80]) by lia. cbn [app].
    assert (P1 : put (m_in c) t (x80 :: zeros (64 - 1 - t)) = firstn t (m_in c) ++ x80 :: zeros (64 - S t)).
    { rewrite put_all by (cbn [length]; rewrite ZL; lia). replace (64 - 1 - t)%nat with (64 - S t)%nat by lia. reflexivity. }
    rewrite P1. assert (PL : length (firstn t (m_in c) ++ x80 :: zeros (64 - S t)) = 64%nat) by (rewrite app_length, firstn_length; cbn [length]; rewrite ZL; lia).
    cbn iota beta. rewrite (md5_transform _ _ WR PL). set (bl := firstn t (m_in c) ++ _) in *.
    destruct (P (put bl 0 (zeros 56))) as [->|X]; [|rewrite put_length in X by (rewrite ZL; lia); lia].
    replace 56%nat with (0 + length (zeros 56))%nat at 2 by reflexivity. rewrite put_put by lia.
    rewrite put_all by (rewrite app_length, ZL; lia). cbn [firstn app].
    rewrite md5_transform; [|apply block_words|rewrite app_length, ZL; lia].
    pose proof (pad_long _ md5_block md5_start 64 ltac:(lia) (m_buf c) (m_in c) m (to_le 8 (8 * zlen m)) t H T ltac:(lia) ltac:(lia)) as Q.
    fold bl in Q. rewrite LL in Q. change (64 - 8)%nat with 56%nat in Q. rewrite Q. destruct (fold_left _ _ _) as [[[? ?] ?] ?]. now rewrite !le_bytes_to.
  - replace (S t) with (t + length [x80])%nat by (cbn; lia). rewrite (put_put (m_in c) t [x80]) by lia. cbn [app].
    destruct (P (put (m_in c) t (x80 :: zeros (64 - 1 - t - 8)))) as [->|X]; [|rewrite put_length in X by (cbn [length]; rewrite ZL; lia); lia].
    assert (P2 : put (put (m_in c) t (x80 :: zeros (64 - 1 - t - 8))) 56 (to_le 8 (8 * zlen m)) = put (m_in c) t ((x80 :: zeros (64 - 1 - t - 8)) ++ to_le 8 (8 * zlen m))).
    { rewrite <- put_put by lia. f_equal. cbn [length]. rewrite ZL. lia. }
    rewrite P2. rewrite put_all by (rewrite app_length; cbn [length]; rewrite ZL; lia).
    rewrite md5_transform; [|auto|rewrite !app_length, firstn_length; cbn [length]; rewrite ZL; lia].
    pose proof (pad_short _ md5_block md5_start 64 ltac:(lia) (m_buf c) (m_in c) m (to_le 8 (8 * zlen m)) t H T ltac:(lia)) as Q.
    rewrite LL in Q. replace (64 - 1 - t - 8)%nat with (64 - 8 - S t)%nat by lia. cbn [app] in *. rewrite Q.
    destruct (fold_left _ _ _) as [[[? ?] ?] ?]. now rewrite !le_bytes_to.
Qed.
Lemma junk64_length junk : length (junk64 junk) = 64%nat.
Proof. unfold junk64. rewrite firstn_length, app_length. unfold zeros. rewrite repeat_length. lia. Qed.
Lemma ztake_all (m : bytes) n : n = zlen m -> ztake n m = m.
Proof. intros ->. unfold ztake, zlen. rewrite Nat2Z.id. apply firstn_all. Qed.
Lemma md5_correct junk m : zlen m < 2 ^ 32 -> md5 junk m = MD5 m.
Proof.
  intros L. unfold md5. rewrite ztake_all by (apply Z.mod_small; unfold zlen in *; lia).
  apply md5_final. change m with ([] ++ m) at 2. apply md5_update, md5_init, junk64_length.
Qed.
