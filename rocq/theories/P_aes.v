(** Proofs about AES: the table driven code implements FIPS 197, and decryption inverts
    encryption. *)
From Verif Require Import Bytes P_bytes M_aes S_aes.
From Coq Require Import Init.Byte List ZArith Bool Lia Arith.
Import ListNotations.
Open Scope Z_scope.

Definition oct (x : Z) : Prop := 0 <= x < 256.
Definition w4 (a b c d : Z) : Z := a + 256 * b + 65536 * c + 16777216 * d.

(** ** Words as four octets *)
Lemma testbit_app a b k n : 0 <= k -> 0 <= a < 2 ^ k -> 0 <= n ->
  Z.testbit (a + b * 2 ^ k) n = if n <? k then Z.testbit a n else Z.testbit b (n - k).
Proof.
  intros K A N. destruct (n <? k) eqn:E.
  - rewrite <- (Z.mod_pow2_bits_low (a + b * 2 ^ k) k n) by lia.
    rewrite Z.mod_add by lia. rewrite Z.mod_small by lia. reflexivity.
  - replace n with ((n - k) + k) at 1 by lia. rewrite <- Z.div_pow2_bits by lia.
    rewrite Z.div_add by lia. rewrite Z.div_small by lia. reflexivity.
Qed.
Lemma lxor_bound a b k : 0 <= k -> 0 <= a < 2 ^ k -> 0 <= b < 2 ^ k -> 0 <= Z.lxor a b < 2 ^ k.
Proof.
  intros K A B. replace (Z.lxor a b) with (Z.lxor a b mod 2 ^ k); [apply Z.mod_pos_bound; lia|].
  apply Z.bits_inj'. intros n N. destruct (Z_lt_ge_dec n k).
  - apply Z.mod_pow2_bits_low; lia.
  - rewrite Z.mod_pow2_bits_high by lia. rewrite Z.lxor_spec.
    replace a with (a mod 2 ^ k) by (apply Z.mod_small; lia). replace b with (b mod 2 ^ k) by (apply Z.mod_small; lia).
    rewrite !Z.mod_pow2_bits_high by lia. reflexivity.
Qed.
Lemma lxor_app a b a' b' k : 0 <= k -> 0 <= a < 2 ^ k -> 0 <= a' < 2 ^ k ->
  Z.lxor (a + b * 2 ^ k) (a' + b' * 2 ^ k) = Z.lxor a a' + Z.lxor b b' * 2 ^ k.
Proof.
  intros K A A'. pose proof (lxor_bound a a' k K A A').
  apply Z.bits_inj'. intros n N. rewrite Z.lxor_spec, !testbit_app by lia.
  destruct (n <? k); rewrite Z.lxor_spec; reflexivity.
Qed.
Lemma lor_app a b k : 0 <= k -> 0 <= a < 2 ^ k -> Z.lor a (Z.shiftl b k) = a + b * 2 ^ k.
Proof.
  intros K A. apply Z.bits_inj'. intros n N. rewrite Z.lor_spec, testbit_app by lia.
  destruct (n <? k) eqn:E.
  - rewrite Z.shiftl_spec_low by lia. apply orb_false_r.
  - rewrite Z.shiftl_spec by lia.
    assert (Z.testbit a n = false).
    { destruct (Z.eq_dec a 0) as [->|]; [apply Z.bits_0|]. apply Z.bits_above_log2; [lia|].
      assert (Z.log2 a < k) by (apply Z.log2_lt_pow2; lia). lia. }
    rewrite H. reflexivity.
Qed.
Lemma oct_lxor a b : oct a -> oct b -> oct (Z.lxor a b).
Proof. intros A B. exact (lxor_bound a b 8 ltac:(lia) A B). Qed.

Lemma w4_bound a b c d : oct a -> oct b -> oct c -> oct d -> 0 <= w4 a b c d < 4294967296.
Proof. unfold oct, w4. lia. Qed.
Lemma w4_xor a b c d a' b' c' d' : oct a -> oct b -> oct c -> oct d -> oct a' -> oct b' -> oct c' -> oct d' ->
  Z.lxor (w4 a b c d) (w4 a' b' c' d') = w4 (Z.lxor a a') (Z.lxor b b') (Z.lxor c c') (Z.lxor d d').
Proof.
  unfold oct. intros. unfold w4.
  replace (a + 256 * b + 65536 * c + 16777216 * d) with (a + (b + (c + d * 2 ^ 8) * 2 ^ 8) * 2 ^ 8) by lia.
  replace (a' + 256 * b' + 65536 * c' + 16777216 * d') with (a' + (b' + (c' + d' * 2 ^ 8) * 2 ^ 8) * 2 ^ 8) by lia.
  rewrite !lxor_app by lia. lia.
Qed.
Lemma w4_octets a b c d : oct a -> oct b -> oct c -> oct d ->
  Z.land (w4 a b c d) 255 = a /\ Z.land (Z.shiftr (w4 a b c d) 8) 255 = b /\
  Z.land (Z.shiftr (w4 a b c d) 16) 255 = c /\ Z.land (Z.shiftr (w4 a b c d) 24) 255 = d.
Proof.
  unfold oct. intros. change 255 with (Z.ones 8).
  rewrite !Z.land_ones, !Z.shiftr_div_pow2 by lia. unfold w4.
  change (2 ^ 8) with 256. change (2 ^ 16) with 65536. change (2 ^ 24) with 16777216.
  repeat split; Z.div_mod_to_equations; lia.
Qed.
Lemma w4_lor a b c d : oct a -> oct b -> oct c -> oct d ->
  Z.lor (Z.lor (Z.lor a (Z.shiftl b 8)) (Z.shiftl c 16)) (Z.shiftl d 24) = w4 a b c d.
Proof.
  unfold oct. intros. unfold w4. rewrite (lor_app a b 8) by lia. change (2 ^ 8) with 256. rewrite (lor_app _ c 16) by (change (2 ^ 16) with 65536; lia).
  change (2 ^ 16) with 65536. rewrite (lor_app _ d 24) by (change (2 ^ 24) with 16777216; lia). change (2 ^ 24) with 16777216. lia.
Qed.
Lemma w4_of x : 0 <= x < 4294967296 -> exists a b c d, oct a /\ oct b /\ oct c /\ oct d /\ x = w4 a b c d.
Proof.
  intro. exists (x mod 256), (x / 256 mod 256), (x / 65536 mod 256), (x / 16777216). unfold oct, w4.
  Z.div_mod_to_equations. lia.
Qed.
Lemma ROTR_w4 a b c d : oct a -> oct b -> oct c -> oct d -> ROTRBYTE (w4 a b c d) = w4 d a b c.
Proof.
  intros. destruct (w4_octets a b c d) as (_ & _ & _ & E); auto. unfold ROTRBYTE. rewrite E.
  rewrite Z.shiftl_mul_pow2 by lia. change (2 ^ 8) with 256.
  assert (X : u32 (w4 a b c d * 256) = Z.shiftl (w4 a b c 0) 8).
  { unfold u32. rewrite Z.shiftl_mul_pow2 by lia. change (2 ^ 8) with 256. unfold w4, oct in *. Z.div_mod_to_equations. lia. }
  rewrite X, Z.lor_comm, lor_app by (unfold oct in *; lia). unfold w4. lia.
Qed.
Lemma ROT_w4 a b c d : oct a -> oct b -> oct c -> oct d -> ROTBYTE (w4 a b c d) = w4 b c d a.
Proof.
  intros. destruct (w4_octets a b c d) as (E & _); auto. unfold ROTBYTE. rewrite E.
  rewrite u32_small by (rewrite Z.shiftl_mul_pow2 by lia; unfold oct in *; lia).
  rewrite Z.shiftr_div_pow2 by lia.
  replace (w4 a b c d / 2 ^ 8) with (w4 b c d 0) by (unfold w4, oct in *; change (2 ^ 8) with 256; Z.div_mod_to_equations; lia).
  rewrite lor_app by (unfold w4, oct in *; lia). unfold w4. lia.
Qed.
Lemma land_high w k : 0 <= k -> Z.land w (Z.shiftl 255 k) = Z.shiftl (Z.land (Z.shiftr w k) 255) k.
Proof.
  intro K. apply Z.bits_inj'. intros n N. rewrite Z.land_spec. destruct (Z_lt_ge_dec n k).
  - rewrite !Z.shiftl_spec_low by lia. apply andb_false_r.
  - rewrite !Z.shiftl_spec by lia. rewrite Z.land_spec, Z.shiftr_spec by lia. f_equal. f_equal. lia.
Qed.
Lemma SUB_w4 box a b c d : oct a -> oct b -> oct c -> oct d -> (forall x, oct x -> oct (tbl box x)) ->
  SUBBYTE (w4 a b c d) box = w4 (tbl box a) (tbl box b) (tbl box c) (tbl box d).
Proof.
  intros A B C D O. destruct (w4_octets a b c d) as (E1 & E2 & E3 & E4); auto.
  unfold SUBBYTE. rewrite E1, E2, E3, E4. apply w4_lor; auto.
Qed.

(** ** Facts checked on all 256 octets *)
Definition sweep (P : Z -> bool) : bool := forallb P (map Z.of_nat (seq 0 256)).
Lemma sweep_ok P : sweep P = true -> forall x, oct x -> P x = true.
Proof.
  unfold sweep. rewrite forallb_forall. intros H x X. apply H. apply in_map_iff.
  exists (Z.to_nat x). unfold oct in X. split; [lia|]. apply in_seq. lia.
Qed.
Definition octb (x : Z) : bool := (0 <=? x) && (x <? 256).
Lemma octb_iff x : octb x = true <-> oct x.
Proof. unfold octb, oct. lia. Qed.

Lemma tables x : oct x ->
  tbl sbox x = S_box x /\ oct (S_box x) /\ tbl isbox (S_box x) = x /\ oct (tbl isbox x) /\ S_box (tbl isbox x) = x /\
  tbl dtbl x = w4 (gmul 2 (S_box x)) (S_box x) (S_box x) (gmul 3 (S_box x)) /\
  tbl itbl x = w4 (gmul 14 (tbl isbox x)) (gmul 9 (tbl isbox x)) (gmul 13 (tbl isbox x)) (gmul 11 (tbl isbox x)).
Proof.
  intro X. assert (S : sweep (fun x => (tbl sbox x =? S_box x) && octb (S_box x) && (tbl isbox (S_box x) =? x)
    && octb (tbl isbox x) && (S_box (tbl isbox x) =? x)
    && (tbl dtbl x =? w4 (gmul 2 (S_box x)) (S_box x) (S_box x) (gmul 3 (S_box x)))
    && (tbl itbl x =? w4 (gmul 14 (tbl isbox x)) (gmul 9 (tbl isbox x)) (gmul 13 (tbl isbox x)) (gmul 11 (tbl isbox x)))) = true)
    by (vm_compute; reflexivity).
  pose proof (sweep_ok _ S x X) as H. cbv beta in H. rewrite !andb_true_iff, !Z.eqb_eq, !octb_iff in H. tauto.
Qed.
Lemma muls x : oct x -> oct (gx x) /\
  mul 14 x = gmul 14 x /\ mul 11 x = gmul 11 x /\ mul 13 x = gmul 13 x /\ mul 9 x = gmul 9 x /\
  oct (gmul 14 x) /\ oct (gmul 11 x) /\ oct (gmul 13 x) /\ oct (gmul 9 x) /\ oct (gmul 2 x) /\ oct (gmul 3 x) /\
  M_aes.xtime x = gx x.
Proof.
  intro X. assert (S : sweep (fun x => octb (gx x) && (mul 14 x =? gmul 14 x) && (mul 11 x =? gmul 11 x) && (mul 13 x =? gmul 13 x)
     && (mul 9 x =? gmul 9 x) && octb (gmul 14 x) && octb (gmul 11 x) && octb (gmul 13 x) && octb (gmul 9 x)
     && octb (gmul 2 x) && octb (gmul 3 x) && (M_aes.xtime x =? gx x)) = true) by (vm_compute; reflexivity).
  pose proof (sweep_ok _ S x X) as H. cbv beta in H. rewrite !andb_true_iff, !Z.eqb_eq, !octb_iff in H. tauto.
Qed.

(** ** Linearity *)
Lemma gx_alt a : oct a -> gx a = Z.lxor (2 * a) (if Z.testbit a 7 then 0x11b else 0).
Proof.
  intro A. assert (S : sweep (fun a => gx a =? Z.lxor (2 * a) (if Z.testbit a 7 then 0x11b else 0)) = true) by (vm_compute; reflexivity).
  apply Z.eqb_eq. apply (sweep_ok _ S a A).
Qed.
Lemma lxor_swap a b c d : Z.lxor (Z.lxor a b) (Z.lxor c d) = Z.lxor (Z.lxor a c) (Z.lxor b d).
Proof. rewrite !Z.lxor_assoc. f_equal. rewrite <- !Z.lxor_assoc. f_equal. apply Z.lxor_comm. Qed.
Lemma gx_lxor a b : oct a -> oct b -> gx (Z.lxor a b) = Z.lxor (gx a) (gx b).
Proof.
  intros A B. rewrite !gx_alt by auto using oct_lxor. rewrite Z.lxor_spec, lxor_swap. f_equal.
  - assert (D : forall x, 2 * x = Z.shiftl x 1) by (intro; rewrite Z.shiftl_mul_pow2; lia). rewrite !D. apply Z.shiftl_lxor.
  - destruct (Z.testbit a 7), (Z.testbit b 7); reflexivity.
Qed.
Lemma gmul_bits_lxor n : forall c a b, oct a -> oct b ->
  gmul_bits n c (Z.lxor a b) = Z.lxor (gmul_bits n c a) (gmul_bits n c b).
Proof.
  induction n as [|n IH]; intros c a b A B; cbn [gmul_bits]; [reflexivity|].
  rewrite gx_lxor by auto. rewrite IH by (apply muls; auto). rewrite (lxor_swap (if Z.odd c then a else 0)).
  f_equal. destruct (Z.odd c); reflexivity.
Qed.
Lemma gmul_lxor c a b : oct a -> oct b -> gmul c (Z.lxor a b) = Z.lxor (gmul c a) (gmul c b).
Proof. apply gmul_bits_lxor. Qed.

(** ** Columns *)
Definition okcol (c : col) : Prop := let '(a, b, c, d) := c in oct a /\ oct b /\ oct c /\ oct d.
Definition okstate (s : state) : Prop := let '(a, b, c, d) := s in okcol a /\ okcol b /\ okcol c /\ okcol d.
Definition wcol (c : col) : Z := let '(a, b, c, d) := c in w4 a b c d.
Definition wst (s : state) : list Z := let '(a, b, c, d) := s in [wcol a; wcol b; wcol c; wcol d].

Definition imix (c : col) : col :=
  let '(a, b, c, d) := c in
  let x4 p q r s := Z.lxor (Z.lxor (Z.lxor p q) r) s in
  (x4 (gmul 14 a) (gmul 11 b) (gmul 13 c) (gmul 9 d), x4 (gmul 14 b) (gmul 11 c) (gmul 13 d) (gmul 9 a),
   x4 (gmul 14 c) (gmul 11 d) (gmul 13 a) (gmul 9 b), x4 (gmul 14 d) (gmul 11 a) (gmul 13 b) (gmul 9 c)).

Ltac mulocts := repeat match goal with
  | H : oct ?a |- oct (gmul _ ?a) => exact (proj1 (proj2 (proj2 (proj2 (proj2 (proj2 (muls a H))))))) || (pose proof (muls a H); tauto)
  | |- oct (Z.lxor _ _) => apply oct_lxor
  | H : oct ?a |- oct ?a => exact H
  end.

Lemma inv_mix_word_col c : okcol c -> inv_mix_word (wcol c) = wcol (imix c).
Proof.
  destruct c as [[[a b] c] d]. intros (A & B & C & D). cbn [wcol imix].
  destruct (w4_octets a b c d) as (E1 & E2 & E3 & E4); auto.
  unfold inv_mix_word, octet.
  change ((0 + 1) mod 4 * 8) with 8. change ((0 + 2) mod 4 * 8) with 16. change ((0 + 3) mod 4 * 8) with 24.
  change ((1 + 1) mod 4 * 8) with 16. change ((1 + 2) mod 4 * 8) with 24. change ((1 + 3) mod 4 * 8) with 0.
  change ((2 + 1) mod 4 * 8) with 24. change ((2 + 2) mod 4 * 8) with 0. change ((2 + 3) mod 4 * 8) with 8.
  change ((3 + 1) mod 4 * 8) with 0. change ((3 + 2) mod 4 * 8) with 8. change ((3 + 3) mod 4 * 8) with 16.
  change (0 * 8) with 0. change (1 * 8) with 8. change (2 * 8) with 16. change (3 * 8) with 24.
  rewrite !Z.shiftr_0_r, E1, E2, E3, E4.
  pose proof (muls a A) as (_ & -> & -> & -> & -> & _). pose proof (muls b B) as (_ & -> & -> & -> & -> & _).
  pose proof (muls c C) as (_ & -> & -> & -> & -> & _). pose proof (muls d D) as (_ & -> & -> & -> & -> & _).
  rewrite Z.lor_0_l. apply w4_lor; mulocts.
Qed.

Lemma okcol_xor x y : okcol x -> okcol y -> okcol (xor_col x y).
Proof. destruct x as [[[a b] c] d], y as [[[a' b'] c'] d']. intros (?&?&?&?) (?&?&?&?). cbn. auto using oct_lxor. Qed.
Lemma okcol_mix x : okcol x -> okcol (mix x).
Proof. destruct x as [[[a b] c] d]. intros (?&?&?&?). cbn [mix okcol]. repeat split; mulocts; apply oct_lxor; mulocts. Qed.
Lemma okcol_imix x : okcol x -> okcol (imix x).
Proof. destruct x as [[[a b] c] d]. intros (?&?&?&?). cbn [imix okcol]. repeat split; mulocts; apply oct_lxor; mulocts. Qed.
Lemma okcol_map f x : (forall v, oct v -> oct (f v)) -> okcol x -> okcol (map_col f x).
Proof. intro F. destruct x as [[[a b] c] d]. intros (?&?&?&?). cbn. auto. Qed.

Definition x4 (p q r s : Z) : Z := Z.lxor (Z.lxor (Z.lxor p q) r) s.
Lemma x4_split a1 a2 a3 a4 b1 b2 b3 b4 :
  x4 (Z.lxor a1 b1) (Z.lxor a2 b2) (Z.lxor a3 b3) (Z.lxor a4 b4) = Z.lxor (x4 a1 a2 a3 a4) (x4 b1 b2 b3 b4).
Proof. unfold x4. rewrite (lxor_swap a1), (lxor_swap (Z.lxor a1 a2)), (lxor_swap (Z.lxor (Z.lxor a1 a2) a3)). reflexivity. Qed.
Lemma x4_x4 p1 q1 r1 s1 p2 q2 r2 s2 p3 q3 r3 s3 p4 q4 r4 s4 :
  x4 (x4 p1 q1 r1 s1) (x4 p2 q2 r2 s2) (x4 p3 q3 r3 s3) (x4 p4 q4 r4 s4) =
  x4 (x4 p1 p2 p3 p4) (x4 q1 q2 q3 q4) (x4 r1 r2 r3 r4) (x4 s1 s2 s3 s4).
Proof.
  unfold x4 at 2 3 4 5. rewrite x4_split, x4_split, x4_split. reflexivity.
Qed.
Lemma mix_coeffs x : oct x ->
  x4 (gmul 14 (gmul 2 x)) (gmul 11 x) (gmul 13 x) (gmul 9 (gmul 3 x)) = x /\
  x4 (gmul 14 (gmul 3 x)) (gmul 11 (gmul 2 x)) (gmul 13 x) (gmul 9 x) = 0 /\
  x4 (gmul 14 x) (gmul 11 (gmul 3 x)) (gmul 13 (gmul 2 x)) (gmul 9 x) = 0 /\
  x4 (gmul 14 x) (gmul 11 x) (gmul 13 (gmul 3 x)) (gmul 9 (gmul 2 x)) = 0.
Proof.
  intro X. assert (S : sweep (fun x =>
   (x4 (gmul 14 (gmul 2 x)) (gmul 11 x) (gmul 13 x) (gmul 9 (gmul 3 x)) =? x) &&
   (x4 (gmul 14 (gmul 3 x)) (gmul 11 (gmul 2 x)) (gmul 13 x) (gmul 9 x) =? 0) &&
   (x4 (gmul 14 x) (gmul 11 (gmul 3 x)) (gmul 13 (gmul 2 x)) (gmul 9 x) =? 0) &&
   (x4 (gmul 14 x) (gmul 11 x) (gmul 13 (gmul 3 x)) (gmul 9 (gmul 2 x)) =? 0)) = true) by (vm_compute; reflexivity).
  pose proof (sweep_ok _ S x X) as H. cbv beta in H. rewrite !andb_true_iff, !Z.eqb_eq in H. tauto.
Qed.
Lemma gmul_x4 k a b c d : oct a -> oct b -> oct c -> oct d ->
  gmul k (x4 a b c d) = x4 (gmul k a) (gmul k b) (gmul k c) (gmul k d).
Proof. intros. unfold x4. rewrite !gmul_lxor; auto using oct_lxor. Qed.

Lemma mix_eq a b c d : mix (a, b, c, d) =
  (x4 (gmul 2 a) (gmul 3 b) c d, x4 a (gmul 2 b) (gmul 3 c) d, x4 a b (gmul 2 c) (gmul 3 d), x4 (gmul 3 a) b c (gmul 2 d)).
Proof. reflexivity. Qed.
Lemma imix_eq a b c d : imix (a, b, c, d) =
  (x4 (gmul 14 a) (gmul 11 b) (gmul 13 c) (gmul 9 d), x4 (gmul 14 b) (gmul 11 c) (gmul 13 d) (gmul 9 a),
   x4 (gmul 14 c) (gmul 11 d) (gmul 13 a) (gmul 9 b), x4 (gmul 14 d) (gmul 11 a) (gmul 13 b) (gmul 9 c)).
Proof. reflexivity. Qed.
Lemma col_eq (a b c d a' b' c' d' : Z) : a = a' -> b = b' -> c = c' -> d = d' -> (a, b, c, d) = (a', b', c', d').
Proof. congruence. Qed.
Lemma imix_mix c : okcol c -> imix (mix c) = c.
Proof.
  destruct c as [[[a b] c] d]. intros (A & B & C & D). rewrite mix_eq, imix_eq.
  rewrite !gmul_x4 by mulocts.
  destruct (mix_coeffs a A) as (A1 & A2 & A3 & A4). destruct (mix_coeffs b B) as (B1 & B2 & B3 & B4).
  destruct (mix_coeffs c C) as (C1 & C2 & C3 & C4). destruct (mix_coeffs d D) as (D1 & D2 & D3 & D4).
  apply col_eq; rewrite x4_x4, ?A1, ?A2, ?A3, ?A4, ?B1, ?B2, ?B3, ?B4, ?C1, ?C2, ?C3, ?C4, ?D1, ?D2, ?D3, ?D4;
    unfold x4; rewrite ?Z.lxor_0_r, ?Z.lxor_0_l; reflexivity.
Qed.
Lemma imix_xor x y : okcol x -> okcol y -> imix (xor_col x y) = xor_col (imix x) (imix y).
Proof.
  destruct x as [[[a b] c] d], y as [[[a' b'] c'] d']. intros (?&?&?&?) (?&?&?&?). cbn [xor_col].
  rewrite !imix_eq. cbn [xor_col]. rewrite !gmul_lxor by auto. rewrite !x4_split. reflexivity.
Qed.
Lemma xor_col_cancel x y : xor_col (xor_col x y) y = x.
Proof. destruct x as [[[a b] c] d], y as [[[a' b'] c'] d']. cbn. rewrite !Z.lxor_assoc, !Z.lxor_nilpotent, !Z.lxor_0_r. reflexivity. Qed.

(** ** States *)
Definition InvSub : state -> state := map_state (map_col (tbl isbox)).
Definition InvShift (s : state) : state :=
  let '((a0,b0,c0,d0), (a1,b1,c1,d1), (a2,b2,c2,d2), (a3,b3,c3,d3)) := s in
  ((a0,b3,c2,d1), (a1,b0,c3,d2), (a2,b1,c0,d3), (a3,b2,c1,d0)).
Definition InvMix : state -> state := map_state imix.

Ltac dstate s := destruct s as [[[[[[?a0 ?b0] ?c0] ?d0] [[[?a1 ?b1] ?c1] ?d1]] [[[?a2 ?b2] ?c2] ?d2]] [[[?a3 ?b3] ?c3] ?d3]].
Ltac dok H := destruct H as ((? & ? & ? & ?) & (? & ? & ? & ?) & (? & ? & ? & ?) & (? & ? & ? & ?)).

Lemma ok_sub s : okstate s -> okstate (SubBytes s).
Proof. dstate s. intro H; dok H. cbn. repeat split; apply tables; assumption. Qed.
Lemma ok_shift s : okstate s -> okstate (ShiftRows s).
Proof. dstate s. intro H; dok H. cbn. repeat split; apply H0 || assumption || (unfold oct in *; lia). Qed.
Lemma ok_mix s : okstate s -> okstate (MixColumns s).
Proof. destruct s as [[[a b] c] d]. intros (?&?&?&?). cbn. auto using okcol_mix. Qed.
Lemma ok_imix s : okstate s -> okstate (InvMix s).
Proof. destruct s as [[[a b] c] d]. intros (?&?&?&?). cbn. auto using okcol_imix. Qed.
Lemma ok_add s k : okstate s -> okstate k -> okstate (AddRoundKey s k).
Proof. destruct s as [[[a b] c] d], k as [[[a' b'] c'] d']. intros (?&?&?&?) (?&?&?&?). cbn. auto using okcol_xor. Qed.
Lemma add_cancel s k : AddRoundKey (AddRoundKey s k) k = s.
Proof. destruct s as [[[a b] c] d], k as [[[a' b'] c'] d']. cbn. rewrite !xor_col_cancel. reflexivity. Qed.
Lemma imix_add s k : okstate s -> okstate k -> InvMix (AddRoundKey s k) = AddRoundKey (InvMix s) (InvMix k).
Proof. destruct s as [[[a b] c] d], k as [[[a' b'] c'] d']. intros (?&?&?&?) (?&?&?&?). cbn. rewrite !imix_xor by auto. reflexivity. Qed.
Lemma imix_mixcols s : okstate s -> InvMix (MixColumns s) = s.
Proof. destruct s as [[[a b] c] d]. intros (?&?&?&?). unfold InvMix, MixColumns, map_state. rewrite !imix_mix by auto. reflexivity. Qed.
Lemma inv_shift_sub s : okstate s -> InvSub (InvShift (ShiftRows (SubBytes s))) = s.
Proof.
  dstate s. intro H; dok H. cbn [SubBytes map_state map_col ShiftRows InvShift InvSub].
  repeat match goal with H : oct ?x |- context [tbl isbox (S_box ?x)] => rewrite (proj1 (proj2 (proj2 (tables x H)))) end.
  reflexivity.
Qed.

(** ** The code on states *)
Lemma wcol_xor x y : okcol x -> okcol y -> Z.lxor (wcol x) (wcol y) = wcol (xor_col x y).
Proof. destruct x as [[[a b] c] d], y as [[[a' b'] c'] d']. intros (?&?&?&?) (?&?&?&?). cbn. apply w4_xor; auto. Qed.
Lemma wcol_inj x y : okcol x -> okcol y -> wcol x = wcol y -> x = y.
Proof.
  destruct x as [[[a b] c] d], y as [[[a' b'] c'] d']. unfold okcol, oct, wcol, w4. intros.
  assert (a = a') by lia. assert (b = b') by lia. assert (c = c') by lia. assert (d = d') by lia. congruence.
Qed.

Lemma xor_col_comm x y : xor_col x y = xor_col y x.
Proof. destruct x as [[[a b] c] d], y as [[[a' b'] c'] d']. cbn. rewrite (Z.lxor_comm a), (Z.lxor_comm b), (Z.lxor_comm c), (Z.lxor_comm d). reflexivity. Qed.
Lemma key_add_state s k : okstate s -> okstate k -> key_addition32 (wst s) (wst k) = wst (AddRoundKey s k).
Proof.
  destruct s as [[[a b] c] d], k as [[[a' b'] c'] d']. intros (?&?&?&?) (?&?&?&?).
  unfold key_addition32, wst. cbn [map nth AddRoundKey]. 
  rewrite !wcol_xor by auto. rewrite (xor_col_comm a'), (xor_col_comm b'), (xor_col_comm c'), (xor_col_comm d'). reflexivity.
Qed.

Lemma x4_r p q r s : Z.lxor p (Z.lxor q (Z.lxor r s)) = x4 p q r s.
Proof. unfold x4. rewrite !Z.lxor_assoc. reflexivity. Qed.
Lemma x4_rot p q r s : x4 p q r s = x4 q r s p.
Proof. unfold x4. rewrite (Z.lxor_comm _ p), !Z.lxor_assoc. reflexivity. Qed.
Lemma dtable_col a b c d : oct a -> oct b -> oct c -> oct d ->
  Z.lxor (tbl dtbl a) (ROTRBYTE (Z.lxor (tbl dtbl b) (ROTRBYTE (Z.lxor (tbl dtbl c) (ROTRBYTE (tbl dtbl d)))))) =
  wcol (mix (map_col S_box (a, b, c, d))).
Proof.
  intros A B C D.
  destruct (tables a A) as (_ & A1 & _ & _ & _ & -> & _). destruct (tables b B) as (_ & B1 & _ & _ & _ & -> & _).
  destruct (tables c C) as (_ & C1 & _ & _ & _ & -> & _). destruct (tables d D) as (_ & D1 & _ & _ & _ & -> & _).
  cbn [map_col]. rewrite mix_eq. cbn [wcol].
  revert A1 B1 C1 D1. generalize (S_box a) (S_box b) (S_box c) (S_box d). clear. intros a b c d A B C D.
  repeat first [rewrite ROTR_w4 by mulocts | rewrite w4_xor by mulocts].
  rewrite !x4_r. reflexivity.
Qed.
Lemma itable_col a b c d : oct a -> oct b -> oct c -> oct d ->
  Z.lxor (tbl itbl a) (ROTRBYTE (Z.lxor (tbl itbl b) (ROTRBYTE (Z.lxor (tbl itbl c) (ROTRBYTE (tbl itbl d)))))) =
  wcol (imix (map_col (tbl isbox) (a, b, c, d))).
Proof.
  intros A B C D.
  destruct (tables a A) as (_ & _ & _ & A1 & _ & _ & ->). destruct (tables b B) as (_ & _ & _ & B1 & _ & _ & ->).
  destruct (tables c C) as (_ & _ & _ & C1 & _ & _ & ->). destruct (tables d D) as (_ & _ & _ & D1 & _ & _ & ->).
  cbn [map_col]. rewrite imix_eq. cbn [wcol].
  revert A1 B1 C1 D1. generalize (tbl isbox a) (tbl isbox b) (tbl isbox c) (tbl isbox d). clear. intros a b c d A B C D.
  repeat first [rewrite ROTR_w4 by mulocts | rewrite w4_xor by mulocts].
  rewrite !x4_r. f_equal.
  - rewrite x4_rot. reflexivity.
  - rewrite x4_rot, x4_rot. reflexivity.
  - rewrite x4_rot, x4_rot, x4_rot. reflexivity.
Qed.

Lemma table_round_enc s : okstate s -> table_round dtbl idx (wst s) = wst (MixColumns (ShiftRows (SubBytes s))).
Proof.
  dstate s. intro H; dok H. unfold table_round, wst.
  cbn [map]. cbn [idx Nat.add Nat.modulo Nat.divmod fst snd Nat.sub nth wcol].
  repeat match goal with |- context [Z.land (w4 ?a ?b ?c ?d) 255] => rewrite (proj1 (w4_octets a b c d ltac:(assumption) ltac:(assumption) ltac:(assumption) ltac:(assumption))) end.
  repeat match goal with |- context [Z.land (Z.shiftr (w4 ?a ?b ?c ?d) 8) 255] => rewrite (proj1 (proj2 (w4_octets a b c d ltac:(assumption) ltac:(assumption) ltac:(assumption) ltac:(assumption)))) end.
  repeat match goal with |- context [Z.land (Z.shiftr (w4 ?a ?b ?c ?d) 16) 255] => rewrite (proj1 (proj2 (proj2 (w4_octets a b c d ltac:(assumption) ltac:(assumption) ltac:(assumption) ltac:(assumption))))) end.
  repeat match goal with |- context [Z.land (Z.shiftr (w4 ?a ?b ?c ?d) 24) 255] => rewrite (proj2 (proj2 (proj2 (w4_octets a b c d ltac:(assumption) ltac:(assumption) ltac:(assumption) ltac:(assumption))))) end.
  rewrite !dtable_col by assumption. reflexivity.
Qed.
Ltac octets := cbn [map]; cbn [idx iidx Nat.add Nat.modulo Nat.divmod fst snd Nat.sub nth wcol];
  repeat match goal with
  | |- context [Z.land (w4 ?a ?b ?c ?d) 255] =>
      rewrite (proj1 (w4_octets a b c d ltac:(assumption) ltac:(assumption) ltac:(assumption) ltac:(assumption)))
  | |- context [Z.land (Z.shiftr (w4 ?a ?b ?c ?d) 8) 255] =>
      rewrite (proj1 (proj2 (w4_octets a b c d ltac:(assumption) ltac:(assumption) ltac:(assumption) ltac:(assumption))))
  | |- context [Z.land (Z.shiftr (w4 ?a ?b ?c ?d) 16) 255] =>
      rewrite (proj1 (proj2 (proj2 (w4_octets a b c d ltac:(assumption) ltac:(assumption) ltac:(assumption) ltac:(assumption)))))
  | |- context [Z.land (Z.shiftr (w4 ?a ?b ?c ?d) 24) 255] =>
      rewrite (proj2 (proj2 (proj2 (w4_octets a b c d ltac:(assumption) ltac:(assumption) ltac:(assumption) ltac:(assumption)))))
  end.
Lemma table_round_dec s : okstate s -> table_round itbl iidx (wst s) = wst (InvMix (InvSub (InvShift s))).
Proof.
  dstate s. intro H; dok H. unfold table_round, wst. octets.
  rewrite !itable_col by assumption. reflexivity.
Qed.
Lemma sbox_ok x : oct x -> oct (tbl sbox x).
Proof. intro X. destruct (tables x X) as (-> & ? & _). assumption. Qed.
Lemma isbox_ok x : oct x -> oct (tbl isbox x).
Proof. intro X. apply (tables x X). Qed.
Lemma last_round_enc s : okstate s -> last_round sbox idx (wst s) = wst (ShiftRows (SubBytes s)).
Proof.
  dstate s. intro H; dok H. unfold last_round, wst.
  cbn [map]. rewrite !land_high by lia. octets. rewrite !w4_lor by assumption.
  rewrite !SUB_w4 by auto using sbox_ok. cbn [SubBytes map_state map_col ShiftRows wcol].
  repeat match goal with H : oct ?x |- context [tbl sbox ?x] => rewrite (proj1 (tables x H)) end.
  reflexivity.
Qed.
Lemma last_round_dec s : okstate s -> last_round isbox iidx (wst s) = wst (InvSub (InvShift s)).
Proof.
  dstate s. intro H; dok H. unfold last_round, wst.
  cbn [map]. rewrite !land_high by lia. octets. rewrite !w4_lor by assumption.
  rewrite !SUB_w4 by auto using isbox_ok. reflexivity.
Qed.
Lemma ok_isub s : okstate s -> okstate (InvSub s).
Proof. dstate s. intro H; dok H. cbn [InvSub map_state map_col okstate okcol]. repeat split; apply isbox_ok; assumption. Qed.
Lemma ok_ishift s : okstate s -> okstate (InvShift s).
Proof. dstate s. intro H; dok H. cbn. auto 10. Qed.

(** ** The key schedule *)
Lemma map_nth_wcol w i : nth i (map wcol w) 0 = wcol (nth i w zero_col).
Proof. change 0 with (wcol zero_col) at 1. apply map_nth. Qed.
Lemma oct_0 : oct 0. Proof. unfold oct; lia. Qed.
Lemma ok_nth w i : Forall okcol w -> okcol (nth i w zero_col).
Proof.
  intro F. destruct (Nat.lt_ge_cases i (length w)).
  - apply (proj1 (Forall_forall _ _) F). apply nth_In. assumption.
  - rewrite nth_overflow by assumption. cbn. auto using oct_0.
Qed.
Lemma rcon_oct n : oct (rcon n).
Proof. induction n; cbn [rcon]; [unfold oct; lia|]. apply muls. assumption. Qed.
Lemma sub_word c : okcol c -> SUBBYTE (wcol c) sbox = wcol (map_col S_box c).
Proof.
  destruct c as [[[a b] c] d]. intros (A & B & C & D). cbn [wcol map_col]. rewrite SUB_w4 by auto using sbox_ok.
  rewrite (proj1 (tables a A)), (proj1 (tables b B)), (proj1 (tables c C)), (proj1 (tables d D)). reflexivity.
Qed.
Lemma rot_word c : okcol c -> ROTBYTE (wcol c) = wcol (RotWord c).
Proof. destruct c as [[[a b] c] d]. intros (A & B & C & D). apply ROT_w4; auto. Qed.
Lemma ok_rot c : okcol c -> okcol (RotWord c).
Proof. destruct c as [[[a b] c] d]. cbn. tauto. Qed.
Lemma ok_sword c : okcol c -> okcol (map_col S_box c).
Proof. apply okcol_map. intros v V. apply (tables v V). Qed.
Lemma rcon_col x : oct x -> okcol (x, 0, 0, 0) /\ x = wcol (x, 0, 0, 0).
Proof. intro. split; [cbn; auto using oct_0|]. unfold wcol, w4. lia. Qed.

Lemma expand_ok nk : (0 < nk)%nat -> forall m w, Forall okcol w -> (nk <= length w)%nat ->
  expand_keys m nk (length w) (map wcol w) (rcon ((length w - 1) / nk)) = map wcol (KeyExpansion m nk w) /\
  Forall okcol (KeyExpansion m nk w) /\ length (KeyExpansion m nk w) = (length w + m)%nat.
Proof.
  intro NK. induction m as [|m IH]; intros w F L; cbn [expand_keys KeyExpansion]; [split; [reflexivity|split; [assumption|lia]]|].
  rewrite !map_nth_wcol.
  set (i := length w) in *. set (t := nth (i - 1) w zero_col).
  assert (T : okcol t) by (apply ok_nth; assumption).
  set (temp := if (i mod nk =? 0)%nat then xor_col (map_col S_box (RotWord t)) (S_aes.rcon (i / nk - 1), 0, 0, 0)
               else if (6 <? nk)%nat && (i mod nk =? 4)%nat then map_col S_box t else t).
  assert (TO : okcol temp /\
    (if (i mod nk =? 0)%nat
     then (Z.lxor (SUBBYTE (ROTBYTE (wcol t)) sbox) (rcon ((i - 1) / nk)), xtime (Z.land (rcon ((i - 1) / nk)) 255))
     else if (6 <? nk)%nat && (i mod nk =? 4)%nat then (SUBBYTE (wcol t) sbox, rcon ((i - 1) / nk))
     else (wcol t, rcon ((i - 1) / nk))) = (wcol temp, rcon (i / nk))).
  { unfold temp. destruct (i mod nk =? 0)%nat eqn:E.
    - apply Nat.eqb_eq in E.
      assert (D : ((i - 1) / nk = i / nk - 1)%nat).
      { pose proof (Nat.div_mod i nk ltac:(lia)) as DM. rewrite E in DM.
        symmetry. apply (Nat.div_unique (i - 1) nk (i / nk - 1) (nk - 1)); [lia|].
        assert (1 <= i / nk)%nat by (apply Nat.div_le_lower_bound; lia). nia. }
      rewrite D. pose proof (rcon_oct (i / nk - 1)) as R. destruct (rcon_col _ R) as (R1 & R2).
      split; [apply okcol_xor; auto using ok_sword, ok_rot|]. f_equal.
      + rewrite rot_word, sub_word by auto using ok_rot. rewrite R2 at 1. apply wcol_xor; auto using ok_sword, ok_rot.
      + replace (i / nk)%nat with (S (i / nk - 1)) at 2.
        2:{ assert (1 <= i / nk)%nat by (apply Nat.div_le_lower_bound; lia). lia. }
        cbn [rcon]. change 255 with (Z.ones 8). rewrite Z.land_ones by lia. change (2 ^ 8) with 256. rewrite Z.mod_small by exact R.
        apply muls. assumption.
    - apply Nat.eqb_neq in E.
      assert (D : ((i - 1) / nk = i / nk)%nat).
      { pose proof (Nat.div_mod i nk ltac:(lia)) as DM. pose proof (Nat.mod_upper_bound i nk ltac:(lia)).
        symmetry. apply (Nat.div_unique (i - 1) nk (i / nk) (i mod nk - 1)); lia. }
      rewrite D. destruct ((6 <? nk)%nat && (i mod nk =? 4)%nat).
      + split; [auto using ok_sword|]. rewrite sub_word by assumption. reflexivity.
      + split; [assumption|]. reflexivity. }
  destruct TO as (TO & ->).
  rewrite wcol_xor by auto using ok_nth.
  change [wcol (xor_col (nth (i - nk) w zero_col) temp)] with (map wcol [xor_col (nth (i - nk) w zero_col) temp]).
  rewrite <- map_app. set (w' := w ++ [xor_col (nth (i - nk) w zero_col) temp]).
  assert (LW : length w' = (i + 1)%nat) by (unfold w'; rewrite app_length; reflexivity).
  specialize (IH w'). rewrite LW in IH. replace (i + 1 - 1)%nat with i in IH by lia.
  destruct IH as (I1 & I2 & I3).
  - unfold w'. apply Forall_app. split; [assumption|]. constructor; [|constructor]. apply okcol_xor; auto using ok_nth.
  - lia.
  - split; [exact I1|]. split; [exact I2|]. rewrite I3. lia.
Qed.

(** ** Blocks and round keys *)
Lemma bv_oct b : oct (bv b).
Proof. unfold oct. destruct b; vm_compute; split; congruence || reflexivity. Qed.
Lemma ok_columns n : forall l, (length l <= n)%nat -> Forall okcol (columns (map bv l)).
Proof.
  induction n as [|n IH]; intros l L.
  - destruct l; [constructor|cbn in L; lia].
  - destruct l as [|a [|b [|c [|d l]]]]; try constructor; cbn in L.
    + repeat split; apply bv_oct.
    + apply IH. lia.
Qed.
Lemma columns_length n : forall l : list Z, length l = (4 * n)%nat -> length (columns l) = n.
Proof.
  induction n as [|n IH]; intros l L.
  - destruct l; [reflexivity|cbn in L; lia].
  - destruct l as [|a [|b [|c [|d l]]]]; cbn [length] in L; try lia. cbn [columns length]. rewrite IH; lia.
Qed.
Lemma key_word_col k a b c d r : k = O -> key_word (a :: b :: c :: d :: r) k = wcol (bv a, bv b, bv c, bv d).
Proof.
  intros ->. unfold key_word, kbyte. cbn [Nat.mul Nat.add nth wcol].
  pose proof (bv_oct a). pose proof (bv_oct b). pose proof (bv_oct c). pose proof (bv_oct d).
  rewrite !Z.shiftl_mul_pow2 by lia. change (2 ^ 8) with 256. change (2 ^ 16) with 65536. change (2 ^ 24) with 16777216.
  rewrite u32_small by (unfold oct in *; lia). unfold w4. lia.
Qed.
Lemma key_words n : forall key, length key = (4 * n)%nat -> map (key_word key) (seq 0 n) = map wcol (columns (map bv key)).
Proof.
  induction n as [|n IH]; intros key L.
  - destruct key; [reflexivity|cbn in L; lia].
  - destruct key as [|a [|b [|c [|d key]]]]; cbn [length] in L; try lia.
    cbn [seq map columns]. rewrite key_word_col by reflexivity. f_equal.
    rewrite <- seq_shift, map_map. rewrite <- IH by lia. apply map_ext. intro i. unfold key_word, kbyte.
    replace (S i * 4)%nat with (S (S (S (S (i * 4))))) by lia. reflexivity.
Qed.

Lemma round_key_wst w r : (4 * r + 4 <= length w)%nat -> round_key (map wcol w) r = wst (round_key_of w r).
Proof.
  intro L. unfold round_key, round_key_of. rewrite skipn_map, firstn_map.
  set (m := (4 * r)%nat) in *.
  assert (S : forall j, nth (m + j) w zero_col = nth j (skipn m w) zero_col).
  { intro j. clear -j. revert w. induction m; intro w; [reflexivity|]. destruct w; [cbn; destruct j; destruct (m + _)%nat; reflexivity|apply IHm]. }
  rewrite <- (Nat.add_0_r m) at 2. rewrite !S.
  pose proof (skipn_length m w) as SL.
  destruct (skipn m w) as [|a [|b [|c [|d q]]]]; cbn [length] in SL; try lia. reflexivity.
Qed.
Lemma ok_round_key w r : Forall okcol w -> okstate (round_key_of w r).
Proof. intro F. cbn [round_key_of okstate]. auto using ok_nth. Qed.

Lemma block16 (l : bytes) : length l = 16%nat -> exists a b c d e f g h i j k m n o p q, l = [a;b;c;d;e;f;g;h;i;j;k;m;n;o;p;q].
Proof.
  intro L. do 16 (destruct l as [|? l]; [discriminate|]). destruct l; [|discriminate]. repeat eexists.
Qed.
Lemma ok_state_of l : length l = 16%nat -> okstate (state_of (map bv l)).
Proof.
  intro L. destruct (block16 l L) as (a&b&c&d&e&f&g&h&i&j&k&m&n&o&p&q&->). cbn [map state_of columns okstate okcol].
  repeat split; apply bv_oct.
Qed.
Lemma add_8to32 l k : length l = 16%nat -> okstate k ->
  key_addition_8to32 l (wst k) = wst (AddRoundKey (state_of (map bv l)) k).
Proof.
  intros L K. pose proof (ok_state_of l L) as O.
  rewrite <- key_add_state by assumption. unfold key_addition_8to32, key_addition32. 
  destruct (block16 l L) as (a&b&c&d&e&f&g&h&i&j&k'&m&n&o&p&q&->).
  cbn [map state_of columns wst nth wcol]. unfold kbyte. cbn [Nat.mul Nat.add nth].
  rewrite !Z.lor_0_l, !w4_lor by apply bv_oct. reflexivity.
Qed.
Lemma add_32to8 s k : okstate s -> okstate k ->
  key_addition32to8 (wst s) (wst k) = map zb (octets_of (AddRoundKey s k)).
Proof.
  intros S K. pose proof (ok_add s k S K) as O. unfold key_addition32to8. cbn [map concat app].
  destruct s as [[[s0 s1] s2] s3], k as [[[k0 k1] k2] k3]. destruct S as (?&?&?&?), K as (?&?&?&?).
  cbn [wst nth]. rewrite !wcol_xor by assumption.
  change (AddRoundKey (s0, s1, s2, s3) (k0, k1, k2, k3)) with (xor_col s0 k0, xor_col s1 k1, xor_col s2 k2, xor_col s3 k3) in *.
  destruct (xor_col s0 k0) as [[[a0 b0] c0] d0], (xor_col s1 k1) as [[[a1 b1] c1] d1],
    (xor_col s2 k2) as [[[a2 b2] c2] d2], (xor_col s3 k3) as [[[a3 b3] c3] d3]. dok O.
  change (8 * 0) with 0. change (8 * 1) with 8. change (8 * 2) with 16. change (8 * 3) with 24. rewrite !Z.shiftr_0_r.
  octets. reflexivity.
Qed.

(** ** Whole cipher *)
Definition enc_step (w : list col) s r := AddRoundKey (MixColumns (ShiftRows (SubBytes s))) (round_key_of w r).
Definition dec_step (w : list col) d r := AddRoundKey (InvMix (InvSub (InvShift d))) (InvMix (round_key_of w r)).
Lemma ok_enc_step w s r : Forall okcol w -> okstate s -> okstate (enc_step w s r).
Proof. intros. apply ok_add; auto using ok_mix, ok_shift, ok_sub, ok_round_key. Qed.
Lemma ok_enc_fold w rs : forall s, Forall okcol w -> okstate s -> okstate (fold_left (enc_step w) rs s).
Proof. induction rs; intros; cbn [fold_left]; auto using ok_enc_step. Qed.
Lemma ok_dec_step w s r : Forall okcol w -> okstate s -> okstate (dec_step w s r).
Proof. intros. apply ok_add; auto using ok_imix, ok_ishift, ok_isub, ok_round_key. Qed.
Lemma ok_dec_fold w rs : forall s, Forall okcol w -> okstate s -> okstate (fold_left (dec_step w) rs s).
Proof. induction rs; intros; cbn [fold_left]; auto using ok_dec_step. Qed.
Lemma dec_fold w : Forall okcol w -> forall rs s, okstate s ->
  fold_left (dec_step w) (rev rs) (ShiftRows (SubBytes (fold_left (enc_step w) rs s))) = ShiftRows (SubBytes s).
Proof.
  intro F. induction rs as [|r rs IH]; intros s S; [reflexivity|].
  cbn [rev fold_left]. rewrite fold_left_app, IH by auto using ok_enc_step. cbn [fold_left].
  unfold dec_step. rewrite inv_shift_sub by auto using ok_enc_step. unfold enc_step.
  rewrite imix_add by auto using ok_mix, ok_shift, ok_sub, ok_round_key.
  rewrite imix_mixcols by auto using ok_shift, ok_sub. apply add_cancel.
Qed.
Lemma code_enc_fold w rs : Forall okcol w -> (forall r, In r rs -> (4 * r + 4 <= length w)%nat) -> forall s, okstate s ->
  fold_left (fun x r => key_addition32 (table_round dtbl idx x) (round_key (map wcol w) r)) rs (wst s) =
  wst (fold_left (enc_step w) rs s).
Proof.
  intros F. induction rs as [|r rs IH]; intros B s S; [reflexivity|]. cbn [fold_left].
  rewrite table_round_enc, round_key_wst by (auto with datatypes).
  rewrite key_add_state by auto using ok_mix, ok_shift, ok_sub, ok_round_key.
  apply IH; auto using ok_enc_step. intros. apply B. right. assumption.
Qed.
Lemma code_dec_fold w iw rs : Forall okcol w ->
  (forall r, In r rs -> round_key iw r = wst (InvMix (round_key_of w r))) -> forall s, okstate s ->
  fold_left (fun x r => key_addition32 (table_round itbl iidx x) (round_key iw r)) rs (wst s) =
  wst (fold_left (dec_step w) rs s).
Proof.
  intros F. induction rs as [|r rs IH]; intros B s S; [reflexivity|]. cbn [fold_left].
  rewrite table_round_dec by auto. rewrite B by (left; reflexivity).
  rewrite key_add_state by auto using ok_imix, ok_isub, ok_ishift, ok_round_key.
  apply IH; auto using ok_dec_step. intros. apply B. right. assumption.
Qed.

(** The key schedule of a key of 16, 24 or 32 octets. *)
Definition schedule (key : bytes) : list col :=
  let nk := Nat.div (length key) 4 in KeyExpansion (4 * (nk + 6 + 1) - nk) nk (columns (map bv key)).
Definition aes_key (key : bytes) : Prop := (length key = 16 \/ length key = 24 \/ length key = 32)%nat.
Definition rounds (key : bytes) : nat := (Nat.div (length key) 4 + 6)%nat.

Lemma setup_ok key : aes_key key ->
  let ctx := rijndael_setup (zlen key) key in
  a_keys ctx = map wcol (schedule key) /\ a_nrounds ctx = rounds key /\
  Forall okcol (schedule key) /\ length (schedule key) = (4 * (rounds key + 1))%nat /\
  a_ikeys ctx = map wcol (firstn 4 (schedule key)) ++ map wcol (map imix (firstn (4 * rounds key - 4) (skipn 4 (schedule key))))
                ++ map wcol (skipn (4 * rounds key) (schedule key)).
Proof.
  intro K.
  assert (G : forall nk, (0 < nk)%nat -> length key = (4 * nk)%nat ->
    let w := KeyExpansion (4 * (nk + 6 + 1) - nk) nk (columns (map bv key)) in
    expand_keys (4 * (nk + 6 + 1) - nk) nk nk (map (key_word key) (seq 0 nk)) 1 = map wcol w /\ Forall okcol w /\
    length w = (4 * (nk + 6 + 1))%nat).
  { intros nk NK L w. pose proof (columns_length nk (map bv key)) as CL. rewrite map_length in CL. specialize (CL L).
    pose proof (ok_columns (length key) key (Nat.le_refl _)) as OC.
    destruct (expand_ok nk NK (4 * (nk + 6 + 1) - nk) _ OC) as (E1 & E2 & E3); [lia|].
    rewrite CL in *. replace ((nk - 1) / nk)%nat with O in E1 by (symmetry; apply Nat.div_small; lia).
    rewrite key_words by assumption. split; [exact E1|]. split; [exact E2|]. unfold w. rewrite E3. lia. }
  assert (I : forall l, Forall okcol l -> map inv_mix_word (map wcol l) = map wcol (map imix l)).
  { intros l F. rewrite !map_map. apply map_ext_in. intros c C. apply inv_mix_word_col.
    apply (proj1 (Forall_forall _ _) F). assumption. }
  assert (FS : forall m n w, Forall okcol w -> Forall okcol (firstn m (skipn n w))).
  { intros m n w F. apply Forall_forall. intros x X. apply (proj1 (Forall_forall _ _) F).
    rewrite <- (firstn_skipn n w). apply in_or_app. right.
    rewrite <- (firstn_skipn m (skipn n w)). apply in_or_app. left. assumption. }
  unfold rijndael_setup, rounds, schedule, zlen.
  destruct K as [K|[K|K]]; rewrite K; cbn [Z.of_nat Pos.of_succ_nat Pos.succ].
  - change (16 >=? 32) with false. change (16 >=? 24) with false. cbv iota.
    destruct (G 4%nat) as (G1 & G2 & G3); [lia|lia|]. change (16 / 4)%nat with 4%nat.
    change (4 + 6 + 1)%nat with (10 + 1)%nat in *. rewrite G1. cbn [a_keys a_ikeys a_nrounds].
    split; [reflexivity|]. split; [reflexivity|]. split; [exact G2|]. split; [exact G3|].
    rewrite firstn_map. f_equal. rewrite !skipn_map, firstn_map. rewrite I by auto. reflexivity.
  - change (24 >=? 32) with false. change (24 >=? 24) with true. cbv iota.
    destruct (G 6%nat) as (G1 & G2 & G3); [lia|lia|]. change (24 / 4)%nat with 6%nat.
    change (6 + 6 + 1)%nat with (12 + 1)%nat in *. rewrite G1. cbn [a_keys a_ikeys a_nrounds].
    split; [reflexivity|]. split; [reflexivity|]. split; [exact G2|]. split; [exact G3|].
    rewrite firstn_map. f_equal. rewrite !skipn_map, firstn_map. rewrite I by auto. reflexivity.
  - change (32 >=? 32) with true. cbv iota.
    destruct (G 8%nat) as (G1 & G2 & G3); [lia|lia|]. change (32 / 4)%nat with 8%nat.
    change (8 + 6 + 1)%nat with (14 + 1)%nat in *. rewrite G1. cbn [a_keys a_ikeys a_nrounds].
    split; [reflexivity|]. split; [reflexivity|]. split; [exact G2|]. split; [exact G3|].
    rewrite firstn_map. f_equal. rewrite !skipn_map, firstn_map. rewrite I by auto. reflexivity.
Qed.

Definition ischedule (w : list col) (nr : nat) : list col :=
  firstn 4 w ++ map imix (firstn (4 * nr - 4) (skipn 4 w)) ++ skipn (4 * nr) w.
Lemma nth_skipn {A} (d : A) m : forall w j, nth j (skipn m w) d = nth (m + j) w d.
Proof. induction m; intros w j; [reflexivity|]. destruct w; [cbn; destruct j; reflexivity|apply IHm]. Qed.
Lemma nth_firstn_lt {A} (d : A) m : forall w j, (j < m)%nat -> nth j (firstn m w) d = nth j w d.
Proof. induction m; intros w j J; [lia|]. destruct w; [reflexivity|]. destruct j; [reflexivity|]. cbn [firstn nth]. apply IHm. lia. Qed.
Lemma isched_length w nr : (1 <= nr)%nat -> length w = (4 * (nr + 1))%nat -> length (ischedule w nr) = length w.
Proof. intros N L. unfold ischedule. rewrite !app_length, map_length, !firstn_length, !skipn_length. lia. Qed.
Lemma isched_nth w nr i : (1 <= nr)%nat -> length w = (4 * (nr + 1))%nat ->
  nth i (ischedule w nr) zero_col =
  if (i <? 4)%nat || (4 * nr <=? i)%nat then nth i w zero_col else imix (nth i w zero_col).
Proof.
  intros N L. unfold ischedule.
  assert (L1 : length (firstn 4 w) = 4%nat) by (rewrite firstn_length; lia).
  assert (L2 : length (map imix (firstn (4 * nr - 4) (skipn 4 w))) = (4 * nr - 4)%nat).
  { rewrite map_length, firstn_length, skipn_length. lia. }
  destruct (i <? 4)%nat eqn:E1; cbn [orb].
  - apply Nat.ltb_lt in E1. rewrite app_nth1 by lia. apply nth_firstn_lt. lia.
  - apply Nat.ltb_ge in E1. rewrite app_nth2 by lia. rewrite L1.
    destruct (4 * nr <=? i)%nat eqn:E2.
    + apply Nat.leb_le in E2. rewrite app_nth2 by lia. rewrite L2, nth_skipn. f_equal. lia.
    + apply Nat.leb_gt in E2. rewrite app_nth1 by lia.
      change zero_col with (imix zero_col) at 1. rewrite map_nth. rewrite nth_firstn_lt by lia. rewrite nth_skipn. do 2 f_equal. lia.
Qed.
Lemma isched_round w nr r : (1 <= nr)%nat -> length w = (4 * (nr + 1))%nat -> (r <= nr)%nat ->
  round_key_of (ischedule w nr) r = if (r =? 0)%nat || (r =? nr)%nat then round_key_of w r else InvMix (round_key_of w r).
Proof.
  intros N L R. unfold round_key_of. rewrite !isched_nth by assumption.
  destruct (r =? 0)%nat eqn:E1; [apply Nat.eqb_eq in E1; subst; reflexivity|]. apply Nat.eqb_neq in E1. cbn [orb].
  assert (X : forall j, (j <= 3)%nat -> ((4 * r + j <? 4)%nat || (4 * nr <=? 4 * r + j)%nat) = (r =? nr)%nat).
  { intros j J. destruct (r =? nr)%nat eqn:E; [apply Nat.eqb_eq in E|apply Nat.eqb_neq in E].
    - apply orb_true_iff. right. apply Nat.leb_le. lia.
    - apply orb_false_iff. split; [apply Nat.ltb_ge; lia|apply Nat.leb_gt; lia]. }
  rewrite <- (Nat.add_0_r (4 * r)). rewrite Nat.add_0_r at 2. 
  pose proof (X 0%nat) as X0. rewrite Nat.add_0_r in X0. rewrite ?Nat.add_0_r. rewrite X0, !X by lia.
  destruct (r =? nr)%nat; reflexivity.
Qed.

Theorem encrypt_is_aes key block : aes_key key -> length block = 16%nat ->
  rijndael_encrypt (rijndael_setup (zlen key) key) block = map zb (AES (map bv key) (map bv block)).
Proof.
  intros K B. destruct (setup_ok key K) as (K1 & K2 & K3 & K4 & _).
  unfold rijndael_encrypt. rewrite K1, K2.
  assert (KS : okstate (round_key_of (schedule key) 0)) by auto using ok_round_key.
  rewrite round_key_wst by lia. rewrite add_8to32 by auto.
  rewrite code_enc_fold.
  2: assumption. 2: intros r I; apply in_seq in I; lia. 2: auto using ok_add, ok_state_of.
  assert (OE : okstate (fold_left (enc_step (schedule key)) (seq 1 (rounds key - 1)) (AddRoundKey (state_of (map bv block)) (round_key_of (schedule key) 0)))).
  { apply ok_enc_fold; auto using ok_add, ok_state_of. }
  rewrite last_round_enc by assumption. rewrite round_key_wst by lia.
  rewrite add_32to8 by auto using ok_shift, ok_sub, ok_round_key.
  unfold AES. rewrite map_length. reflexivity.
Qed.

Lemma zb_bv_map l : map zb (map bv l) = l.
Proof. rewrite map_map. rewrite <- (map_id l) at 2. apply map_ext. apply zb_bv. Qed.
Lemma octets_state_of l : length l = 16%nat -> octets_of (state_of (map bv l)) = map bv l.
Proof. intro L. destruct (block16 l L) as (a&b&c&d&e&f&g&h&i&j&k&m&n&o&p&q&->). reflexivity. Qed.
Lemma state_octets s : okstate s -> state_of (map bv (map zb (octets_of s))) = s.
Proof.
  dstate s. intro H; dok H. cbn [octets_of map]. rewrite !bv_zb . rewrite !Z.mod_small by assumption. reflexivity.
Qed.
Lemma octets_length s : length (octets_of s) = 16%nat.
Proof. dstate s. reflexivity. Qed.
Lemma encrypt_length ctx b : length (rijndael_encrypt ctx b) = 16%nat.
Proof. reflexivity. Qed.

Theorem decrypt_encrypt key block : aes_key key -> length block = 16%nat ->
  rijndael_decrypt (rijndael_setup (zlen key) key) (rijndael_encrypt (rijndael_setup (zlen key) key) block) = block.
Proof.
  intros K B. rewrite encrypt_is_aes by assumption.
  destruct (setup_ok key K) as (K1 & K2 & K3 & K4 & K5).
  rewrite <- !map_app in K5. fold (ischedule (schedule key) (rounds key)) in K5.
  assert (NR : (1 <= rounds key)%nat) by (unfold rounds; lia).
  pose proof (isched_length _ _ NR K4) as IL. pose proof (isched_round _ _ 0 NR K4 ltac:(lia)) as R0.
  pose proof (isched_round _ _ (rounds key) NR K4 ltac:(lia)) as RN.
  assert (RM : forall r, (1 <= r < rounds key)%nat -> round_key_of (ischedule (schedule key) (rounds key)) r = InvMix (round_key_of (schedule key) r)).
  { intros r R. rewrite (isched_round _ _ r NR K4) by lia.
    replace (r =? 0)%nat with false by (symmetry; apply Nat.eqb_neq; lia).
    replace (r =? rounds key)%nat with false by (symmetry; apply Nat.eqb_neq; lia). reflexivity. }
  rewrite Nat.eqb_refl, orb_true_r in RN. cbn [Nat.eqb orb] in R0.
  unfold rijndael_decrypt, AES. rewrite K2, K5, map_length. fold (rounds key). fold (schedule key).
  unfold Cipher. fold (enc_step (schedule key)).
  set (s0 := AddRoundKey (state_of (map bv block)) (round_key_of (schedule key) 0)).
  assert (S0 : okstate s0) by (unfold s0; auto using ok_add, ok_state_of, ok_round_key).
  set (se := fold_left (enc_step (schedule key)) (seq 1 (rounds key - 1)) s0).
  assert (SE : okstate se) by (unfold se; auto using ok_enc_fold).
  rewrite (round_key_wst _ (rounds key)) by lia. rewrite RN.
  rewrite add_8to32 by (rewrite ?map_length, ?octets_length; auto using ok_round_key).
  rewrite state_octets by auto using ok_add, ok_shift, ok_sub, ok_round_key.
  rewrite add_cancel.
  rewrite (code_dec_fold (schedule key)).
  2: assumption.
  2:{ intros r I. apply in_rev in I. apply in_seq in I. rewrite round_key_wst by lia. rewrite RM by lia. reflexivity. }
  2: auto using ok_shift, ok_sub.
  unfold se. rewrite dec_fold by assumption.
  rewrite last_round_dec by auto using ok_shift, ok_sub. rewrite inv_shift_sub by assumption.
  rewrite round_key_wst by lia. rewrite R0. rewrite add_32to8 by auto using ok_round_key.
  unfold s0. rewrite add_cancel. rewrite octets_state_of by assumption. apply zb_bv_map.
Qed.
