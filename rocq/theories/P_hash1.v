(** Words, pieces and streaming, for the hash functions. *)
From Verif Require Import Bytes M_hash S_hash P_bytes P_aes.
From Coq Require Import Init.Byte List ZArith Bool Lia.
Import ListNotations.
Open Scope Z_scope.

(** ** Words *)
Definition word (w x : Z) : Prop := 0 <= x < 2 ^ w.
Lemma word_mod w x : 0 <= w -> word w (x mod 2 ^ w).
Proof. intros. apply Z.mod_pos_bound. apply Z.pow_pos_nonneg; lia. Qed.
Lemma word_high w x n : word w x -> w <= n -> Z.testbit x n = false.
Proof.
  intros [A B] L. destruct (Z.eq_dec x 0) as [->|N]; [apply Z.testbit_0_l|].
  apply Z.bits_above_log2; [lia|]. apply Z.log2_lt_pow2 in B; lia.
Qed.
Lemma word_bits w x : 0 <= w -> (forall n, w <= n -> Z.testbit x n = false) -> word w x.
Proof.
  intros W H. assert (E : x = x mod 2 ^ w).
  { apply Z.bits_inj'. intros n N. destruct (Z.lt_ge_cases n w).
    - rewrite Z.mod_pow2_bits_low; auto. - rewrite Z.mod_pow2_bits_high, H; auto; lia. }
  rewrite E. apply word_mod; auto.
Qed.
Lemma word_land w x y : 0 <= w -> word w y -> word w (Z.land x y).
Proof. intros W Y. apply word_bits; auto. intros n L. now rewrite Z.land_spec, (word_high w y n), andb_false_r. Qed.
Lemma word_lor w x y : 0 <= w -> word w x -> word w y -> word w (Z.lor x y).
Proof. intros W X Y. apply word_bits; auto. intros n L. now rewrite Z.lor_spec, (word_high w x n), (word_high w y n). Qed.
Lemma word_lxor w x y : 0 <= w -> word w x -> word w y -> word w (Z.lxor x y).
Proof. intros W X Y. apply word_bits; auto. intros n L. now rewrite Z.lxor_spec, (word_high w x n), (word_high w y n). Qed.
Lemma word_wnot w x : word w x -> word w (wnot w x).
Proof. unfold word, wnot. lia. Qed.
Lemma lnot_mod w x : 0 <= w -> word w x -> (Z.lnot x) mod 2 ^ w = wnot w x.
Proof.
  intros W X. unfold word, wnot, Z.lnot in *. replace (Z.pred (- x)) with ((2 ^ w - 1 - x) + (-1) * 2 ^ w) by lia.
  rewrite Z_mod_plus_full. apply Z.mod_small. lia.
Qed.
Lemma wnot_spec w x n : 0 <= w -> word w x -> 0 <= n -> Z.testbit (wnot w x) n = (n <? w) && negb (Z.testbit x n).
Proof.
  intros W X N. rewrite <- lnot_mod by auto. destruct (Z.ltb_spec n w); cbn [andb].
  - rewrite Z.mod_pow2_bits_low, Z.lnot_spec; auto.
  - rewrite Z.mod_pow2_bits_high; auto.
Qed.
Lemma lxor_disjoint a b k : 0 <= k -> 0 <= a < 2 ^ k -> Z.lxor a (Z.shiftl b k) = a + b * 2 ^ k.
Proof.
  intros K A. rewrite <- lor_app by auto. apply Z.bits_inj'. intros n N. rewrite Z.lxor_spec, Z.lor_spec.
  destruct (Z.lt_ge_cases n k).
  - rewrite Z.shiftl_spec_low by auto. now destruct (Z.testbit a n).
  - rewrite (word_high k a n) by (auto; split; lia). now destruct (Z.testbit _ _).
Qed.
Lemma shl_mod w s x : 0 <= s <= w -> (Z.shiftl x s) mod 2 ^ w = Z.shiftl (x mod 2 ^ (w - s)) s.
Proof.
  intros S. rewrite !Z.shiftl_mul_pow2 by lia. replace (2 ^ w) with (2 ^ (w - s) * 2 ^ s) by (rewrite <- Z.pow_add_r by lia; f_equal; lia).
  rewrite Z.mul_mod_distr_r; auto; apply Z.pow_nonzero; lia.
Qed.
Lemma shr_small w s x : 0 <= s <= w -> word w x -> 0 <= Z.shiftr x (w - s) < 2 ^ s.
Proof.
  intros S [A B]. rewrite Z.shiftr_div_pow2 by lia. split; [apply Z.div_pos; auto; apply Z.pow_pos_nonneg; lia|].
  apply Z.div_lt_upper_bound; [apply Z.pow_pos_nonneg; lia|]. rewrite <- Z.pow_add_r by lia. replace (w - s + s) with w by lia. auto.
Qed.
Lemma rotl_alt w s x : 0 <= s <= w -> word w x -> rotl w s x = Z.shiftr x (w - s) + (x mod 2 ^ (w - s)) * 2 ^ s.
Proof.
  intros S X. unfold rotl. rewrite <- Z.shiftl_mul_pow2 by lia. rewrite shl_mod, Z.shiftl_mul_pow2, Z.shiftr_div_pow2 by lia. lia.
Qed.
Lemma rotl_lor w s x : 0 <= s <= w -> word w x -> Z.lor ((Z.shiftl x s) mod 2 ^ w) (Z.shiftr x (w - s)) = rotl w s x.
Proof. intros S X. rewrite Z.lor_comm, shl_mod by auto. rewrite lor_app by (try lia; apply shr_small; auto). rewrite rotl_alt; auto. Qed.
Lemma rotl_lxor w s x : 0 <= s <= w -> word w x -> Z.lxor ((Z.shiftl x s) mod 2 ^ w) (Z.shiftr x (w - s)) = rotl w s x.
Proof. intros S X. rewrite Z.lxor_comm, shl_mod by auto. rewrite lxor_disjoint by (try lia; apply shr_small; auto). rewrite rotl_alt; auto. Qed.
Lemma word_rotl w s x : 0 <= s <= w -> word w x -> word w (rotl w s x).
Proof.
  intros S X. rewrite rotl_alt by auto. pose proof (shr_small w s x S X).
  assert (0 <= x mod 2 ^ (w - s) < 2 ^ (w - s)) by (apply Z.mod_pos_bound, Z.pow_pos_nonneg; lia).
  assert (E : 2 ^ w = 2 ^ (w - s) * 2 ^ s) by (rewrite <- Z.pow_add_r by lia; f_equal; lia). unfold word. rewrite E. nia.
Qed.
Lemma rotr_rotl w s x : 0 <= s <= w -> word w x -> rotr w s x = rotl w (w - s) x.
Proof. intros S X. rewrite rotl_alt by (auto; lia). unfold rotr. replace (w - (w - s)) with s by lia. rewrite Z.shiftr_div_pow2 by lia. reflexivity. Qed.
Lemma rotr_lor w s x : 0 <= s <= w -> word w x -> Z.lor (Z.shiftr x s) ((Z.shiftl x (w - s)) mod 2 ^ w) = rotr w s x.
Proof.
  intros S X. rewrite rotr_rotl, Z.lor_comm by auto. rewrite <- rotl_lor by (auto; lia). now replace (w - (w - s)) with s by lia.
Qed.
Lemma word_rotr w s x : 0 <= s <= w -> word w x -> word w (rotr w s x).
Proof. intros S X. rewrite rotr_rotl by auto. apply word_rotl; auto; lia. Qed.
Lemma word_shr w s x : 0 <= s -> 0 <= w -> word w x -> word w (Z.shiftr x s).
Proof.
  intros S W [A B]. rewrite Z.shiftr_div_pow2 by lia. split; [apply Z.div_pos; auto; apply Z.pow_pos_nonneg; lia|].
  apply Z.div_lt_upper_bound; [apply Z.pow_pos_nonneg; lia|]. assert (1 <= 2 ^ s) by (apply (Z.pow_le_mono_r 2 0 s); lia). nia.
Qed.
Lemma u32_mod x : u32 x = x mod 2 ^ 32. Proof. reflexivity. Qed.
Lemma u64_mod x : u64 x = x mod 2 ^ 64. Proof. reflexivity. Qed.
Lemma add_u32 x y : u32 (x + y) = add 32 x y. Proof. reflexivity. Qed.
Lemma word_add w x y : 0 <= w -> word w (add w x y). Proof. intros. apply word_mod; auto. Qed.
Lemma T32_mod x : T32 x = x mod 2 ^ 32.
Proof. unfold T32. change 0xffffffff with (Z.ones 32). apply Z.land_ones. lia. Qed.

(** ** Bytes and words *)
Lemma from_be_app a b : from_be (a ++ b) = from_be a * 256 ^ zlen b + from_be b.
Proof.
  revert a. induction b as [|x b IH] using rev_ind; intros a; [rewrite app_nil_r; change (zlen []) with 0; unfold from_be at 3; cbn [fold_left]; lia|].
  rewrite app_assoc. unfold from_be in *. rewrite (fold_left_app _ (a ++ b) [x]), (fold_left_app _ b [x]). cbn [fold_left]. rewrite IH.
  unfold zlen. rewrite app_length. cbn [length]. rewrite Nat2Z.inj_add. rewrite Z.pow_add_r by lia. change (256 ^ Z.of_nat 1) with 256. fold (zlen b). lia.
Qed.
Lemma le_from l : le l = from_le l.
Proof.
  unfold from_le. induction l as [|b r IH]; [reflexivity|]. cbn [le rev]. rewrite from_be_app, IH.
  change (zlen [b]) with 1. unfold from_be at 3. cbn [fold_left]. lia.
Qed.
Lemma le_range l : 0 <= le l < 256 ^ zlen l.
Proof.
  induction l as [|b r IH]; [change (256 ^ zlen []) with 1; cbn [le]; lia|]. cbn [le]. pose proof (bv_range b). unfold zlen in *. cbn [length]. rewrite Nat2Z.inj_succ, Z.pow_succ_r by lia. lia.
Qed.
Lemma le_word n l : length l = n -> word (8 * Z.of_nat n) (le l).
Proof. intros <-. unfold word. rewrite Z.pow_mul_r by lia. apply le_range. Qed.
Lemma le_bytes_to n : forall x, le_bytes n x = to_le n x.
Proof.
  induction n as [|n IH]; intros x; [reflexivity|]. cbn [le_bytes]. unfold to_le. cbn [seq map]. rewrite Z.pow_0_r, Z.div_1_r. f_equal.
  rewrite IH. unfold to_le. rewrite <- seq_shift, map_map. apply map_ext. intros i. f_equal.
  rewrite Z.shiftr_div_pow2 by lia. change (2 ^ 8) with 256. rewrite Nat2Z.inj_succ, Z.pow_succ_r by lia.
  rewrite Z.div_div by (try lia; apply Z.pow_pos_nonneg; lia). reflexivity.
Qed.
Lemma to_le_length n x : length (to_le n x) = n.
Proof. unfold to_le. now rewrite map_length, seq_length. Qed.
Lemma to_be_length n x : length (to_be n x) = n.
Proof. unfold to_be. now rewrite rev_length, to_le_length. Qed.
Lemma le_bytes_length n x : length (le_bytes n x) = n.
Proof. rewrite le_bytes_to. apply to_le_length. Qed.

(** ** Pieces *)
Lemma cut_fuel k : (0 < k)%nat -> forall f l, (length l <= f)%nat -> cut_ f k l = cut k l.
Proof.
  intros K. assert (G : forall n f l, (length l <= n)%nat -> (length l <= f)%nat -> cut_ f k l = cut_ n k l).
  { induction n as [|n IH]; intros f l L F.
    - destruct l; [destruct f; reflexivity|cbn in L; lia].
    - destruct f as [|f]; [destruct l; [reflexivity|cbn in F; lia]|]. destruct l as [|b r]; [reflexivity|]. cbn [cut_]. f_equal.
      apply IH; rewrite skipn_length; cbn [length] in *; lia. }
  intros f l F. apply G; auto.
Qed.
Lemma cut_cons k a b : (0 < k)%nat -> length a = k -> cut k (a ++ b) = a :: cut k b.
Proof.
  intros K A. unfold cut at 1. rewrite app_length, A. destruct (k + length b)%nat as [|f] eqn:E; [lia|].
  destruct (a ++ b) as [|x y] eqn:X; [destruct a; [cbn in A; lia|discriminate]|]. cbn [cut_]. rewrite <- X. clear X.
  rewrite firstn_app, skipn_app, A, Nat.sub_diag, <- A, firstn_all, skipn_all. cbn [firstn skipn app]. rewrite app_nil_r. f_equal.
  apply cut_fuel; lia.
Qed.
Lemma cut_nil k : cut k [] = []. Proof. reflexivity. Qed.
Lemma cut_app k : (0 < k)%nat -> forall n a b, length a = (k * n)%nat -> cut k (a ++ b) = cut k a ++ cut k b.
Proof.
  intros K. induction n as [|n IH]; intros a b A.
  - destruct a; [reflexivity|cbn in A; lia].
  - rewrite <- (firstn_skipn k a), <- app_assoc.
    assert (F : length (firstn k a) = k) by (rewrite firstn_length; lia).
    rewrite !(cut_cons k (firstn k a)) by auto. cbn [app]. f_equal. apply IH. rewrite skipn_length. lia.
Qed.
Lemma cut_one k a : (0 < k)%nat -> length a = k -> cut k a = [a].
Proof. intros K A. rewrite <- (app_nil_r a) at 1. now rewrite cut_cons. Qed.
Lemma cut_pieces k : (0 < k)%nat -> forall n l, length l = (k * n)%nat -> Forall (fun p => length p = k) (cut k l) /\ length (cut k l) = n.
Proof.
  intros K. induction n as [|n IH]; intros l L.
  - destruct l; [split; [constructor|reflexivity]|cbn in L; lia].
  - rewrite <- (firstn_skipn k l). assert (F : length (firstn k l) = k) by (rewrite firstn_length; lia). rewrite cut_cons by auto.
    destruct (IH (skipn k l)) as [A B]; [rewrite skipn_length; lia|]. split; [constructor; auto|cbn; lia].
Qed.
Lemma words_cut k : (0 < k)%nat -> forall n l, length l = (k * n)%nat -> words n k l = map from_le (cut k l).
Proof.
  intros K. induction n as [|n IH]; intros l L.
  - destruct l; [reflexivity|cbn in L; lia].
  - assert (F : length (firstn k l) = k) by (rewrite firstn_length; lia).
    rewrite <- (firstn_skipn k l) at 2. rewrite cut_cons by auto. cbn [words map]. rewrite le_from. f_equal. apply IH. rewrite skipn_length; lia.
Qed.

(** ** Memory *)
Lemma skipn_skipn' {A} (l : list A) : forall m n, skipn m (skipn n l) = skipn (n + m) l.
Proof. induction l as [|x l IH]; intros m n; [now rewrite !skipn_nil|]. destruct n as [|n]; [reflexivity|]. apply IH. Qed.
Lemma put_length buf off d : (off + length d <= length buf)%nat -> length (put buf off d) = length buf.
Proof. intros H. unfold put. rewrite !app_length, firstn_length, skipn_length. lia. Qed.
Lemma put_first buf off d : (off <= length buf)%nat -> firstn (off + length d) (put buf off d) = firstn off buf ++ d.
Proof.
  intros H. unfold put. rewrite app_assoc, firstn_app. rewrite app_length, firstn_length.
  replace (off + length d - (Nat.min off (length buf) + length d))%nat with 0%nat by lia. rewrite firstn_O, app_nil_r.
  apply firstn_all2. rewrite app_length, firstn_length. lia.
Qed.
Lemma put_all buf off d : (off + length d = length buf)%nat -> put buf off d = firstn off buf ++ d.
Proof. intros H. rewrite <- put_first by lia. rewrite H. rewrite <- (put_length buf off d) by lia. symmetry. apply firstn_all. Qed.
Lemma put_put buf off d e : (off <= length buf)%nat -> put (put buf off d) (off + length d) e = put buf off (d ++ e).
Proof.
  intros H. unfold put at 1. rewrite put_first by auto. rewrite <- app_assoc. unfold put. f_equal. rewrite <- app_assoc. f_equal. f_equal.
  rewrite app_assoc, skipn_app. rewrite !app_length, firstn_length, Nat.min_l by auto.
  rewrite skipn_all2 by (rewrite app_length, firstn_length; lia). cbn [app]. rewrite skipn_skipn'. f_equal. lia.
Qed.
Lemma put_0 buf d : put buf 0 d = d ++ skipn (length d) buf.
Proof. reflexivity. Qed.

(** ** Streaming: [held st buf m], the context has seen the text [m] *)
Section Stream.
Variables (S : Type) (f : S -> bytes -> S) (iv : S) (B : nat).
Hypothesis BP : (0 < B)%nat.
Definition held (st : S) (buf m : bytes) : Prop :=
  exists full tail k, m = full ++ tail /\ length full = (B * k)%nat /\ (length tail < B)%nat /\
    st = fold_left f (cut B full) iv /\ length buf = B /\ firstn (length tail) buf = tail.
Lemma held_init buf : length buf = B -> held iv buf [].
Proof. intros L. exists [], [], 0%nat. cbn. repeat split; auto; lia. Qed.
Lemma held_used st buf m : held st buf m -> (length m mod B)%nat = (length m mod B)%nat /\
  exists tail, (length m mod B)%nat = length tail /\ (length tail < B)%nat /\ firstn (length tail) buf = tail /\ length buf = B.
Proof.
  intros (full & tail & k & -> & L & T & _ & Q & F). split; auto. exists tail. repeat split; auto.
  rewrite app_length, L, Nat.add_comm, Nat.mul_comm, Nat.mod_add by lia. apply Nat.mod_small; auto.
Qed.
(** more bytes, block not yet full *)
Lemma held_part st buf m d : held st buf m -> (length m mod B + length d < B)%nat ->
  held st (put buf (length m mod B) d) (m ++ d).
Proof.
  intros (full & tail & k & -> & L & T & E & Q & F) H.
  assert (M : (length (full ++ tail) mod B)%nat = length tail).
  { rewrite app_length, L, Nat.add_comm, Nat.mul_comm, Nat.mod_add by lia. apply Nat.mod_small; auto. }
  rewrite M in *. exists full, (tail ++ d), k. rewrite <- app_assoc, app_length. repeat split; auto.
  - rewrite put_length by lia. auto.
  - rewrite put_first by lia. now rewrite F.
Qed.
(** the block is filled *)
Lemma held_fill st buf m d buf' : held st buf m -> (length m mod B + length d = B)%nat -> length buf' = B ->
  held (f st (put buf (length m mod B) d)) buf' (m ++ d).
Proof.
  intros (full & tail & k & -> & L & T & E & Q & F) H Q'.
  assert (M : (length (full ++ tail) mod B)%nat = length tail).
  { rewrite app_length, L, Nat.add_comm, Nat.mul_comm, Nat.mod_add by lia. apply Nat.mod_small; auto. }
  rewrite M in *. exists (full ++ tail ++ d), [], (Datatypes.S k). rewrite <- app_assoc, app_nil_r. repeat split; auto.
  - rewrite !app_length. lia.
  - rewrite (cut_app B BP k) by auto. rewrite fold_left_app, <- E. rewrite cut_one by (auto; rewrite app_length; lia). cbn [fold_left]. f_equal.
    rewrite put_all by lia. now rewrite F.
Qed.
(** a whole block when nothing is waiting *)
Lemma held_block st buf m d buf' : held st buf m -> (length m mod B = 0)%nat -> length d = B -> length buf' = B ->
  held (f st d) buf' (m ++ d).
Proof.
  intros (full & tail & k & -> & L & T & E & Q & F) H D Q'.
  assert (M : (length (full ++ tail) mod B)%nat = length tail).
  { rewrite app_length, L, Nat.add_comm, Nat.mul_comm, Nat.mod_add by lia. apply Nat.mod_small; auto. }
  rewrite M in H. destruct tail; [|discriminate]. exists (full ++ d), [], (Datatypes.S k). rewrite !app_nil_r. repeat split; auto.
  - rewrite app_length. lia.
  - rewrite (cut_app B BP k) by auto. rewrite fold_left_app, <- E. now rewrite cut_one.
Qed.
Lemma held_zero st buf m : held st buf m -> (length m mod B = 0)%nat -> st = fold_left f (cut B m) iv.
Proof.
  intros (full & tail & k & -> & L & T & E & Q & F) H.
  assert (M : (length (full ++ tail) mod B)%nat = length tail).
  { rewrite app_length, L, Nat.add_comm, Nat.mul_comm, Nat.mod_add by lia. apply Nat.mod_small; auto. }
  rewrite M in H. destruct tail; [|discriminate]. now rewrite app_nil_r.
Qed.
Lemma pad_short st buf m len t : held st buf m -> t = (length m mod B)%nat -> (t + 1 + length len <= B)%nat ->
  f st (firstn t buf ++ x80 :: zeros (B - length len - Datatypes.S t) ++ len) = fold_left f (cut B (pad B m len)) iv.
Proof.
  intros (full & tail & k & -> & L & T & E & Q & F) TM H.
  assert (M : (length (full ++ tail) mod B)%nat = length tail).
  { rewrite app_length, L, Nat.add_comm, Nat.mul_comm, Nat.mod_add by lia. apply Nat.mod_small; auto. }
  rewrite M in TM. subst t. rewrite F. unfold pad.
  replace (Z.to_nat _) with (B - length len - Datatypes.S (length tail))%nat.
  - rewrite <- app_assoc. rewrite (cut_app B BP k) by auto. rewrite fold_left_app, <- E. unfold zeros. rewrite cut_one; [reflexivity|auto|].
    cbn [app]. rewrite !app_length. cbn [length]. rewrite app_length, repeat_length. lia.
  - unfold zlen. rewrite app_length, L. replace (Z.of_nat B - Z.of_nat (length len) - 1 - Z.of_nat (B * k + length tail)) with
      (Z.of_nat (B - length len - Datatypes.S (length tail)) + (- Z.of_nat k) * Z.of_nat B) by lia.
    rewrite Z_mod_plus_full, Z.mod_small by lia. lia.
Qed.
Lemma pad_long st buf m len t : held st buf m -> t = (length m mod B)%nat -> (B < t + 1 + length len)%nat -> (length len < B)%nat ->
  f (f st (firstn t buf ++ x80 :: zeros (B - Datatypes.S t))) (zeros (B - length len) ++ len) = fold_left f (cut B (pad B m len)) iv.
Proof.
  intros (full & tail & k & -> & L & T & E & Q & F) TM H LB.
  assert (M : (length (full ++ tail) mod B)%nat = length tail).
  { rewrite app_length, L, Nat.add_comm, Nat.mul_comm, Nat.mod_add by lia. apply Nat.mod_small; auto. }
  rewrite M in TM. subst t. rewrite F. unfold pad.
  replace (Z.to_nat _) with ((B - Datatypes.S (length tail)) + (B - length len))%nat.
  - rewrite <- app_assoc. rewrite (cut_app B BP k) by auto. rewrite fold_left_app, <- E. unfold zeros. rewrite repeat_app, <- app_assoc.
    change (tail ++ [x80] ++ repeat x00 (B - Datatypes.S (length tail)) ++ repeat x00 (B - length len) ++ len)
      with (tail ++ (x80 :: repeat x00 (B - Datatypes.S (length tail))) ++ repeat x00 (B - length len) ++ len).
    rewrite app_assoc, cut_cons; auto.
    + rewrite cut_one; [reflexivity|auto|]. rewrite app_length, repeat_length. lia.
    + rewrite app_length. cbn [length]. rewrite repeat_length. lia.
  - unfold zlen. rewrite app_length, L. replace (Z.of_nat B - Z.of_nat (length len) - 1 - Z.of_nat (B * k + length tail)) with
      (Z.of_nat (B - Datatypes.S (length tail) + (B - length len)) + (- Z.of_nat k - 1) * Z.of_nat B) by lia.
    rewrite Z_mod_plus_full, Z.mod_small by lia. lia.
Qed.
End Stream.
