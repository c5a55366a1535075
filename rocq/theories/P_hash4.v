(** SHA-256, SHA-384, SHA-512. *)
From Verif Require Import Bytes M_hash S_hash P_bytes P_aes P_hash1 P_hash2 P_hash3.
From Coq Require Import Init.Byte List ZArith Bool Lia.
Import ListNotations.
Open Scope Z_scope.

(** ** Bytes *)
Lemma le_bytes_le l : le_bytes (length l) (le l) = l.
Proof.
  induction l as [|b l IH]; [reflexivity|]. cbn [length le le_bytes]. pose proof (bv_range b). f_equal.
  - rewrite <- (zb_bv b) at 2. apply zb_eq_mod. rewrite (Z.mul_comm 256), Z_mod_plus_full. reflexivity.
  - replace (Z.shiftr _ 8) with (le l); [exact IH|]. rewrite Z.shiftr_div_pow2 by lia. change (2 ^ 8) with 256. rewrite (Z.mul_comm 256), Z.div_add, Z.div_small by lia. reflexivity.
Qed.
Lemma le_le_bytes k : forall x, le (le_bytes k x) = x mod 256 ^ Z.of_nat k.
Proof.
  induction k as [|k IH]; intros x; [cbn [le_bytes le Z.of_nat]; now rewrite Z.pow_0_r, Z.mod_1_r|].
  cbn [le_bytes le]. rewrite IH, bv_zb. rewrite Nat2Z.inj_succ, Z.pow_succ_r by lia.
  rewrite Z.shiftr_div_pow2 by lia. change (2 ^ 8) with 256. rewrite Z.rem_mul_r by (try lia; apply Z.pow_pos_nonneg; lia). reflexivity.
Qed.
Lemma to_le_mod k x : to_le k (x mod 256 ^ Z.of_nat k) = to_le k x.
Proof.
  rewrite <- !le_bytes_to. rewrite <- le_le_bytes. rewrite <- (le_bytes_length k x) at 1. apply le_bytes_le.
Qed.
Lemma to_le_app a : forall b x, to_le (a + b) x = to_le a x ++ to_le b (x / 256 ^ Z.of_nat a).
Proof.
  intros b x. unfold to_le. rewrite seq_app, map_app. f_equal. cbn [plus]. rewrite <- (Nat.add_0_r a) at 1.
  clear. generalize 0%nat as s. induction b as [|b IH]; intros s; [reflexivity|]. cbn [seq map]. f_equal.
  - f_equal. rewrite Nat2Z.inj_add, Z.pow_add_r, Z.div_div by (try lia; apply Z.pow_pos_nonneg; lia). reflexivity.
  - rewrite <- IH. now rewrite Nat.add_succ_r.
Qed.
Lemma to_be_mod k x : to_be k (x mod 256 ^ Z.of_nat k) = to_be k x.
Proof. unfold to_be. now rewrite to_le_mod. Qed.

Lemma firstn_zeros n m : firstn n (zeros m) = zeros (Nat.min n m).
Proof. revert m. induction n as [|n IH]; intros [|m]; [reflexivity..|]. unfold zeros in *. cbn [repeat firstn Nat.min]. now rewrite IH. Qed.
Lemma put_80 buf t z : (t <= length buf)%nat -> put (put buf t [x80]) (S t) z = put buf t (x80 :: z).
Proof. intros L. change (x80 :: z) with ([x80] ++ z). rewrite <- put_put by auto. f_equal. cbn [length]. lia. Qed.

Lemma upd_nth (l : list Z) i j x : (i < length l)%nat -> wnth (upd l i x) j = if (j =? i)%nat then x else wnth l j.
Proof.
  revert i j. induction l as [|y l IH]; intros i j L; [cbn in L; lia|]. destruct i as [|i], j as [|j]; try reflexivity.
  change (wnth (upd l i x) j = if (j =? i)%nat then x else wnth l j). apply IH. cbn in L. lia.
Qed.
Lemma upd_length (l : list Z) i x : length (upd l i x) = length l.
Proof. revert i. induction l as [|y l IH]; intros [|i]; cbn; auto. Qed.
(** ** What the two variants have in common *)
Record fits (v : variant) (p : sha2) : Prop := {
  fk : v_size v = word_size p; fk0 : (0 < word_size p)%nat; fw : p_w p = 8 * Z.of_nat (word_size p);
  fword : forall x, v_word v x = x mod 2 ^ p_w p;
  frounds : v_rounds v = p_rounds p; f16 : (16 <= p_rounds p)%nat;
  fK : forall t, (t < p_rounds p)%nat -> wnth (v_K v) t = root3 (p_w p) (at_ primes t);
  fS0 : forall x, word (p_w p) x -> v_S0 v x = p_S0 p x; fS1 : forall x, word (p_w p) x -> v_S1 v x = p_S1 p x;
  fs0 : forall x, word (p_w p) x -> v_s0 v x = p_s0 p x; fs1 : forall x, word (p_w p) x -> v_s1 v x = p_s1 p x;
  frev : forall l, length l = word_size p -> v_rev v (le l) = from_be l;
  fblock : v_block v = (16 * word_size p)%nat;
  fshort : (v_short v + 2 * word_size p = v_block v)%nat;
  fclear : (v_short v <= v_clear v <= v_block v)%nat }.
(** [counts c n]: the counter has counted n bytes *)
Record counter (v : variant) (p : sha2) (counts : Z * Z -> Z -> Prop) : Prop := {
  n0 : counts (0, 0) 0;
  nadd : forall c n d, counts c n -> 0 <= n -> 0 <= d <= Z.of_nat (v_block v) -> counts (v_add v c (Z.shiftl d 3)) (n + d);
  nused : forall c n, counts c n -> 0 <= n -> Z.shiftr (fst c) 3 mod Z.of_nat (v_block v) = n mod Z.of_nat (v_block v);
  ncount : forall c n, counts c n -> v_count v c = to_be (2 * word_size p) (8 * n) }.

Section Sha2.
Variables (v : variant) (p : sha2) (counts : Z * Z -> Z -> Prop).
Hypothesis FT : fits v p.
Hypothesis CN : counter v p counts.
Notation w := (p_w p).
Notation k := (word_size p).
Let W0 : 0 <= w.
Proof. rewrite (fw _ _ FT). lia. Qed.
Let K0 := fk0 _ _ FT.

Definition rl (r : regs) : list Z := let '((a, b, c, d), (e, f, g, h)) := r in [a; b; c; d; e; f; g; h].
Lemma round_eq W r t : Forall (word w) (rl r) -> (t < p_rounds p)%nat -> rl (sha2_round v r (wnth (v_K v) t) (at_ W t)) = sha2_step p W (rl r) t.
Proof.
  destruct r as [[[[a b] c] d] [[[e f] g] h]]. cbn [rl]. intros F T.
  assert (A : word w a) by (inversion F; auto). assert (E : word w e) by (do 4 (inversion F as [|? ? ? F']; subst; clear F; rename F' into F); inversion F; auto).
  unfold sha2_round, sha2_step. cbv zeta. cbn [rl at_ nth]. rewrite !(fword _ _ FT), (fK _ _ FT), (fS0 _ _ FT), (fS1 _ _ FT) by auto.
  unfold Ch, Maj, Choose, Majority, add. rewrite !(fword _ _ FT), lnot_mod by auto. unfold at_.
  set (C := Z.lxor (Z.land e f) _). set (M := 2 ^ w). set (S1 := p_S1 p e). set (R := root3 w _). set (x := nth t W 0).
  assert (Q : (h + S1 + C + R + x) mod M = ((((h + S1) mod M + C) mod M + R) mod M + x) mod M).
  { rewrite (Zplus_mod_idemp_l (h + S1)), (Zplus_mod_idemp_l (h + S1 + C)), (Zplus_mod_idemp_l (h + S1 + C + R)). reflexivity. }
  rewrite Q. reflexivity.
Qed.
Lemma step_words W r t : Forall (word w) r -> Forall (word w) (sha2_step p W r t) /\ length (sha2_step p W r t) = 8%nat.
Proof.
  intros F. unfold sha2_step. cbv zeta. split; [|reflexivity].
  repeat (constructor; [first [apply word_add; auto|apply words_nth; auto]|]). constructor.
Qed.
Lemma first_eq W n : forall j r, Forall (word w) (rl r) -> (j + n <= p_rounds p)%nat ->
  forall W', (forall i, (i < j + n)%nat -> wnth W i = at_ W' i) ->
  rl (sha2_first v n j W r) = fold_left (sha2_step p W') (seq j n) (rl r) /\ Forall (word w) (rl (sha2_first v n j W r)).
Proof.
  induction n as [|n IH]; intros j r F L W' E; [split; [reflexivity|exact F]|]. cbn [sha2_first seq fold_left].
  rewrite (E j) by lia. rewrite <- (round_eq W') by (auto; lia). apply IH; try lia.
  - rewrite round_eq by (auto; lia). apply step_words; auto.
  - intros i I. apply E. lia.
Qed.
Lemma next_word l : Forall (word w) l -> word w (sha2_next p l).
Proof. intros F. apply word_add; auto. Qed.
Lemma grow_suffix f n : forall l, exists pre, grow f n l = pre ++ l.
Proof.
  induction n as [|n IH]; intros l; [now exists []|]. cbn [grow]. destruct (IH (f l :: l)) as [pre E]. exists (pre ++ [f l]). now rewrite E, <- app_assoc.
Qed.
Lemma grow_at f n x l : at_ (rev (grow f n (x :: l))) (length l) = x.
Proof.
  destruct (grow_suffix f n (x :: l)) as [pre ->]. rewrite rev_app_distr. cbn [rev]. rewrite <- app_assoc. unfold at_.
  rewrite app_nth2, rev_length, Nat.sub_diag by (rewrite rev_length; lia). reflexivity.
Qed.
Lemma grow_at_old f n l i : (i < length l)%nat -> at_ (rev (grow f n l)) i = at_ (rev l) i.
Proof.
  intros L. destruct (grow_suffix f n l) as [pre ->]. rewrite rev_app_distr. unfold at_. apply app_nth1. now rewrite rev_length.
Qed.
Lemma rest_eq n : forall j W r l, (16 <= j)%nat -> length l = j -> length W = 16%nat -> Forall (word w) l ->
  (forall i, (i < 16)%nat -> wnth W ((j - 1 - i) mod 16) = at_ l i) -> Forall (word w) (rl r) -> (j + n <= p_rounds p)%nat ->
  let '(W', r') := sha2_rest v n j W r in
  length W' = 16%nat /\ rl r' = fold_left (sha2_step p (rev (grow (sha2_next p) n l))) (seq j n) (rl r) /\ Forall (word w) (rl r').
Proof.
  induction n as [|n IH]; intros j W r l J LJ LW FL E F L; [split; [exact LW|split; [reflexivity|exact F]]|]. cbn [sha2_rest seq fold_left grow]. cbv zeta.
  assert (I : forall a i, (a < 16)%nat -> (i < 16)%nat -> (a + i = 15 \/ a + i = 31)%nat -> ((j + a) mod 16 = (j - 1 - i) mod 16)%nat).
  { intros a i A I S. destruct S.
    - replace (j + a)%nat with (j - 1 - i + 1 * 16)%nat by lia. now rewrite Nat.mod_add by lia.
    - replace (j + a)%nat with (j - 1 - i + 2 * 16)%nat by lia. now rewrite Nat.mod_add by lia. }
  rewrite (I 1 14)%nat, (I 14 1)%nat, (I 9 6)%nat by lia.
  assert (E15 : wnth W (j mod 16) = at_ l 15) by (rewrite <- E by lia; rewrite <- (I 0 15)%nat by lia; do 2 f_equal; lia). rewrite E15.
  rewrite !E by lia.
  assert (X : v_word v (at_ l 15 + (v_s1 v (at_ l 1) + at_ l 6 + v_s0 v (at_ l 14))) = sha2_next p l).
  { rewrite (fword _ _ FT), (fs0 _ _ FT), (fs1 _ _ FT) by (apply words_nth; auto). unfold sha2_next, add. generalize (2 ^ w). intros M.
    set (a := p_s1 p _). set (b := at_ l 6). set (c := p_s0 p _). set (d := at_ l 15).
    rewrite (Zplus_mod_idemp_l (a + b)), (Zplus_mod_idemp_l (a + b + c)). f_equal. lia. }
  rewrite X. set (x := sha2_next p l). set (Wf := rev (grow (sha2_next p) n (x :: l))).
  assert (XF : x = at_ Wf j) by (unfold Wf; rewrite <- LJ; symmetry; apply grow_at).
  replace (sha2_round v r (wnth (v_K v) j) x) with (sha2_round v r (wnth (v_K v) j) (at_ Wf j)) by (now rewrite <- XF). pose proof (step_words Wf (rl r) j F) as [SW _].
  specialize (IH (S j) (upd W (j mod 16) x) (sha2_round v r (wnth (v_K v) j) (at_ Wf j)) (x :: l)).
  rewrite round_eq in IH by (auto; lia). fold Wf in IH. apply IH; auto; try lia.
  - cbn [length]. lia.
  - now rewrite upd_length.
  - constructor; auto. apply next_word; auto.
  - intros i I'. rewrite upd_nth by (rewrite LW; apply Nat.mod_upper_bound; lia).
    replace (S j - 1 - i)%nat with (j - i)%nat by lia. destruct i as [|i].
    + rewrite Nat.sub_0_r, Nat.eqb_refl. reflexivity.
    + destruct (Nat.eqb_spec ((j - S i) mod 16) (j mod 16)) as [Q|Q].
      * exfalso. pose proof (Nat.div_mod (j - S i) 16 ltac:(lia)). pose proof (Nat.div_mod j 16 ltac:(lia)). rewrite Q in *.
        assert (16 * (j / 16) - 16 * ((j - S i) / 16) = S i)%nat by lia. lia.
      * replace (j - S i)%nat with (j - 1 - i)%nat by lia. rewrite E by lia. reflexivity.
Qed.
Lemma rev_words b : length b = (16 * k)%nat -> map (v_rev v) (words 16 (v_size v) b) = map from_be (cut k b) /\
  Forall (word w) (map from_be (cut k b)) /\ length (map from_be (cut k b)) = 16%nat.
Proof.
  intros L. rewrite (fk _ _ FT). pose proof (cut_pieces k K0 16 b ltac:(lia)) as [P2 P1]. rewrite (words_cut k) by (auto; lia). rewrite map_map. split; [|split].
  - apply map_ext_in. intros x X. rewrite Forall_forall in P2. rewrite <- le_from. apply (frev _ _ FT). auto.
  - rewrite Forall_map. eapply Forall_impl; [|exact P2]. intros x X. cbv beta in X. rewrite from_be_le, (fw _ _ FT). apply le_word. now rewrite rev_length.
  - now rewrite map_length.
Qed.
Definition okst (st : list Z) : Prop := length st = 8%nat /\ Forall (word w) st.
Lemma block_ok st b : okst (sha2_block p st b).
Proof. unfold sha2_block. split; [reflexivity|]. rewrite Forall_map, Forall_forall. intros i _. apply word_add; auto. Qed.
Lemma transform_eq st b : okst st -> length b = (16 * k)%nat ->
  fst (sha2_transform v st b) = sha2_block p st b /\ length (snd (sha2_transform v st b)) = (16 * k)%nat.
Proof.
  intros [LS FS] L. destruct (rev_words b L) as (E & F & N). unfold sha2_transform, sha2_block. rewrite E, (frounds _ _ FT). set (M := map from_be (cut k b)) in *.
  destruct st as [|a [|b' [|c [|d [|e [|f [|g [|h [|z st]]]]]]]]]; try discriminate. clear LS.
  set (st := [a; b'; c; d; e; f; g; h]) in *. assert (RL : rl (load st) = st) by reflexivity.
  pose proof (f16 _ _ FT) as R16. set (Wf := sha2_schedule p M).
  destruct (first_eq M 16 0 (load st)) with (W' := Wf) as [P1 P2]; [now rewrite RL|lia| |].
  { intros i I. unfold Wf, sha2_schedule. rewrite grow_at_old by (rewrite rev_length; lia). now rewrite rev_involutive. }
  cbv zeta. set (r1 := sha2_first v 16 0 M (load st)) in *.
  pose proof (rest_eq (p_rounds p - 16) 16 M r1 (rev M) ltac:(lia)) as Q. destruct (sha2_rest v (p_rounds p - 16) 16 M r1) as [W' r'].
  destruct Q as (Q1 & Q2 & Q3); auto; try lia.
  - now rewrite rev_length. - now apply Forall_rev.
  - intros i I. rewrite Nat.mod_small by lia. unfold wnth, at_. rewrite rev_nth by lia. f_equal. lia.
  - fold (sha2_schedule p M) in Q2. fold Wf in Q2. rewrite P1, <- fold_left_app, RL in Q2. rewrite <- seq_app in Q2. replace (16 + (p_rounds p - 16))%nat with (p_rounds p) in Q2 by lia.
    rewrite <- Q2. destruct r' as [[[[a1 b1] c1] d1] [[[e1 f1] g1] h1]]. split.
    + unfold st. cbn [fst rl combine map seq at_ nth snd]. unfold at_. cbn [nth]. rewrite !(fword _ _ FT). reflexivity.
    + cbn [snd]. rewrite (fk _ _ FT). clear - Q1. rewrite <- Q1. clear Q1. induction W' as [|x W' IH]; [reflexivity|]. cbn [map concat length]. rewrite app_length, le_bytes_length, IH. lia.
Qed.

(** ** The context *)
Notation iv_held iv := (held _ (sha2_block p) iv (v_block v)).
Definition inv (iv : list Z) (c : sha2_ctx) (m : bytes) : Prop :=
  iv_held iv (c_state c) (c_buffer c) m /\ okst (c_state c) /\ counts (c_count c) (zlen m).
Lemma B0 : (0 < v_block v)%nat.
Proof. rewrite (fblock _ _ FT). lia. Qed.
Lemma init_inv iv : okst iv -> inv iv (sha2_init v iv) [].
Proof.
  intros O. split; [apply held_init; [apply B0|apply repeat_length]|]. split; [exact O|apply (n0 _ _ _ CN)].
Qed.
Lemma zlen_nonneg (l : bytes) : 0 <= zlen l. Proof. unfold zlen. lia. Qed.
Lemma zlen_app' (a b : bytes) : zlen (a ++ b) = zlen a + zlen b. Proof. unfold zlen. rewrite app_length. lia. Qed.
Lemma held_buf iv st buf m : iv_held iv st buf m -> length buf = v_block v.
Proof. intros (? & ? & ? & _ & _ & _ & _ & H & _); exact H. Qed.
Lemma loop_inv iv fuel : forall c m data, (length data < fuel)%nat -> inv iv c m -> (length m mod v_block v = 0)%nat ->
  inv iv (sha2_loop v fuel c data) (m ++ data).
Proof.
  pose proof B0 as BP. induction fuel as [|fuel IH]; intros c m data F I Z0; [lia|]. cbn [sha2_loop]. destruct I as (H & O & N).
  pose proof (held_buf _ _ _ _ H) as LB. destruct (Nat.leb_spec (v_block v) (length data)).
  - assert (FL : length (firstn (v_block v) data) = v_block v) by (rewrite firstn_length; lia).
    destruct (transform_eq (c_state c) (firstn (v_block v) data) O) as [T1 T2]; [now rewrite FL, (fblock _ _ FT)|].
    destruct (sha2_transform v (c_state c) (firstn (v_block v) data)) as [st buf]. cbn [fst snd] in T1, T2. subst st.
    replace (m ++ data) with ((m ++ firstn (v_block v) data) ++ skipn (v_block v) data) by (now rewrite <- app_assoc, firstn_skipn). apply IH.
    + rewrite skipn_length; lia.
    + split; [|split]; cbn [c_state c_buffer c_count].
      * apply (held_block _ _ _ _ BP (c_state c) (c_buffer c)); auto. now rewrite T2, (fblock _ _ FT).
      * apply block_ok.
      * rewrite zlen_app'. unfold zlen at 2. rewrite FL. apply (nadd _ _ _ CN); auto using zlen_nonneg. lia.
    + rewrite app_length, FL. replace (length m + v_block v)%nat with (length m + 1 * v_block v)%nat by lia. rewrite Nat.mod_add; auto; lia.
  - destruct data as [|x data]; [rewrite app_nil_r; split; auto|]. split; [|split]; auto.
    + pose proof (held_part _ _ _ _ BP (c_state c) (c_buffer c) m (x :: data) H) as P. rewrite Z0 in P. apply P. lia.
    + cbn [c_count]. rewrite zlen_app'. apply (nadd _ _ _ CN); auto using zlen_nonneg. unfold zlen. lia.
Qed.
Lemma used_eq iv c m : inv iv c m -> usedspace v c = (length m mod v_block v)%nat.
Proof.
  intros (H & O & N). unfold usedspace. rewrite (nused _ _ _ CN _ _ N (zlen_nonneg m)). unfold zlen. rewrite <- Nat2Z.inj_mod. apply Nat2Z.id.
Qed.
Lemma update_inv iv c m d : inv iv c m -> inv iv (sha2_update v c d) (m ++ d).
Proof.
  pose proof B0 as BP. intros I. unfold sha2_update. destruct d as [|x d]; [rewrite app_nil_r; exact I|]. set (dd := x :: d). cbv zeta.
  rewrite (used_eq iv c m I). destruct (Nat.ltb_spec 0 (length m mod v_block v)) as [T|T].
  - pose proof (Nat.mod_upper_bound (length m) (v_block v) ltac:(lia)) as TB. remember (length m mod v_block v)%nat as t eqn:TE.
    destruct I as (H & O & N). pose proof (held_buf _ _ _ _ H) as LB. destruct (Nat.leb_spec (v_block v - t) (length dd)).
    + assert (FL : length (firstn (v_block v - t) dd) = (v_block v - t)%nat) by (rewrite firstn_length; lia).
      assert (PL : length (put (c_buffer c) t (firstn (v_block v - t) dd)) = v_block v) by (rewrite put_length; lia).
      destruct (transform_eq (c_state c) (put (c_buffer c) t (firstn (v_block v - t) dd)) O) as [T1 T2]; [now rewrite PL, (fblock _ _ FT)|].
      destruct (sha2_transform v (c_state c) _) as [st buf]. cbn [fst snd] in T1, T2. subst st.
      replace (m ++ dd) with ((m ++ firstn (v_block v - t) dd) ++ skipn (v_block v - t) dd) by (now rewrite <- app_assoc, firstn_skipn). apply loop_inv.
      * rewrite skipn_length; lia.
      * split; [|split]; cbn [c_state c_buffer c_count].
        -- pose proof (held_fill _ _ _ _ BP (c_state c) (c_buffer c) m (firstn (v_block v - t) dd) buf H) as P. rewrite <- TE in P. apply P; [lia|]. now rewrite T2, (fblock _ _ FT).
        -- apply block_ok.
        -- rewrite zlen_app'. unfold zlen at 2. rewrite FL. apply (nadd _ _ _ CN); auto using zlen_nonneg. lia.
      * rewrite app_length, FL. rewrite Nat.add_mod, <- TE by lia. rewrite (Nat.mod_small (v_block v - t)) by lia. replace (t + (v_block v - t))%nat with (v_block v) by lia. apply Nat.mod_same; lia.
    + split; [|split]; cbn [c_state c_buffer c_count]; auto.
      * rewrite TE. apply (held_part _ _ _ _ BP); auto. lia.
      * rewrite zlen_app'. apply (nadd _ _ _ CN); auto using zlen_nonneg. unfold zlen. lia.
  - apply loop_inv; auto; lia.
Qed.
Lemma last_eq iv c m : inv iv c m ->
  sha2_last v c = fold_left (sha2_block p) (cut (v_block v) (pad (v_block v) m (to_be (2 * k) (8 * zlen m)))) iv.
Proof.
  pose proof B0 as BP. intros I. pose proof (used_eq iv c m I) as U. destruct I as (H & O & N). pose proof (held_buf _ _ _ _ H) as LB.
  unfold sha2_last. cbv zeta. rewrite U. rewrite (ncount _ _ _ CN _ _ N). set (len := to_be (2 * k) (8 * zlen m)).
  assert (LL : length len = (2 * k)%nat) by apply to_be_length. pose proof (fshort _ _ FT) as SH. pose proof (fclear _ _ FT) as CL. pose proof (fblock _ _ FT) as BL.
  pose proof (Nat.mod_upper_bound (length m) (v_block v) ltac:(lia)) as TB. remember (length m mod v_block v)%nat as t eqn:TE.
  assert (ZL : forall n, length (zeros n) = n) by (intros n; apply repeat_length).
  assert (SE : (v_short v = v_block v - length len)%nat) by lia.
  destruct (Nat.ltb_spec 0 t) as [T|T].
  - destruct (Nat.leb_spec (S t) (v_short v)) as [C|C].
    + assert (P2 : put (put (put (c_buffer c) t [x80]) (S t) (zeros (v_short v - S t))) (v_short v) len = firstn t (c_buffer c) ++ x80 :: zeros (v_block v - length len - S t) ++ len).
      { replace (put (put (c_buffer c) t [x80]) (S t) (zeros (v_short v - S t))) with (put (c_buffer c) t (x80 :: zeros (v_short v - S t))).
        2: { replace (S t) with (t + length [x80])%nat at 2 by (cbn; lia). rewrite (put_put (c_buffer c) t [x80]) by lia. reflexivity. }
        replace (v_short v) with (t + length (x80 :: zeros (v_short v - S t)))%nat at 2 by (cbn [length]; rewrite ZL; lia).
        rewrite put_put by lia. rewrite put_all by (rewrite app_length; cbn [length]; rewrite ZL; lia). rewrite SE. reflexivity. }
      rewrite P2. destruct (transform_eq (c_state c) (firstn t (c_buffer c) ++ x80 :: zeros (v_block v - length len - S t) ++ len) O) as [-> _].
      { rewrite app_length, firstn_length. cbn [length]. rewrite app_length, ZL. lia. }
      apply pad_short; auto. lia.
    + assert (P1 : (if (S t <? v_block v)%nat then put (put (c_buffer c) t [x80]) (S t) (zeros (v_block v - S t)) else put (c_buffer c) t [x80]) = firstn t (c_buffer c) ++ x80 :: zeros (v_block v - S t)).
      { destruct (Nat.ltb_spec (S t) (v_block v)).
        - rewrite put_80 by lia. apply put_all. cbn [length app]. rewrite ZL. lia.
        - replace (v_block v - S t)%nat with 0%nat by lia. apply put_all. rewrite LB. cbn [length]. rewrite ZL. lia. }
      rewrite P1. set (bl := firstn t (c_buffer c) ++ _) in *.
      assert (PL : length bl = v_block v) by (unfold bl; rewrite app_length, firstn_length; cbn [length]; rewrite ZL; lia).
      destruct (transform_eq (c_state c) bl O ltac:(lia)) as [T1 T2]. destruct (sha2_transform v (c_state c) bl) as [st buf]. cbn [fst snd] in T1, T2. subst st.
      assert (P3 : put (put buf 0 (zeros (v_clear v))) (v_short v) len = zeros (v_short v) ++ len).
      { rewrite put_all by (rewrite put_length; rewrite ?ZL; lia). f_equal. rewrite put_0. rewrite firstn_app, ZL. replace (v_short v - v_clear v)%nat with 0%nat by lia. cbn [firstn].
        rewrite app_nil_r. rewrite firstn_zeros. f_equal. lia. }
      rewrite P3. destruct (transform_eq (sha2_block p (c_state c) bl) (zeros (v_short v) ++ len) (block_ok _ _)) as [-> _]; [rewrite app_length, ZL; lia|].
      rewrite SE. apply pad_long; auto; lia.
  - assert (T0 : t = 0%nat) by lia.
    assert (P2 : put (put (put (c_buffer c) 0 (zeros (v_short v))) 0 [x80]) (v_short v) len = firstn t (c_buffer c) ++ x80 :: zeros (v_block v - length len - S t) ++ len).
    { rewrite T0, <- SE. rewrite put_all by (rewrite !put_length; rewrite ?put_length, ?ZL; cbn [length]; rewrite ?ZL; lia). rewrite !put_0, ZL.
      destruct (v_short v) as [|s]; [lia|]. cbn [length zeros repeat app skipn firstn]. fold (zeros s). rewrite firstn_app, ZL, Nat.sub_diag. cbn [firstn Nat.sub].
      rewrite app_nil_r, Nat.sub_0_r. rewrite firstn_all2 by (rewrite ZL; lia). reflexivity. }
    rewrite P2. destruct (transform_eq (c_state c) (firstn t (c_buffer c) ++ x80 :: zeros (v_block v - length len - S t) ++ len) O) as [-> _].
    { rewrite app_length, firstn_length. cbn [length]. rewrite app_length, ZL. lia. }
    apply pad_short; auto. lia.
Qed.
Lemma firstn_concat (l : list Z) n : firstn (n * k) (concat (map (to_be k) l)) = concat (map (to_be k) (firstn n l)).
Proof.
  revert n. induction l as [|x l IH]; intros n; [cbn [map concat]; now rewrite !firstn_nil|]. destruct n as [|n]; [reflexivity|].
  cbn [map concat firstn Nat.mul]. rewrite firstn_app, to_be_length. rewrite firstn_all2 by (rewrite to_be_length; lia). f_equal. rewrite <- IH. f_equal. lia.
Qed.
Lemma rev_store x : word w x -> le_bytes (v_size v) (v_rev v x) = to_be k x.
Proof.
  intros X. rewrite (fk _ _ FT). assert (E : x = le (le_bytes k x)).
  { rewrite le_le_bytes. symmetry. apply Z.mod_small. unfold word in X. rewrite (fw _ _ FT), Z.pow_mul_r in X by lia. exact X. }
  rewrite E at 1. rewrite (frev _ _ FT) by apply le_bytes_length. rewrite from_be_le. 
  rewrite <- (le_bytes_length k x) at 1. rewrite <- rev_length. rewrite le_bytes_le. now rewrite le_bytes_to.
Qed.
Lemma final_eq iv n c m : okst iv -> inv iv c m -> sha2_final v n c = sha2_digest p iv (n * k) m.
Proof.
  intros O I. unfold sha2_final, sha2_digest. rewrite (last_eq iv _ m) by auto.
  rewrite <- (fblock _ _ FT). set (st := fold_left _ _ iv). assert (OS : Forall (word w) st).
  { unfold st. generalize (cut (v_block v) (pad (v_block v) m (to_be (2 * k) (8 * zlen m)))). destruct O as [_ O]. revert O. clear -W0. intros O l. revert iv O.
    induction l as [|b l IH]; intros iv O; [exact O|]. apply IH. unfold sha2_block. rewrite Forall_map, Forall_forall. intros i _. apply word_add; auto. }
  rewrite firstn_concat. f_equal. apply map_ext_in. intros x X. apply rev_store. rewrite Forall_forall in OS. apply OS. rewrite <- (firstn_skipn n st). apply in_or_app. now left.
Qed.
Lemma digest_eq iv n m : okst iv -> sha2_final v n (sha2_update v (sha2_init v iv) m) = sha2_digest p iv (n * k) m.
Proof. intros O. apply final_eq; auto. change m with ([] ++ m) at 2. apply update_inv, init_inv, O. Qed.
End Sha2.

(** ** SHA-256 *)
Lemma S32_eq b x : 0 <= b <= 32 -> word 32 x -> S32 b x = rotr 32 b x.
Proof. intros B X. unfold S32. rewrite u32_mod. apply rotr_lor; auto. Qed.
Lemma S64_eq b x : 0 <= b <= 64 -> word 64 x -> S64 b x = rotr 64 b x.
Proof. intros B X. unfold S64. rewrite u64_mod. apply rotr_lor; auto. Qed.
Lemma shr_eq n x : 0 <= n -> Z.shiftr x n = shr n x.
Proof. intros N. unfold shr. apply Z.shiftr_div_pow2; auto. Qed.
Lemma reverse32 l : length l = 4%nat -> REVERSE32 (le l) = from_be l.
Proof.
  apply (byte_order 4); [lia| |].
  - intros x X. change (8 * Z.of_nat 4) with 32 in *. unfold REVERSE32. rewrite !u32_mod. cbv zeta. apply word_lor; [lia| |apply word_mod; lia].
    apply word_shr; try lia. apply word_land; try lia. unfold word; lia.
  - intros x n XW N. unfold REVERSE32. cbv zeta. do 32 (destruct n as [|n]; [bit1|]). lia.
Qed.
Lemma word_layer s m x : 0 <= s -> word 64 m -> word 64 (Z.lor (Z.shiftr (Z.land x m) s) (u64 (Z.shiftl (Z.land x (m / 2 ^ s)) s))).
Proof.
  intros S M. rewrite u64_mod. apply word_lor; [lia| |apply word_mod; lia]. apply word_shr; try lia. apply word_land; auto; lia.
Qed.
Lemma layer1 x n : word 64 x -> (n < 64)%nat -> Z.testbit (Z.lor (Z.shiftr x 32) (u64 (Z.shiftl x 32))) (Z.of_nat n) = Z.testbit x (Z.of_nat ((n + 32) mod 64)).
Proof. intros XW N. do 64 (destruct n as [|n]; [bit1|]). lia. Qed.
Lemma layer2 x n : word 64 x -> (n < 64)%nat ->
  Z.testbit (Z.lor (Z.shiftr (Z.land x 0xff00ff00ff00ff00) 8) (u64 (Z.shiftl (Z.land x 0x00ff00ff00ff00ff) 8))) (Z.of_nat n) =
  Z.testbit x (Z.of_nat (16 * (n / 16) + (n + 8) mod 16)).
Proof. intros XW N. do 64 (destruct n as [|n]; [bit1|]). lia. Qed.
Lemma layer3 x n : word 64 x -> (n < 64)%nat ->
  Z.testbit (Z.lor (Z.shiftr (Z.land x 0xffff0000ffff0000) 16) (u64 (Z.shiftl (Z.land x 0x0000ffff0000ffff) 16))) (Z.of_nat n) =
  Z.testbit x (Z.of_nat (32 * (n / 32) + (n + 16) mod 32)).
Proof. intros XW N. do 64 (destruct n as [|n]; [bit1|]). lia. Qed.
Lemma reverse64 l : length l = 8%nat -> REVERSE64 (le l) = from_be l.
Proof.
  assert (A : forall x, word 64 x -> word 64 (Z.lor (Z.shiftr x 32) (u64 (Z.shiftl x 32)))).
  { intros x X. rewrite u64_mod. apply word_lor; [lia|apply word_shr; auto; lia|apply word_mod; lia]. }
  assert (B : forall x, word 64 (Z.lor (Z.shiftr (Z.land x 0xff00ff00ff00ff00) 8) (u64 (Z.shiftl (Z.land x 0x00ff00ff00ff00ff) 8)))).
  { intros x. apply (word_layer 8 0xff00ff00ff00ff00); unfold word; lia. }
  apply (byte_order 8); [lia| |].
  - intros x X. unfold REVERSE64. cbv zeta. apply (word_layer 16 0xffff0000ffff0000); unfold word; lia.
  - intros x n XW N. change (8 * Z.of_nat 8) with 64 in XW. unfold REVERSE64. cbv zeta. rewrite layer3 by (auto; lia).
    rewrite layer2; [|auto|]. 2: { do 64 (destruct n as [|n]; [vm_compute; lia|]). lia. }
    rewrite layer1; [|auto|]. 2: { do 64 (destruct n as [|n]; [vm_compute; lia|]). lia. }
    do 64 (destruct n as [|n]; [reflexivity|]). lia.
Qed.
Lemma table_eq (f : nat -> Z) (l : list Z) n : l = map f (seq 0 n) -> forall t, (t < n)%nat -> wnth l t = f t.
Proof.
  intros -> t T. unfold wnth. rewrite (nth_indep _ 0 (f 0%nat)) by (rewrite map_length, seq_length; auto). rewrite map_nth. f_equal. rewrite seq_nth; auto.
Qed.
Lemma fits_256 : fits v256 sha2_32.
Proof.
  constructor.
  - reflexivity. - apply Nat.ltb_lt. reflexivity. - reflexivity. - intros x. reflexivity. - reflexivity. - apply Nat.leb_le. reflexivity.
  - apply (table_eq (fun t => root3 32 (at_ primes t))). vm_compute. reflexivity.
  - intros x X. cbn [p_w sha2_32] in X. cbn [v_S0 v256 p_S0 sha2_32]. unfold Sigma0_256, x3. rewrite !S32_eq by (auto; lia). reflexivity.
  - intros x X. cbn [p_w sha2_32] in X. cbn [v_S1 v256 p_S1 sha2_32]. unfold Sigma1_256, x3. rewrite !S32_eq by (auto; lia). reflexivity.
  - intros x X. cbn [p_w sha2_32] in X. cbn [v_s0 v256 p_s0 sha2_32]. unfold sigma0_256, x3. rewrite !S32_eq, shr_eq by (auto; lia). reflexivity.
  - intros x X. cbn [p_w sha2_32] in X. cbn [v_s1 v256 p_s1 sha2_32]. unfold sigma1_256, x3. rewrite !S32_eq, shr_eq by (auto; lia). reflexivity.
  - exact reverse32. - reflexivity. - reflexivity. - split; apply Nat.leb_le; reflexivity.
Qed.
Lemma fits_512 : fits v512 sha2_64.
Proof.
  constructor.
  - reflexivity. - apply Nat.ltb_lt. reflexivity. - reflexivity. - intros x. reflexivity. - reflexivity. - apply Nat.leb_le. reflexivity.
  - apply (table_eq (fun t => root3 64 (at_ primes t))). vm_compute. reflexivity.
  - intros x X. cbn [p_w sha2_64] in X. cbn [v_S0 v512 p_S0 sha2_64]. unfold Sigma0_512, x3. rewrite !S64_eq by (auto; lia). reflexivity.
  - intros x X. cbn [p_w sha2_64] in X. cbn [v_S1 v512 p_S1 sha2_64]. unfold Sigma1_512, x3. rewrite !S64_eq by (auto; lia). reflexivity.
  - intros x X. cbn [p_w sha2_64] in X. cbn [v_s0 v512 p_s0 sha2_64]. unfold sigma0_512, x3. rewrite !S64_eq, shr_eq by (auto; lia). reflexivity.
  - intros x X. cbn [p_w sha2_64] in X. cbn [v_s1 v512 p_s1 sha2_64]. unfold sigma1_512, x3. rewrite !S64_eq, shr_eq by (auto; lia). reflexivity.
  - exact reverse64. - reflexivity. - reflexivity. - split; apply Nat.leb_le; reflexivity.
Qed.
Lemma be_store64 x : 0 <= x < 2 ^ 64 -> le_bytes 8 (REVERSE64 x) = to_be 8 x.
Proof. intros X. exact (rev_store v512 sha2_64 fits_512 x X). Qed.
Lemma used64 B n : 0 < B -> (B | 2 ^ 61) -> 0 <= n -> Z.shiftr ((8 * n) mod 2 ^ 64) 3 mod B = n mod B.
Proof.
  intros BP D N. rewrite Z.shiftr_div_pow2 by lia. replace (2 ^ 64) with (8 * 2 ^ 61) by reflexivity. change (2 ^ 3) with 8.
  rewrite Z.mul_mod_distr_l by lia. rewrite Z.mul_comm, Z.div_mul by lia. symmetry. apply Znumtheory.Zmod_div_mod; auto; lia.
Qed.
Lemma counter_256 : counter v256 sha2_32 (fun c n => fst c = (8 * n) mod 2 ^ 64).
Proof.
  constructor.
  - reflexivity.
  - intros c n d H N D. cbn [v_add v256 add64 fst]. unfold add64. cbn [fst]. rewrite u64_mod, H, Z.shiftl_mul_pow2 by lia. change (2 ^ 3) with 8. rewrite Zplus_mod_idemp_l. f_equal. lia.
  - intros c n H N. rewrite H. apply used64; auto; [reflexivity|]. exists (2 ^ 55). reflexivity.
  - intros c n H. cbn [v_count v256]. rewrite H. rewrite be_store64 by (apply Z.mod_pos_bound; lia). apply (to_be_mod 8).
Qed.
Lemma counter_512 : counter v512 sha2_64 (fun c n => fst c = (8 * n) mod 2 ^ 64 /\ snd c = (8 * n / 2 ^ 64) mod 2 ^ 64).
Proof.
  constructor.
  - split; reflexivity.
  - intros [lo hi] n d [H1 H2] N D. cbn [fst snd] in *. cbn [v_add v512]. unfold ADDINC128. cbn [fst snd]. rewrite !u64_mod, Z.shiftl_mul_pow2 by lia. change (2 ^ 3) with 8.
    assert (DB : d * 8 < 2 ^ 64) by (cbn [v_block v512] in D; lia). subst lo hi.
    assert (E : ((8 * n) mod 2 ^ 64 + d * 8) mod 2 ^ 64 = (8 * (n + d)) mod 2 ^ 64) by (rewrite Zplus_mod_idemp_l; f_equal; lia). rewrite E. split; [reflexivity|].
    change (2 ^ 64) with 18446744073709551616 in *. set (M := 18446744073709551616) in *.
    pose proof (Z.div_mod (8 * n) M ltac:(lia)) as Dn. pose proof (Z.mod_pos_bound (8 * n) M ltac:(lia)) as Bn.
    set (q := 8 * n / M) in *. set (r := (8 * n) mod M) in *. replace (8 * (n + d)) with (r + d * 8 + q * M) by lia.
    rewrite Z_mod_plus_full, Z_div_plus_full by lia. destruct (Z.lt_ge_cases (r + d * 8) M).
    + rewrite (Z.mod_small (r + d * 8)), (Z.div_small (r + d * 8)) by lia. destruct (Z.ltb_spec (r + d * 8) (d * 8)); [lia|]. reflexivity.
    + replace ((r + d * 8) mod M) with (r + d * 8 - M).
      2: { replace (r + d * 8) with (r + d * 8 - M + 1 * M) at 2 by lia. rewrite Z_mod_plus_full, Z.mod_small; lia. }
      replace ((r + d * 8) / M) with 1.
      2: { replace (r + d * 8) with (r + d * 8 - M + 1 * M) by lia. rewrite Z_div_plus_full, Z.div_small; lia. }
      destruct (Z.ltb_spec (r + d * 8 - M) (d * 8)); [|lia]. rewrite Zplus_mod_idemp_l. f_equal. lia.
  - intros c n [H _] N. rewrite H. apply used64; auto; [reflexivity|]. exists (2 ^ 54). reflexivity.
  - intros [lo hi] n [H1 H2]. cbn [v_count v512 fst snd] in *. subst. rewrite !be_store64 by (apply Z.mod_pos_bound; lia).
    unfold to_be. rewrite <- rev_app_distr. f_equal. change (2 * word_size sha2_64)%nat with (8 + 8)%nat. rewrite to_le_app.
    change (2 ^ 64) with (256 ^ Z.of_nat 8). rewrite !to_le_mod. reflexivity.
Qed.
Lemma ok_iv w iv : forallb (fun x => (0 <=? x) && (x <? 2 ^ w)) iv = true -> Forall (word w) iv.
Proof. rewrite forallb_forall, Forall_forall. intros H x X. specialize (H x X). unfold word. lia. Qed.
Lemma sha256_correct m : sha256 m = SHA256 m.
Proof.
  unfold sha256, SHA256. replace (map (root2 32) (firstn 8 primes)) with sha256_initial_hash_value by (vm_compute; reflexivity).
  apply (digest_eq v256 sha2_32 _ fits_256 counter_256). split; [reflexivity|]. apply ok_iv. reflexivity.
Qed.
Lemma sha512_correct m : sha512 m = SHA512 m.
Proof.
  unfold sha512, SHA512. replace (map (root2 64) (firstn 8 primes)) with sha512_initial_hash_value by (vm_compute; reflexivity).
  apply (digest_eq v512 sha2_64 _ fits_512 counter_512). split; [reflexivity|]. apply ok_iv. reflexivity.
Qed.
Lemma sha384_correct m : sha384 m = SHA384 m.
Proof.
  unfold sha384, SHA384. replace (map (root2 64) (firstn 8 (skipn 8 primes))) with sha384_initial_hash_value by (vm_compute; reflexivity).
  apply (digest_eq v512 sha2_64 _ fits_512 counter_512). split; [reflexivity|]. apply ok_iv. reflexivity.
Qed.
